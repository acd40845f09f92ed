(** Proofs about the check of command lines. *)
From Verif Require Import Base BytesModel Assoc TextModel OptionModel OptionSpec.
From Coq Require Import String.
Local Open Scope N_scope.
Local Open Scope list_scope.

Lemma list_eqb_true a b : list_eqb a b = true <-> a = b.
Proof.
  revert b; induction a as [|x a IH]; intros [|y b]; cbn [list_eqb]; try easy.
  rewrite andb_true_iff, N.eqb_eq, IH. split; [intros [-> ->]; reflexivity|intros H; injection H; auto].
Qed.
Lemma list_eqb_refl a : list_eqb a a = true.
Proof. now apply list_eqb_true. Qed.

Lemma aget_in {V} a (T : list (list N * V)) b : aget list_eqb a T = Some b -> In (a, b) T.
Proof.
  induction T as [|[k v] T IH]; cbn [aget]; [discriminate|].
  destruct (list_eqb a k) eqn:E; [|intros H; right; auto].
  apply list_eqb_true in E. subst k. intros H. injection H as ->. now left.
Qed.

Lemma option_name_go cur a :
  match split_go 61 cur a with [] => [] | p :: _ => p end = rev cur ++ before_eq a.
Proof.
  revert cur; induction a as [|c a IH]; intros cur; cbn [split_go before_eq].
  - destruct cur; [reflexivity|]. now rewrite app_nil_r.
  - destruct (c =? 61); [now rewrite app_nil_r|]. rewrite IH. cbn [rev]. now rewrite <- app_assoc.
Qed.
Lemma option_name_eq a : option_name a = before_eq a.
Proof. apply (option_name_go [] a). Qed.

Lemma behind_none a : behind_eq a = None -> before_eq a = a.
Proof.
  induction a as [|c a IH]; cbn [behind_eq before_eq]; [reflexivity|].
  destruct (c =? 61); [discriminate|]. intros H. now rewrite IH.
Qed.

(** Names of options: they start with '-', are not "--", have no '='. *)
Definition name_ok (o : list N) : bool :=
  looks_like_option o && negb (list_eqb o (str "--")) && list_eqb (before_eq o) o.
Definition table_ok (T : option_table) : bool := forallb (fun x => name_ok (fst x)) T.

Lemma before_eq_shape a : looks_like_option (before_eq a) = true -> looks_like_option a = true.
Proof.
  destruct a as [|c [|d a]]; cbn [before_eq]; try easy.
  - destruct (c =? 61); discriminate.
  - destruct (c =? 61); [discriminate|]. destruct (d =? 61); [discriminate|]. exact id.
Qed.

Definition attached (T : option_table) (a : list N) : bool :=
  match behind_eq a, aget list_eqb (before_eq a) T with Some _, Some true => true | _, _ => false end.

Section Reads.
Variables (T : option_table) (takes : list N -> bool).
Hypothesis Ok_T : table_ok T = true.
Hypothesis Agree : forall o b, In (o, b) T -> takes o = b.

Definition fine (x : list N * option (list N)) : Prop :=
  In (fst x) (map fst T) /\ (takes (fst x) = true -> snd x <> None).

Lemma reads_validated n args rest :
  (List.length args <= n)%nat -> validate_options T args = true -> forallb (fun a => negb (attached T a)) args = true ->
  exists o, Forall fine o /\ reads takes (args ++ rest) = (o ++ fst (reads takes rest), snd (reads takes rest)).
Proof using Ok_T Agree.
  revert args; induction n as [|n IH]; intros args L V A.
  { destruct args as [|a args]; [|cbn [List.length] in L; lia].
    exists []. split; [constructor|]. cbn [app]. now destruct (reads takes rest). }
  destruct args as [|a args].
  { exists []. split; [constructor|]. cbn [app]. now destruct (reads takes rest). }
  cbn [validate_options] in V. rewrite option_name_eq in V. cbn [forallb] in A.
  apply andb_true_iff in A. destruct A as [A1 A]. cbn [List.length] in L.
  destruct (aget list_eqb (before_eq a) T) as [b|] eqn:G; [|discriminate].
  assert (I := aget_in _ _ _ G).
  assert (K : name_ok (before_eq a) = true).
  { unfold table_ok in Ok_T. rewrite forallb_forall in Ok_T. apply (Ok_T _ I). }
  unfold name_ok in K. rewrite !andb_true_iff in K. destruct K as [[K1 K2] K3].
  assert (D : list_eqb a (str "--") = false).
  { destruct (list_eqb a (str "--")) eqn:E; [|reflexivity]. apply list_eqb_true in E. subst a. discriminate K2. }
  assert (M : In (before_eq a) (map fst T)) by (apply (in_map fst) in I; exact I).
  assert (Tk := Agree _ _ I).
  cbn [app reads]. rewrite D, (before_eq_shape _ K1). cbn [negb].
  destruct (behind_eq a) as [v|] eqn:B.
  - unfold attached in A1. rewrite B, G in A1. destruct b; [discriminate|].
    destruct (IH args ltac:(lia) V A) as (o & F & E).
    exists ((before_eq a, Some v) :: o). split; [constructor; [split; [exact M|discriminate]|exact F]|].
    rewrite E. reflexivity.
  - assert (Ea := behind_none _ B). rewrite Ea in *. rewrite Tk. destruct b.
    + destruct args as [|v args]; [discriminate|]. cbn [List.length forallb] in L, A.
      apply andb_true_iff in A. destruct A as [_ A].
      destruct (IH args ltac:(lia) V A) as (o & F & E).
      exists ((a, Some v) :: o). split; [constructor; [split; [exact M|discriminate]|exact F]|].
      cbn [app]. rewrite E. reflexivity.
    + destruct (IH args ltac:(lia) V A) as (o & F & E).
      exists ((a, None) :: o). split; [constructor; [split; [exact M|cbn [fst]; congruence]|exact F]|].
      rewrite E. reflexivity.
Qed.
End Reads.

Lemma split_at_sound w args x y : split_at w args = Some (x, y) -> args = x ++ w :: y /\ ~ In w x.
Proof.
  revert x y; induction args as [|a args IH]; intros x y; cbn [split_at]; [discriminate|].
  destruct (list_eqb a w) eqn:E.
  - intros H. injection H as <- <-. apply list_eqb_true in E. subst a. split; [reflexivity|easy].
  - destruct (split_at w args) as [[x' y']|]; [|discriminate]. intros H. injection H as <- <-.
    destruct (IH _ _ eq_refl) as [-> N]. split; [reflexivity|]. intros [H|H]; [|exact (N H)].
    subst a. now rewrite list_eqb_refl in E.
Qed.

(** The table of a subcommand. *)
Definition allowed (sub : list N) : option_table :=
  if list_eqb sub (str "record") then record_options
  else if list_eqb sub (str "mem") then mem_options
  else if list_eqb sub (str "stat") then stat_options
  else if list_eqb sub (str "inject") then inject_options
  else [].

Lemma tables_ok sub : table_ok (allowed sub) = true.
Proof.
  unfold allowed. destruct (list_eqb sub (str "record")); [vm_compute; reflexivity|].
  destruct (list_eqb sub (str "mem")); [vm_compute; reflexivity|].
  destruct (list_eqb sub (str "stat")); [vm_compute; reflexivity|].
  destruct (list_eqb sub (str "inject")); vm_compute; reflexivity.
Qed.

(** The cases of an accepted command line. *)
Inductive accepted : list (list N) -> Prop :=
| acc_plain sub r : (sub = str "record" \/ sub = str "stat" \/ sub = str "inject") ->
    validate_options (allowed sub) r = true -> accepted (str "perf" :: sub :: r)
| acc_mem a b : validate_options (allowed (str "mem")) a = true -> validate_options (allowed (str "record")) b = true ->
    accepted (str "perf" :: str "mem" :: a ++ str "record" :: b).

Lemma validate_accepted args : validate_command_line args = true -> accepted args.
Proof.
  unfold validate_command_line. destruct args as [|p [|s r]]; try discriminate.
  destruct (list_eqb p (str "perf")) eqn:P; cbn [negb]; [|discriminate]. apply list_eqb_true in P. subst p.
  destruct (list_eqb s (str "record")) eqn:E1.
  { apply list_eqb_true in E1. subst s. intros V. apply acc_plain; [auto|exact V]. }
  destruct (list_eqb s (str "mem")) eqn:E2.
  { apply list_eqb_true in E2. subst s. destruct (split_at (str "record") r) as [[a b]|] eqn:S; [|discriminate].
    intros V. apply andb_true_iff in V. destruct V as [V1 V2]. apply split_at_sound in S. destruct S as [-> _].
    now apply acc_mem. }
  destruct (list_eqb s (str "stat")) eqn:E3.
  { apply list_eqb_true in E3. subst s. intros V. apply acc_plain; [auto|exact V]. }
  destruct (list_eqb s (str "inject")) eqn:E4; [|discriminate].
  apply list_eqb_true in E4. subst s. intros V. apply acc_plain; [auto|exact V].
Qed.

(** What the options of perf take that the recorder adds. *)
Record takes_as_listed (takes : list N -> list N -> bool) : Prop := mkTakes {
  tl_allowed : forall sub o b, In (o, b) (allowed sub) -> takes sub o = b;
  tl_output : forall sub, takes sub (str "-o") = true;
  tl_verbose : takes (str "stat") (str "-v") = false;
  tl_force : takes (str "inject") (str "-f") = false;
  tl_input : takes (str "inject") (str "-i") = true }.

(** No argument is "name=value" for an option that takes the next one. *)
Definition none_attached (args : list (list N)) : Prop :=
  forall sub a v, In a args -> behind_eq a = Some v -> ~ In (before_eq a, true) (allowed sub).

Lemma none_attached_all sub args r :
  none_attached args -> (forall a, In a r -> In a args) -> forallb (fun a => negb (attached (allowed sub) a)) r = true.
Proof.
  intros H I. apply forallb_forall. intros a Ia. unfold attached. destruct (behind_eq a) as [v|] eqn:B; [|reflexivity].
  destruct (aget list_eqb (before_eq a) (allowed sub)) as [[]|] eqn:G; try reflexivity.
  exfalso. apply (H sub a v (I _ Ia) B). now apply aget_in in G.
Qed.

Definition use_ok (takes : list N -> bool) (T : option_table) (x : list N * option (list N)) : Prop :=
  In (fst x) (map fst T) /\ (takes (fst x) = true -> snd x <> None).

Lemma perf_reads_accepted takes args rest :
  takes_as_listed takes -> accepted args -> none_attached args ->
  exists sub m o, nth_error args 1 = Some sub /\
    perf_reads takes (tl args ++ rest) =
      Some (mkRun sub m (o ++ fst (reads (takes (options_of sub)) rest)) (snd (reads (takes (options_of sub)) rest))) /\
    Forall (use_ok (takes (options_of sub)) (allowed (options_of sub))) o /\
    Forall (use_ok (takes (str "mem")) (allowed (str "mem"))) m.
Proof.
  intros Tk A N. inversion A as [sub r S V E|a b V1 V2 E]; subst args.
  - destruct (reads_validated (allowed sub) (takes sub) (tables_ok sub) (tl_allowed _ Tk sub) _ r rest (le_n _) V
                (none_attached_all sub _ r N (fun a I => or_intror (or_intror I)))) as (o & F & R).
    assert (Es : options_of sub = sub) by (destruct S as [->|[->| ->]]; reflexivity).
    exists sub, [], o. rewrite Es. split; [reflexivity|]. split; [|split; [exact F|constructor]].
    assert (Em : list_eqb sub (str "mem") = false) by (destruct S as [->|[->| ->]]; reflexivity).
    cbn [tl app]. unfold perf_reads. rewrite Em, R. reflexivity.
  - destruct (reads_validated (allowed (str "mem")) (takes (str "mem")) (tables_ok _) (tl_allowed _ Tk _) _ a
                (str "record" :: b ++ rest) (le_n _) V1) as (m & F1 & R1).
    { apply (none_attached_all _ _ _ N). intros x I. right. right. apply in_or_app. now left. }
    destruct (reads_validated (allowed (str "record")) (takes (str "record")) (tables_ok _) (tl_allowed _ Tk _) _ b
                rest (le_n _) V2) as (o & F2 & R2).
    { apply (none_attached_all _ _ _ N). intros x I. right. right. apply in_or_app. right. now right. }
    exists (str "mem"), m, o. split; [reflexivity|]. split; [|split; [exact F2|exact F1]].
    cbn [tl app]. rewrite <- app_assoc. cbn [app]. unfold perf_reads. rewrite list_eqb_refl, R1.
    change (reads (takes (str "mem")) (str "record" :: b ++ rest)) with (@nil (list BinNums.N * option (list BinNums.N)), str "record" :: b ++ rest).
    cbn [fst snd]. rewrite list_eqb_refl, R2, app_nil_r. reflexivity.
Qed.

Lemma allowed_not_banned sub x : In x (map fst (allowed (options_of sub))) -> ~ In x (banned (options_of sub)).
Proof.
  assert (K : forall s, forallb (fun y => negb (existsb (list_eqb y) (banned s))) (map fst (allowed s)) = true).
  { intros s. unfold allowed, banned.
    destruct (list_eqb s (str "record")); [vm_compute; reflexivity|].
    destruct (list_eqb s (str "mem")) eqn:M.
    { apply list_eqb_true in M. subst s. vm_compute. reflexivity. }
    destruct (list_eqb s (str "stat")); [vm_compute; reflexivity|].
    destruct (list_eqb s (str "inject")); vm_compute; reflexivity. }
  intros I B. specialize (K (options_of sub)). rewrite forallb_forall in K. specialize (K _ I).
  apply negb_true_iff in K. assert (existsb (list_eqb x) (banned (options_of sub)) = true); [|congruence].
  apply existsb_exists. exists x. split; [exact B|apply list_eqb_refl].
Qed.

(** *** What is safe is accepted *)
Lemma validate_complete T takes n args o :
  table_ok T = true -> (forall x, In x (map fst T) -> aget list_eqb x T = Some (takes x)) ->
  (List.length args <= n)%nat -> ~ In (str "--") args -> (forall a, In a args -> behind_eq a = None) ->
  reads takes args = (o, []) -> Forall (use_ok takes T) o -> validate_options T args = true.
Proof.
  intros K Ag. revert args o; induction n as [|n IH]; intros args o L D B R F.
  { destruct args; [reflexivity|cbn [List.length] in L; lia]. }
  destruct args as [|a args]; [reflexivity|]. cbn [List.length] in L. cbn [reads] in R.
  destruct (list_eqb a (str "--")) eqn:E1; [apply list_eqb_true in E1; exfalso; apply D; now left|].
  destruct (looks_like_option a); cbn [negb] in R; [|discriminate].
  assert (Ba := B a (or_introl eq_refl)). rewrite Ba in R.
  cbn [validate_options]. rewrite option_name_eq, (behind_none _ Ba).
  destruct (takes a) eqn:Ta.
  - destruct args as [|v args].
    + injection R as <-. inversion F as [|? ? [_ H] _]; subst. exfalso. now apply H.
    + destruct (reads takes args) as [o' c] eqn:Ra. injection R as <- ->. inversion F as [|? ? [H _] F']; subst.
      cbn [fst] in H. rewrite (Ag _ H), Ta. cbn [List.length] in L. apply (IH _ o'); auto; [lia| |].
      * intros I. apply D. right. now right.
      * intros x I. apply B. right. now right.
  - destruct (reads takes args) as [o' c] eqn:Ra. injection R as <- ->. inversion F as [|? ? [H _] F']; subst.
    cbn [fst] in H. rewrite (Ag _ H), Ta. apply (IH _ o'); auto; [lia| |].
    * intros I. apply D. now right.
    * intros x I. apply B. now right.
Qed.

Lemma tables_listed sub takes : (forall o b, In (o, b) (allowed sub) -> takes o = b) ->
  forall x, In x (map fst (allowed sub)) -> aget list_eqb x (allowed sub) = Some (takes x).
Proof.
  intros Ag x I. assert (exists b, aget list_eqb x (allowed sub) = Some b) as [b G].
  { clear - I. induction (allowed sub) as [|[k v] T IH]; [destruct I|]. cbn [aget].
    destruct (list_eqb x k) eqn:E; [eauto|]. destruct I as [I|I]; [|auto].
    cbn [fst] in I. subst k. now rewrite list_eqb_refl in E. }
  rewrite G. apply aget_in in G. now rewrite (Ag _ _ G).
Qed.
