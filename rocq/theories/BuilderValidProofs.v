(** Proofs for C16 and C17. *)
From Coq Require Import String.
From Verif Require Import Base BytesModel TextModel TextProofs Assoc ProfileModel BuilderModel BuilderSpec BuilderProofs.
Local Open Scope N_scope.
Local Open Scope list_scope.

Lemma unique_nonzero_cons i l :
  unique_nonzero (i :: l) <-> (i = 0 \/ ~ In i l) /\ unique_nonzero l.
Proof.
  split.
  - intros H. split.
    + destruct (N.eq_dec i 0) as [->|Hi]; [now left|]. right. intros Hin.
      apply In_nth_error in Hin. destruct Hin as [k Hk].
      apply Hi. exact (H O (S k) i (O_S k) eq_refl Hk).
    + intros a b x Hab Ha Hb. apply (H (S a) (S b) x); auto.
  - intros [H1 H2] a b x Hab Ha Hb. destruct a as [|a], b as [|b].
    + easy.
    + cbn in Ha. injection Ha as ->. destruct H1 as [H1|H1]; [exact H1|].
      elim H1. cbn in Hb. eapply nth_error_In; exact Hb.
    + cbn in Hb. injection Hb as ->. destruct H1 as [H1|H1]; [exact H1|].
      elim H1. cbn in Ha. eapply nth_error_In; exact Ha.
    + apply (H2 a b x); auto.
Qed.

Lemma collect_ids_spec ids : forall seen,
  (exists s', collect_ids seen ids = Some s') <->
  unique_nonzero ids /\ forall i, In i ids -> i <> 0 -> ~ In i seen.
Proof.
  induction ids as [|i ids IH]; intros seen; cbn [collect_ids].
  - split; [|eauto]. intros _. split; [intros [|a] b x; discriminate|easy].
  - rewrite unique_nonzero_cons. destruct (N.eqb_spec i 0) as [->|Hi].
    + rewrite IH. split; intros [H1 H2]; (split; [tauto|]).
      * intros j [<-|Hj]; [easy|now apply H2].
      * intros j Hj. apply H2. now right.
    + destruct (mem_by N.eqb i seen) eqn:E.
      * apply mem_by_N in E. split; [intros [s' Hs]; discriminate|].
        intros [_ H]. elim (H i (or_introl eq_refl) Hi E).
      * apply mem_by_N_false in E. rewrite IH. split.
        -- intros [H1 H2]. split; [split; [|exact H1]|].
           ++ right. intros Hin. apply (H2 i Hin Hi). now left.
           ++ intros j [<-|Hj] Hj0; [exact E|]. intros Hs. apply (H2 j Hj Hj0). now right.
        -- intros [[H0 H1] H2]. split; [exact H1|].
           intros j Hj Hj0 [<-|Hs]; [now destruct H0|]. exact (H2 j (or_intror Hj) Hj0 Hs).
Qed.

Lemma collect_ids_in ids : forall seen s',
  collect_ids seen ids = Some s' -> forall x, In x s' <-> In x seen \/ (In x ids /\ x <> 0).
Proof.
  induction ids as [|i ids IH]; intros seen s'; cbn [collect_ids].
  - intros H x. injection H as <-. cbn. tauto.
  - destruct (N.eqb_spec i 0) as [->|Hi].
    + intros H x. rewrite (IH _ _ H). cbn. intuition congruence.
    + destruct (mem_by N.eqb i seen); [discriminate|]. intros H x. rewrite (IH _ _ H). cbn.
      intuition congruence.
Qed.

Lemma check_lines_spec fns ls :
  check_lines fns ls = true <-> forall ln, In ln ls -> ln_fn ln = 0 \/ In (ln_fn ln) fns.
Proof.
  induction ls as [|l ls IH]; cbn [check_lines]; [easy|].
  destruct (N.eqb_spec (ln_fn l) 0) as [E|E]; cbn [negb andb].
  - rewrite IH. split; intros H ln; [intros [<-|Hl]; auto|]. intros Hl. apply H. now right.
  - destruct (mem_by N.eqb (ln_fn l) fns) eqn:M; cbn [negb].
    + apply mem_by_N in M. rewrite IH. split; intros H ln; [intros [<-|Hl]; auto|].
      intros Hl. apply H. now right.
    + apply mem_by_N_false in M. split; [discriminate|]. intros H.
      destruct (H l (or_introl eq_refl)); contradiction.
Qed.

Lemma check_locations_spec maps fns ls : forall seen,
  (exists s', check_locations maps fns seen ls = Some s') <->
  (exists s', collect_ids seen (map lc_id ls) = Some s') /\
  (forall l, In l ls -> lc_mapping l = 0 \/ In (lc_mapping l) maps) /\
  (forall l ln, In l ls -> In ln (lc_line l) -> ln_fn ln = 0 \/ In (ln_fn ln) fns).
Proof.
  induction ls as [|l ls IH]; intros seen; cbn [check_locations collect_ids map].
  - split; [|eauto]. intros _. split; [eauto|]. easy.
  - assert (Hm : negb (lc_mapping l =? 0) && negb (mem_by N.eqb (lc_mapping l) maps) = false <->
                 (lc_mapping l = 0 \/ In (lc_mapping l) maps)).
    { rewrite <- mem_by_N. destruct (N.eqb_spec (lc_mapping l) 0); cbn; [tauto|].
      destruct (mem_by N.eqb (lc_mapping l) maps); cbn; intuition congruence. }
    assert (Split : ((exists s', collect_ids (if lc_id l =? 0 then seen else lc_id l :: seen) (map lc_id ls) = Some s') /\
       (forall l0, In l0 ls -> lc_mapping l0 = 0 \/ In (lc_mapping l0) maps) /\
       (forall l0 ln, In l0 ls -> In ln (lc_line l0) -> ln_fn ln = 0 \/ In (ln_fn ln) fns)) /\
       (lc_mapping l = 0 \/ In (lc_mapping l) maps) /\ check_lines fns (lc_line l) = true <->
       (exists s', collect_ids (if lc_id l =? 0 then seen else lc_id l :: seen) (map lc_id ls) = Some s') /\
       (forall l0, In l0 (l :: ls) -> lc_mapping l0 = 0 \/ In (lc_mapping l0) maps) /\
       (forall l0 ln, In l0 (l :: ls) -> In ln (lc_line l0) -> ln_fn ln = 0 \/ In (ln_fn ln) fns)).
    { rewrite check_lines_spec. split.
      - intros [(A & B & C) (D & E)]. split; [exact A|]. split.
        + intros l0 [<-|H]; auto.
        + intros l0 ln [<-|H]; eauto.
      - intros (A & B & C). split; [split; [exact A|]; split|split].
        + intros l0 H. apply B. now right.
        + intros l0 ln H. apply C. now right.
        + apply B. now left.
        + intros ln. apply C. now left. }
    destruct (N.eqb_spec (lc_id l) 0) as [E0|E0]; cbn [negb andb].
    + rewrite <- Split. clear Split. rewrite <- Hm, <- IH.
      destruct (negb (lc_mapping l =? 0) && negb (mem_by N.eqb (lc_mapping l) maps)).
      * split; [intros [s' Hs]; discriminate|]. intros (_ & H & _). discriminate.
      * destruct (check_lines fns (lc_line l)); [tauto|].
        split; [intros [s' Hs]; discriminate|]. intros (_ & _ & H). discriminate.
    + destruct (mem_by N.eqb (lc_id l) seen).
      * split; [intros [s' Hs]; discriminate|]. intros ([s' Hs] & _). discriminate.
      * rewrite <- Split. clear Split. rewrite <- Hm, <- IH.
        destruct (negb (lc_mapping l =? 0) && negb (mem_by N.eqb (lc_mapping l) maps)).
        -- split; [intros [s' Hs]; discriminate|]. intros (_ & H & _). discriminate.
        -- destruct (check_lines fns (lc_line l)); [tauto|].
           split; [intros [s' Hs]; discriminate|]. intros (_ & _ & H). discriminate.
Qed.

Lemma check_locations_ids maps fns ls : forall seen s',
  check_locations maps fns seen ls = Some s' -> collect_ids seen (map lc_id ls) = Some s'.
Proof.
  induction ls as [|l ls IH]; intros seen s'; cbn [check_locations collect_ids map]; [auto|].
  destruct (lc_id l =? 0); cbn [negb andb].
  - destruct (negb (lc_mapping l =? 0) && _); [discriminate|].
    destruct (check_lines fns (lc_line l)); [auto|discriminate].
  - destruct (mem_by N.eqb (lc_id l) seen); [discriminate|].
    destruct (negb (lc_mapping l =? 0) && _); [discriminate|].
    destruct (check_lines fns (lc_line l)); [auto|discriminate].
Qed.

Lemma collect_types_spec ts : forall seen,
  (exists s', collect_types seen ts = Some s') <->
  NoDup (map (fun t => to_int32 (vt_type t)) ts) /\
  forall t, In t ts -> ~ In (to_int32 (vt_type t)) seen.
Proof.
  induction ts as [|t ts IH]; intros seen; cbn [collect_types map].
  - split; [|eauto]. intros _. split; [constructor|easy].
  - rewrite NoDup_cons_iff, in_map_iff. destruct (mem_by Z.eqb (to_int32 (vt_type t)) seen) eqn:E.
    + apply mem_by_Z in E. split; [intros [s' Hs]; discriminate|].
      intros [_ H]. elim (H t (or_introl eq_refl) E).
    + assert (E' : ~ In (to_int32 (vt_type t)) seen).
      { rewrite <- mem_by_Z, E. discriminate. }
      rewrite IH. split.
      * intros [H1 H2]. split; [split; [|exact H1]|].
        -- intros (x & Ex & Hx). apply (H2 x Hx). now left.
        -- intros x [<-|Hx]; [exact E'|]. intros Hs. apply (H2 x Hx). now right.
      * intros [[H0 H1] H2]. split; [exact H1|].
        intros x Hx [Ex|Hs]; [apply H0; eauto|]. exact (H2 x (or_intror Hx) Hs).
Qed.

Lemma collect_types_in ts : forall seen s',
  collect_types seen ts = Some s' ->
  forall x, In x s' <-> In x seen \/ In x (map (fun t => to_int32 (vt_type t)) ts).
Proof.
  induction ts as [|t ts IH]; intros seen s'; cbn [collect_types map].
  - intros H x. injection H as <-. cbn. tauto.
  - destruct (mem_by Z.eqb _ seen); [discriminate|]. intros H x. rewrite (IH _ _ H). cbn. tauto.
Qed.

Lemma check_sample_locs_spec locs l :
  check_sample_locs locs l = true <-> forall i, In i l -> i <> 0 /\ In i locs.
Proof.
  induction l as [|i l IH]; cbn [check_sample_locs]; [easy|].
  destruct (N.eqb_spec i 0) as [E|E].
  - split; [discriminate|]. intros H. now destruct (H i (or_introl eq_refl)).
  - destruct (mem_by N.eqb i locs) eqn:M; cbn [negb].
    + apply mem_by_N in M. rewrite IH. split.
      * intros H j [<-|Hj]; auto.
      * intros H j Hj. apply H. now right.
    + apply mem_by_N_false in M. split; [discriminate|]. intros H.
      now destruct (H i (or_introl eq_refl)).
Qed.

Lemma check_labels_spec l :
  check_labels l = true <-> forall x, In x l -> lb_str x = 0%Z \/ lb_num x = 0%Z.
Proof.
  induction l as [|y l IH]; cbn [check_labels]; [easy|].
  destruct (Z.eqb_spec (lb_str y) 0) as [E|E]; cbn [negb andb].
  - rewrite IH. split; intros H x; [intros [<-|Hx]; auto|]. intros Hx. apply H. now right.
  - destruct (Z.eqb_spec (lb_num y) 0) as [F|F]; cbn [negb].
    + rewrite IH. split; intros H x; [intros [<-|Hx]; auto|]. intros Hx. apply H. now right.
    + split; [discriminate|]. intros H. now destruct (H y (or_introl eq_refl)).
Qed.

Lemma check_samples_spec nt locs ss :
  check_samples nt locs ss = true <->
  forall s, In s ss -> List.length (ps_val s) = nt /\
    (forall i, In i (ps_loc s) -> i <> 0 /\ In i locs) /\
    (forall x, In x (ps_label s) -> lb_str x = 0%Z \/ lb_num x = 0%Z).
Proof.
  induction ss as [|s ss IH]; cbn [check_samples]; [easy|].
  assert (A := check_sample_locs_spec locs (ps_loc s)).
  assert (B := check_labels_spec (ps_label s)).
  assert (C := Nat.eqb_eq (List.length (ps_val s)) nt).
  split.
  - intros H s0 Hs. destruct (List.length (ps_val s) =? nt)%nat; [|discriminate].
    destruct (check_sample_locs locs (ps_loc s)); [|discriminate].
    destruct (check_labels (ps_label s)); [|discriminate].
    cbn [negb] in H. destruct Hs as [<-|Hs].
    + repeat split; try tauto; apply A; auto.
    + now apply IH.
  - intros H. destruct (H s (or_introl eq_refl)) as (H1 & H2 & H3).
    rewrite (proj2 C H1), (proj2 A H2), (proj2 B H3). cbn [negb]. apply IH.
    intros s0 Hs. apply H. now right.
Qed.

Lemma in_nonzero {A} (f : A -> N) (l : list A) (i : N) (s' : list N) :
  i <> 0 -> collect_ids [] (map f l) = Some s' -> (In i s' <-> exists x, In x l /\ f x = i).
Proof.
  intros Hi H. rewrite (collect_ids_in _ _ _ H). rewrite in_map_iff. cbn. split.
  - intros [[]|[(x & E & Hx) _]]. eauto.
  - intros (x & Hx & E). right. split; [eauto|exact Hi].
Qed.

Theorem check_valid_spec p : check_valid p = true <-> consistent to_int32 p.
Proof.
  unfold check_valid.
  assert (M := collect_ids_spec (map mp_id (pf_mapping p)) []).
  assert (F := collect_ids_spec (map fn_id (pf_function p)) []).
  destruct (collect_ids [] (map mp_id (pf_mapping p))) as [maps|] eqn:EM.
  2:{ split; [discriminate|]. intros C. destruct (proj2 M) as [s' Hs]; [|discriminate].
      split; [apply (con_mappings _ _ C)|easy]. }
  destruct (collect_ids [] (map fn_id (pf_function p))) as [fns|] eqn:EF.
  2:{ split; [discriminate|]. intros C. destruct (proj2 F) as [s' Hs]; [|discriminate].
      split; [apply (con_functions _ _ C)|easy]. }
  assert (L := check_locations_spec maps fns (pf_location p) []).
  assert (LI := collect_ids_spec (map lc_id (pf_location p)) []).
  assert (XM : forall i, (i = 0 \/ In i maps) <-> (i = 0 \/ exists m, In m (pf_mapping p) /\ mp_id m = i)).
  { intros i. destruct (N.eq_dec i 0) as [Hi|Hi]; [tauto|]. now rewrite (in_nonzero _ _ _ _ Hi EM). }
  assert (XF : forall i, (i = 0 \/ In i fns) <-> (i = 0 \/ exists m, In m (pf_function p) /\ fn_id m = i)).
  { intros i. destruct (N.eq_dec i 0) as [Hi|Hi]; [tauto|]. now rewrite (in_nonzero _ _ _ _ Hi EF). }
  destruct (check_locations maps fns [] (pf_location p)) as [locs|] eqn:EL.
  2:{ split; [discriminate|]. intros C. destruct (proj2 L) as [s' Hs]; [|discriminate].
      split; [|split].
      - apply LI. split; [apply (con_locations _ _ C)|easy].
      - intros l Hl. apply XM. now apply (con_loc_mapping _ _ C).
      - intros l ln Hl Hln. apply XF. now apply (con_line_function _ _ C) with l. }
  assert (L' := proj1 L (ex_intro _ locs eq_refl)). destruct L' as (L1 & L2 & L3).
  assert (LU := proj1 (proj1 LI L1)).
  assert (EI := check_locations_ids _ _ _ _ _ EL).
  assert (FU := proj1 (proj1 F (ex_intro _ fns eq_refl))).
  assert (MU := proj1 (proj1 M (ex_intro _ maps eq_refl))).
  destruct (pf_sample_type p) as [|ty tys] eqn:ET.
  { cbn. split; [discriminate|]. intros C. elim (con_types _ _ C). exact ET. }
  rewrite <- ET. assert (TN : (List.length (pf_sample_type p) =? 0)%nat = false) by (rewrite ET; reflexivity).
  rewrite TN. cbv zeta. set (d := to_int32 (pf_default_type p)).
  destruct ((d <=? 0)%Z || (Z.of_nat (List.length (pf_string p)) <=? d)%Z) eqn:ED.
  { split; [discriminate|]. intros C. assert (H := con_default _ _ C). fold d in H. lia. }
  assert (T := collect_types_spec (pf_sample_type p) []).
  destruct (collect_types [] (pf_sample_type p)) as [types|] eqn:ETY.
  2:{ split; [discriminate|]. intros C. destruct (proj2 T) as [s' Hs]; [|discriminate].
      split; [exact (con_types_distinct _ _ C)|easy]. }
  assert (TD := proj1 (proj1 T (ex_intro _ types eq_refl))).
  assert (TI : mem_by Z.eqb d types = true <-> exists t, In t (pf_sample_type p) /\ to_int32 (vt_type t) = d).
  { rewrite mem_by_Z, (collect_types_in _ _ _ ETY), in_map_iff. cbn. split.
    - intros [[]|(t & E & H)]. eauto.
    - intros (t & H & E). right. eauto. }
  assert (S := check_samples_spec (List.length (pf_sample_type p)) locs (pf_sample p)).
  assert (XL : forall i, (i <> 0 /\ In i locs) <-> (i <> 0 /\ exists l, In l (pf_location p) /\ lc_id l = i)).
  { intros i. destruct (N.eq_dec i 0) as [Hi|Hi]; [tauto|]. now rewrite (in_nonzero _ _ _ _ Hi EI). }
  destruct (mem_by Z.eqb d types).
  - rewrite S. split.
    + intros H. constructor; auto.
      * intros l Hl. apply XM. auto.
      * intros l ln Hl Hln. apply XF. eauto.
      * rewrite ET. discriminate.
      * fold d. lia.
      * apply TI. reflexivity.
      * intros s Hs. now apply H.
      * intros s i Hs Hi. apply XL. now apply (H s Hs).
      * intros s x Hs Hx. now apply (H s Hs).
    + intros C s Hs. split; [now apply (con_values _ _ C)|]. split.
      * intros i Hi. apply XL. now apply (con_sample_locations _ _ C s).
      * intros x Hx. now apply (con_labels _ _ C s).
  - split; [discriminate|]. intros C. apply TI. exact (con_default_type _ _ C).
Qed.

Lemma to_int32_small z : (-2147483648 <= z < 2147483648)%Z -> to_int32 z = z.
Proof. intros H. unfold to_int32. rewrite Z.mod_small by lia. lia. Qed.

Lemma consistent_cast_ext f g p :
  f (pf_default_type p) = g (pf_default_type p) ->
  (forall t, In t (pf_sample_type p) -> f (vt_type t) = g (vt_type t)) ->
  consistent f p -> consistent g p.
Proof.
  intros E1 E2 [C1 C2 C3 C4 C5 C6 C7 C8 C9 C10 C11 C12]. constructor; auto.
  - now rewrite <- E1.
  - erewrite map_ext_in; [exact C8|]. intros t Ht. symmetry. now apply E2.
  - destruct C9 as (t & Ht & E). exists t. split; [exact Ht|]. rewrite <- E1, <- E2; auto.
Qed.


Lemma check_valid_small p :
  int_range (pf_default_type p) -> (forall t, In t (pf_sample_type p) -> int_range (vt_type t)) ->
  (check_valid p = true <-> consistent (fun z => z) p).
Proof.
  intros H1 H2. rewrite check_valid_spec. split; apply consistent_cast_ext.
  - now apply to_int32_small.
  - intros t Ht. now apply to_int32_small, H2.
  - symmetry. now apply to_int32_small.
  - intros t Ht. symmetry. now apply to_int32_small, H2.
Qed.

(** * Finalize *)

(** The interning table and the locations created so far. *)
Record interned (m : list (N * N)) (locs : list plocation) : Prop := {
  in_len : List.length m = List.length locs;
  in_get : forall a i, aget N.eqb a m = Some i ->
    exists l, In l locs /\ lc_id l = i /\ lc_addr l = a;
  in_ids : map lc_id locs = map (fun k => N.of_nat k + 1) (seq 0 (List.length locs));
  in_all : forall l, In l locs -> aget N.eqb (lc_addr l) m = Some (lc_id l);
  in_nodup : NoDup (map lc_addr locs);
  in_mapping : forall l, In l locs -> lc_mapping l = 0 /\ lc_line l = [] }.

Lemma interned0 : interned [] [].
Proof. constructor; try easy. constructor. Qed.

Lemma intern_addresses_spec addrs : forall m locs m' locs' ids,
  interned m locs -> intern_addresses m locs addrs = (m', locs', ids) ->
  interned m' locs' /\ (exists t, locs' = locs ++ t /\ forall l, In l t -> In (lc_addr l) addrs) /\
  (forall a i, aget N.eqb a m = Some i -> aget N.eqb a m' = Some i) /\
  List.length ids = List.length addrs /\
  (forall k a, nth_error addrs k = Some a -> exists i, nth_error ids k = Some i /\ aget N.eqb a m' = Some i).
Proof.
  induction addrs as [|a addrs IH]; intros m locs m' locs' ids I H; cbn [intern_addresses] in H.
  - injection H as <- <- <-. split; [exact I|]. split; [exists []; rewrite app_nil_r; easy|].
    split; [auto|]. split; [reflexivity|]. intros [|k] x; discriminate.
  - unfold aemplace in H. destruct (aget N.eqb a m) as [v|] eqn:E.
    + destruct (intern_addresses m locs addrs) as [[m1 l1] ids1] eqn:R. injection H as <- <- <-.
      destruct (IH _ _ _ _ _ I R) as (J1 & (t & J2 & J2') & J3 & J4 & J5).
      split; [exact J1|]. split; [exists t; split; [exact J2|]; intros l Hl; right; auto|].
      split; [exact J3|]. split; [cbn; lia|].
      intros [|k] x Hx; cbn in Hx |- *.
      * injection Hx as <-. exists v. split; [reflexivity|]. now apply J3.
      * now apply J5.
    + set (i := N.of_nat (List.length m) + 1) in *.
      set (nl := {| lc_id := i; lc_mapping := 0; lc_addr := a; lc_line := [] |}) in *.
      assert (I2 : interned ((a, i) :: m) (locs ++ [nl])).
      { destruct I as [I1 I2 I3 I4 I5 I6]. constructor.
        - rewrite app_length. cbn. lia.
        - intros b j. cbn [aget]. destruct (N.eqb_spec b a) as [->|Hb].
          + intros X. injection X as <-. exists nl. split; [apply in_app_iff; right; now left|]. easy.
          + intros X. destruct (I2 _ _ X) as (l & Hl & Hl'). exists l. split; [apply in_app_iff; now left|easy].
        - rewrite map_app, I3, app_length. cbn [List.length map]. rewrite seq_app, map_app. cbn. f_equal.
          unfold i. rewrite I1. reflexivity.
        - intros l Hl. apply in_app_iff in Hl. cbn [aget]. destruct Hl as [Hl|[<-|[]]].
          + apply I4 in Hl. destruct (N.eqb_spec (lc_addr l) a) as [Ea|Ea]; [|exact Hl]. congruence.
          + cbn [lc_addr nl]. now rewrite N.eqb_refl.
        - rewrite map_app. cbn. apply NoDup_app_remove_l with (l := []) || idtac.
          apply NoDup_rev in I5. rewrite <- (rev_involutive (map lc_addr locs ++ [a])).
          apply NoDup_rev. rewrite rev_app_distr. cbn. constructor; [|exact I5].
          rewrite <- in_rev, in_map_iff. intros (l & El & Hl). apply I4 in Hl. congruence.
        - intros l Hl. apply in_app_iff in Hl. destruct Hl as [Hl|[<-|[]]]; [now apply I6|easy]. }
      destruct (intern_addresses ((a, i) :: m) (locs ++ [nl]) addrs) as [[m1 l1] ids1] eqn:R.
      injection H as <- <- <-.
      destruct (IH _ _ _ _ _ I2 R) as (J1 & (t & J2 & J2') & J3 & J4 & J5).
      split; [exact J1|]. split.
      { exists (nl :: t). split; [rewrite J2, <- app_assoc; reflexivity|].
        intros l [<-|Hl]; [now left|right; auto]. }
      split; [|split].
      * intros b j Hb. apply J3. cbn [aget]. destruct (N.eqb_spec b a) as [->|_]; [congruence|exact Hb].
      * cbn. lia.
      * intros [|k] x Hx; cbn in Hx |- *.
        -- injection Hx as <-. exists i. split; [reflexivity|]. apply J3. cbn [aget]. now rewrite N.eqb_refl.
        -- now apply J5.
Qed.

Lemma intern_samples_spec ss : forall m locs locs' ss',
  interned m locs -> intern_samples m locs ss = (locs', ss') ->
  exists m', interned m' locs' /\
  (exists t, locs' = locs ++ t /\ forall l, In l t -> exists s, In s ss /\ In (lc_addr l) (ps_loc s)) /\
  (forall a i, aget N.eqb a m = Some i -> aget N.eqb a m' = Some i) /\
  List.length ss' = List.length ss /\
  (forall k s, nth_error ss k = Some s -> exists s', nth_error ss' k = Some s' /\
     ps_val s' = ps_val s /\ ps_label s' = ps_label s /\ List.length (ps_loc s') = List.length (ps_loc s) /\
     forall j a, nth_error (ps_loc s) j = Some a ->
       exists i, nth_error (ps_loc s') j = Some i /\ aget N.eqb a m' = Some i).
Proof.
  induction ss as [|s ss IH]; intros m locs locs' ss' I H; cbn [intern_samples] in H.
  - injection H as <- <-. exists m. split; [exact I|]. split; [exists []; rewrite app_nil_r; easy|].
    split; [auto|]. split; [reflexivity|]. intros [|k] x; discriminate.
  - destruct (intern_addresses m locs (ps_loc s)) as [[m1 l1] ids1] eqn:R.
    destruct (intern_samples m1 l1 ss) as [l2 r2] eqn:R2. injection H as <- <-.
    destruct (intern_addresses_spec _ _ _ _ _ _ I R) as (J1 & (t & J2 & J2') & J3 & J4 & J5).
    destruct (IH _ _ _ _ J1 R2) as (m' & K1 & (u & K2 & K2') & K3 & K4 & K5).
    exists m'. split; [exact K1|]. split.
    { exists (t ++ u). split; [now rewrite K2, J2, app_assoc|].
      intros l Hl. apply in_app_iff in Hl. destruct Hl as [Hl|Hl].
      - exists s. split; [now left|auto].
      - destruct (K2' _ Hl) as (s0 & H1 & H2). exists s0. split; [now right|exact H2]. }
    split; [intros a i Hi; auto|]. split; [cbn; lia|].
    intros [|k] x Hx; cbn in Hx |- *.
    + injection Hx as <-. eexists. split; [reflexivity|]. cbn.
      split; [reflexivity|]. split; [reflexivity|].
      split; [exact J4|]. intros j a Ha. destruct (J5 _ _ Ha) as (i & H1 & H2). eauto.
    + now apply K5.
Qed.

(** Mapping selection. *)
Definition sorted_keys {V} (m : list (N * V)) : Prop :=
  forall i j a b, (i < j)%nat -> nth_error m i = Some a -> nth_error m j = Some b -> fst a < fst b.

Lemma sorted_cons {V} (e : N * V) m :
  sorted_keys (e :: m) <-> (forall x, In x m -> fst e < fst x) /\ sorted_keys m.
Proof.
  split.
  - intros H. split.
    + intros x Hx. apply In_nth_error in Hx. destruct Hx as [k Hk].
      apply (H O (S k) e x); [lia|reflexivity|exact Hk].
    + intros i j a b Hij Ha Hb. apply (H (S i) (S j)); auto. lia.
  - intros [H1 H2] [|i] [|j] a b Hij Ha Hb; try lia.
    + cbn in Ha. injection Ha as <-. apply H1. cbn in Hb. eapply nth_error_In; exact Hb.
    + apply (H2 i j); auto. lia.
Qed.

Lemma in_omset {V} k (v : V) m x : In x (omset k v m) -> x = (k, v) \/ In x m.
Proof.
  induction m as [|[k' v'] m IH]; cbn [omset]; [intros [<-|[]]; now left|].
  destruct (k <? k'); [intros [<-|H]; auto|].
  destruct (k =? k'); [intros [<-|H]; [now left|right; now right]|].
  intros [<-|H]; [right; now left|]. destruct (IH H); [now left|right; now right].
Qed.

Lemma omset_sorted {V} k (v : V) m : sorted_keys m -> sorted_keys (omset k v m).
Proof.
  induction m as [|[k' v'] m IH]; intros S; cbn [omset].
  - intros [|i] [|j] a b Hij; try lia; destruct j; discriminate.
  - assert (S' := S). apply sorted_cons in S'. destruct S' as [S1 S2]. cbn in S1.
    destruct (N.ltb_spec k k').
    + apply sorted_cons. split; [|exact S]. intros x [<-|Hx]; cbn; [lia|]. specialize (S1 x Hx). lia.
    + destruct (N.eqb_spec k k').
      * subst. apply sorted_cons. split; [exact S1|exact S2].
      * apply sorted_cons. split; [|now apply IH]. intros x Hx. apply in_omset in Hx.
        destruct Hx as [->|Hx]; cbn; [lia|]. now apply S1.
Qed.

Lemma omfloor_none_above {V} a (m : list (N * V)) :
  (forall x, In x m -> a < fst x) -> omfloor a m = None.
Proof.
  destruct m as [|[k v] m]; intros H; cbn [omfloor]; [reflexivity|].
  specialize (H (k, v) (or_introl eq_refl)). cbn in H.
  rewrite (proj2 (N.leb_gt k a)) by exact H. reflexivity.
Qed.

Lemma omfloor_in {V} a (m : list (N * V)) e : omfloor a m = Some e -> In e m /\ fst e <= a.
Proof.
  induction m as [|[k v] m IH]; cbn [omfloor]; [discriminate|].
  destruct (N.leb_spec k a); [|discriminate].
  destruct (omfloor a m) as [e'|].
  - intros H'. injection H' as <-. destruct (IH eq_refl). split; [now right|assumption].
  - intros H'. injection H' as <-. split; [now left|exact H].
Qed.

Lemma omfloor_omset {V} a k (v : V) m : sorted_keys m ->
  omfloor a (omset k v m) =
  if k <=? a then
    match omfloor a m with
    | Some (k', v') => if k' <=? k then Some (k, v) else Some (k', v')
    | None => Some (k, v)
    end
  else omfloor a m.
Proof.
  induction m as [|[k' v'] m IH]; intros S; cbn [omset].
  - cbn [omfloor]. now destruct (k <=? a).
  - apply sorted_cons in S. destruct S as [S1 S2]. cbn in S1.
    destruct (N.ltb_spec k k').
    + cbn [omfloor]. destruct (N.leb_spec k a).
      * destruct (N.leb_spec k' a); [|reflexivity].
        destruct (omfloor a m) as [[k2 v2]|] eqn:E.
        -- apply omfloor_in in E. destruct E as [E1 E2]. specialize (S1 _ E1). cbn in S1.
           rewrite (proj2 (N.leb_gt k2 k)) by lia. reflexivity.
        -- rewrite (proj2 (N.leb_gt k' k)) by lia. reflexivity.
      * rewrite (proj2 (N.leb_gt k' a)) by lia. reflexivity.
    + destruct (N.eqb_spec k k').
      * subst. cbn [omfloor]. destruct (N.leb_spec k' a); [|reflexivity].
        destruct (omfloor a m) as [[k2 v2]|] eqn:E.
        -- apply omfloor_in in E. destruct E as [E1 E2]. specialize (S1 _ E1). cbn in S1.
           rewrite (proj2 (N.leb_gt k2 k')) by lia. reflexivity.
        -- now rewrite N.leb_refl.
      * cbn [omfloor]. rewrite (IH S2). destruct (N.leb_spec k' a).
        -- destruct (N.leb_spec k a).
           ++ destruct (omfloor a m) as [[k2 v2]|] eqn:E.
              ** now destruct (k2 <=? k).
              ** rewrite (proj2 (N.leb_le k' k)) by lia. reflexivity.
           ++ now destruct (omfloor a m) as [[k2 v2]|].
        -- rewrite (proj2 (N.leb_gt k a)) by lia. reflexivity.
Qed.

(** Which mapping is in charge, one by one. *)
Definition better (a : N) (acc : option pmapping) (x : pmapping) : option pmapping :=
  if mp_start x <=? a then
    match acc with
    | Some y => if mp_start y <=? mp_start x then Some x else Some y
    | None => Some x
    end
  else acc.

Definition as_entry (x : pmapping) : N * (N * N) := (mp_start x, (mp_limit x, mp_id x)).

Lemma build_mapping_map_spec ms : forall m, sorted_keys m ->
  sorted_keys (build_mapping_map ms m).
Proof.
  induction ms as [|x ms IH]; intros m S; cbn [build_mapping_map]; [exact S|].
  apply IH. now apply omset_sorted.
Qed.

Lemma build_mapping_map_floor a ms : forall m acc, sorted_keys m ->
  omfloor a m = option_map as_entry acc ->
  omfloor a (build_mapping_map ms m) = option_map as_entry (fold_left (better a) ms acc).
Proof.
  induction ms as [|x ms IH]; intros m acc S H; cbn [build_mapping_map fold_left]; [exact H|].
  apply IH; [now apply omset_sorted|]. rewrite (omfloor_omset a _ _ _ S), H.
  unfold better. destruct (mp_start x <=? a); [|reflexivity].
  destruct acc as [y|]; cbn; [|reflexivity]. now destruct (mp_start y <=? mp_start x).
Qed.

Lemma better_spec a ms :
  match fold_left (better a) ms None with
  | Some m => in_charge ms a m
  | None => forall x, In x ms -> a < mp_start x
  end.
Proof.
  induction ms as [|x ms IH] using rev_ind; [easy|].
  rewrite fold_left_app. cbn [fold_left]. unfold better at 1.
  destruct (fold_left (better a) ms None) as [y|].
  - destruct IH as (H1 & pre & post & -> & H2 & H3).
    destruct (N.leb_spec (mp_start x) a) as [Hx|Hx].
    + destruct (N.leb_spec (mp_start y) (mp_start x)) as [Hy|Hy].
      * split; [exact Hx|]. exists (pre ++ y :: post), []. split; [reflexivity|]. split; [|easy].
        intros z Hz Hz'. apply in_app_iff in Hz. destruct Hz as [Hz|[<-|Hz]].
        -- specialize (H2 z Hz Hz'). lia.
        -- lia.
        -- specialize (H3 z Hz Hz'). lia.
      * split; [exact H1|]. exists pre, (post ++ [x]). split; [now rewrite <- app_assoc|]. split; [exact H2|].
        intros z Hz Hz'. apply in_app_iff in Hz. destruct Hz as [Hz|[<-|[]]]; [now apply H3|lia].
    + split; [exact H1|]. exists pre, (post ++ [x]). split; [now rewrite <- app_assoc|]. split; [exact H2|].
      intros z Hz Hz'. apply in_app_iff in Hz. destruct Hz as [Hz|[<-|[]]]; [now apply H3|lia].
  - destruct (N.leb_spec (mp_start x) a) as [Hx|Hx].
    + split; [exact Hx|]. exists ms, []. split; [reflexivity|]. split; [|easy].
      intros z Hz Hz'. specialize (IH z Hz). lia.
    + intros z Hz. apply in_app_iff in Hz. destruct Hz as [Hz|[<-|[]]]; [now apply IH|exact Hx].
Qed.

Lemma in_charge_unique ms a m m' : in_charge ms a m -> in_charge ms a m' ->
  mp_start m = mp_start m' /\ m = m'.
Proof.
  intros (H1 & pre & post & E & H2 & H3) (H1' & pre' & post' & E' & H2' & H3').
  assert (S : mp_start m = mp_start m').
  { assert (A : mp_start m <= mp_start m').
    { assert (I : In m (pre' ++ m' :: post')) by (rewrite <- E', E; apply in_app_iff; right; now left).
      apply in_app_iff in I. destruct I as [I|[<-|I]]; [now apply H2'|lia|]. specialize (H3' m I H1). lia. }
    assert (B : mp_start m' <= mp_start m).
    { assert (I : In m' (pre ++ m :: post)) by (rewrite <- E, E'; apply in_app_iff; right; now left).
      apply in_app_iff in I. destruct I as [I|[<-|I]]; [now apply H2|lia|]. specialize (H3 m' I H1'). lia. }
    lia. }
  split; [exact S|].
  rewrite E in E'. clear E. revert pre' E' H2'. induction pre as [|x pre IH]; intros [|y pre'] E' H2'; cbn in E'.
  - now injection E'.
  - injection E' as -> ->. assert (X : mp_start m' < mp_start y); [|lia].
    apply H3; [apply in_app_iff; right; now left|exact H1'].
  - injection E' as -> <-. assert (X : mp_start m < mp_start m'); [|lia].
    apply H3'; [apply in_app_iff; right; now left|exact H1].
  - injection E' as -> E'. apply (IH (fun z Hz => H2 z (or_intror Hz)) pre' E' (fun z Hz => H2' z (or_intror Hz))).
Qed.

Lemma sorted_nil {V} : sorted_keys (@nil (N * V)).
Proof. intros [|i] j a b _ H; discriminate. Qed.

Lemma assign_mapping_spec ms l :
  let l' := assign_mapping (build_mapping_map ms []) l in
  lc_id l' = lc_id l /\ lc_addr l' = lc_addr l /\ lc_line l' = lc_line l /\
  (lc_addr l = 0 \/ lc_mapping l <> 0 -> lc_mapping l' = lc_mapping l) /\
  (lc_addr l <> 0 -> lc_mapping l = 0 ->
    (forall m, in_charge ms (lc_addr l) m ->
       lc_mapping l' = if lc_addr l <=? mp_limit m then mp_id m else 0) /\
    ((forall m, In m ms -> lc_addr l < mp_start m) -> lc_mapping l' = 0)).
Proof.
  cbv zeta. unfold assign_mapping.
  rewrite (build_mapping_map_floor (lc_addr l) ms [] None sorted_nil eq_refl).
  assert (B := better_spec (lc_addr l) ms).
  destruct (N.eqb_spec (lc_addr l) 0) as [E|E]; cbn [negb andb].
  { do 3 (split; [reflexivity|]). split; [reflexivity|]. intros; congruence. }
  destruct (N.eqb_spec (lc_mapping l) 0) as [F|F].
  2:{ do 3 (split; [reflexivity|]). split; [reflexivity|]. intros; congruence. }
  destruct (fold_left (better (lc_addr l)) ms None) as [m|]; cbn [option_map].
  - assert (U : forall m', in_charge ms (lc_addr l) m' -> m' = m).
    { intros m' Hm'. destruct (in_charge_unique _ _ _ _ B Hm') as [_ <-]. reflexivity. }
    assert (A : ~ forall m0, In m0 ms -> lc_addr l < mp_start m0).
    { intros H. destruct B as (B1 & pre & post & -> & _).
      specialize (H m). rewrite in_app_iff in H. cbn in H. specialize (H (or_intror (or_introl eq_refl))). lia. }
    unfold as_entry. destruct (lc_addr l <=? mp_limit m) eqn:L; cbn [lc_id lc_addr lc_line lc_mapping].
    + do 3 (split; [reflexivity|]). split; [intros [X|X]; contradiction|]. intros _ _.
      split; [|intros X; contradiction]. intros m' Hm'. rewrite (U _ Hm'), L. reflexivity.
    + do 3 (split; [reflexivity|]). split; [reflexivity|]. intros _ _.
      split; [|intros X; contradiction]. intros m' Hm'. rewrite (U _ Hm'), L. exact F.
  - do 3 (split; [reflexivity|]). split; [reflexivity|]. intros _ _. split; [|intros; exact F].
    intros m' (B1 & pre & post & -> & _). specialize (B m'). rewrite in_app_iff in B. cbn in B.
    specialize (B (or_intror (or_introl eq_refl))). lia.
Qed.

Lemma create_locations_fields p :
  pf_mapping (create_locations p) = pf_mapping p /\ pf_sample_type (create_locations p) = pf_sample_type p.
Proof.
  unfold create_locations. destruct (pf_location p); [|easy].
  destruct (intern_samples [] [] (pf_sample p)). easy.
Qed.

Lemma assign_mappings_sample p : pf_sample (assign_mappings p) = pf_sample p.
Proof. unfold assign_mappings. now destruct (pf_mapping p). Qed.

Lemma assign_mappings_location p :
  pf_location (assign_mappings p) =
  map (assign_mapping (build_mapping_map (pf_mapping p) [])) (pf_location p).
Proof.
  unfold assign_mappings. destruct (pf_mapping p); [|reflexivity]. cbn.
  symmetry. rewrite <- (map_id (pf_location p)) at 2. apply map_ext. intros l. unfold assign_mapping.
  cbn. now destruct (negb _ && _).
Qed.

(** Locations created from addresses. *)
Lemma finalize_addresses b :
  b_error b = false -> pf_location (b_profile b) = [] ->
  let p := b_profile b in
  let p' := b_profile (fst (finalize b)) in
  List.length (pf_sample p') = List.length (pf_sample p) /\
  (forall k s, nth_error (pf_sample p) k = Some s ->
     exists s', nth_error (pf_sample p') k = Some s' /\
       ps_val s' = ps_val s /\ ps_label s' = ps_label s /\
       List.length (ps_loc s') = List.length (ps_loc s) /\
       forall j a, nth_error (ps_loc s) j = Some a ->
         exists i, nth_error (ps_loc s') j = Some i /\ address_of p' i a) /\
  NoDup (map lc_addr (pf_location p')) /\
  map lc_id (pf_location p') = map (fun k => N.of_nat k + 1) (seq 0 (List.length (pf_location p'))) /\
  (forall l, In l (pf_location p') -> exists s, In s (pf_sample p) /\ In (lc_addr l) (ps_loc s)).
Proof.
  intros He Hl. cbv zeta. unfold finalize. rewrite He. cbn [fst with_profile b_profile].
  set (p := b_profile b) in *.
  rewrite assign_mappings_sample, assign_mappings_location.
  destruct (create_locations_fields p) as [-> _].
  unfold create_locations. rewrite Hl.
  destruct (intern_samples [] [] (pf_sample p)) as [locs ss] eqn:E.
  destruct (intern_samples_spec _ _ _ _ _ interned0 E) as (m' & I & (t & Ht & Ht') & _ & L & S).
  cbn [pf_sample set_sample pf_location set_location].
  set (f := assign_mapping (build_mapping_map (pf_mapping p) [])).
  assert (Fid : forall l, lc_id (f l) = lc_id l) by (intros l; apply (assign_mapping_spec (pf_mapping p) l)).
  assert (Fad : forall l, lc_addr (f l) = lc_addr l) by (intros l; apply (assign_mapping_spec (pf_mapping p) l)).
  rewrite !map_map, map_length.
  rewrite (map_ext _ _ Fid), (map_ext _ _ Fad).
  split; [exact L|]. split; [|split; [|split]].
  - intros k s Hs. destruct (S _ _ Hs) as (s' & H1 & H2 & H3 & H4 & H5). exists s'. repeat (split; [assumption|]).
    intros j a Ha. destruct (H5 _ _ Ha) as (i & Hi & Hg). exists i. split; [exact Hi|].
    destruct (in_get _ _ I _ _ Hg) as (l & X1 & X2 & X3). exists (f l).
    split; [rewrite assign_mappings_location; cbn; now apply in_map|].
    rewrite Fid, Fad. auto.
  - exact (in_nodup _ _ I).
  - exact (in_ids _ _ I).
  - intros l Hin. apply in_map_iff in Hin. destruct Hin as (l0 & <- & H0). rewrite Fad.
    cbn in Ht. subst t. now apply Ht'.
Qed.

(** What Finalize does to existing locations and their mappings. *)
Lemma finalize_mappings b k l :
  b_error b = false ->
  nth_error (pf_location (create_locations (b_profile b))) k = Some l ->
  exists l', nth_error (pf_location (b_profile (fst (finalize b)))) k = Some l' /\
  lc_id l' = lc_id l /\ lc_addr l' = lc_addr l /\ lc_line l' = lc_line l /\
  (lc_addr l = 0 \/ lc_mapping l <> 0 -> lc_mapping l' = lc_mapping l) /\
  (lc_addr l <> 0 -> lc_mapping l = 0 ->
    (forall m, in_charge (pf_mapping (b_profile b)) (lc_addr l) m ->
       lc_mapping l' = if lc_addr l <=? mp_limit m then mp_id m else 0) /\
    ((forall m, In m (pf_mapping (b_profile b)) -> lc_addr l < mp_start m) -> lc_mapping l' = 0)).
Proof.
  intros He Hk. unfold finalize. rewrite He. cbn [fst with_profile b_profile].
  rewrite assign_mappings_location. destruct (create_locations_fields (b_profile b)) as [-> _].
  rewrite nth_error_map, Hk. eexists. split; [reflexivity|]. apply assign_mapping_spec.
Qed.

Lemma create_locations_keeps p l r :
  pf_location p = l :: r -> create_locations p = p.
Proof. intros E. unfold create_locations. now rewrite E. Qed.

Lemma created_unmapped p l :
  pf_location p = [] -> In l (pf_location (create_locations p)) -> lc_mapping l = 0.
Proof.
  intros E. unfold create_locations. rewrite E.
  destruct (intern_samples [] [] (pf_sample p)) as [locs ss] eqn:H.
  destruct (intern_samples_spec _ _ _ _ _ interned0 H) as (m' & I & _). cbn. intros Hl.
  now apply (in_mapping _ _ I).
Qed.

Lemma set_location_same p : set_location (pf_location p) p = p.
Proof. now destruct p. Qed.

Lemma set_location_twice x y p : set_location x (set_location y p) = set_location x p.
Proof. reflexivity. Qed.

Lemma assign_mapping_idem ms l :
  assign_mapping ms (assign_mapping ms l) = assign_mapping ms l.
Proof.
  unfold assign_mapping. destruct (N.eqb_spec (lc_addr l) 0) as [E|E]; cbn [negb andb].
  - rewrite E. reflexivity.
  - destruct (N.eqb_spec (lc_mapping l) 0) as [F|F].
    + destruct (omfloor (lc_addr l) ms) as [[k [lim id]]|] eqn:G.
      * destruct (lc_addr l <=? lim) eqn:H; cbn.
        -- rewrite (proj2 (N.eqb_neq _ _) E). cbn. destruct (id =? 0); [|reflexivity].
           now rewrite G, H.
        -- rewrite (proj2 (N.eqb_neq _ _) E), F. cbn. now rewrite G, H.
      * rewrite (proj2 (N.eqb_neq _ _) E), F. cbn. now rewrite G.
    + rewrite (proj2 (N.eqb_neq _ _) E), (proj2 (N.eqb_neq _ _) F). reflexivity.
Qed.

Lemma assign_mappings_idem p : assign_mappings (assign_mappings p) = assign_mappings p.
Proof.
  unfold assign_mappings. destruct (pf_mapping p) as [|m ms] eqn:E; [now rewrite E|].
  cbn [pf_mapping set_location]. rewrite E. cbn [pf_location set_location].
  rewrite map_map. rewrite set_location_twice. f_equal. apply map_ext. intros l. apply assign_mapping_idem.
Qed.

Lemma intern_samples_none ss ss' :
  intern_samples [] [] ss = ([], ss') -> ss' = ss.
Proof.
  revert ss'. induction ss as [|s ss IH]; intros ss'; cbn [intern_samples].
  - intros H. now injection H as <-.
  - destruct (ps_loc s) as [|a r] eqn:Es.
    + cbn [intern_addresses]. destruct (intern_samples [] [] ss) as [l2 r2] eqn:R.
      intros H. injection H as -> <-. f_equal; [|now apply IH]. destruct s; cbn in Es; now subst.
    + destruct (intern_addresses [] [] (a :: r)) as [[m1 l1] ids] eqn:R.
      destruct (intern_samples m1 l1 ss) as [l2 r2] eqn:R2. intros H. injection H as -> <-. exfalso.
      destruct (intern_addresses_spec _ _ _ _ _ _ interned0 R) as (J1 & _ & _ & _ & J5).
      destruct (J5 O a eq_refl) as (i & _ & Hi). destruct (in_get _ _ J1 _ _ Hi) as (l & Hl & _).
      destruct (intern_samples_spec _ _ _ _ _ J1 R2) as (m' & _ & (t & Ht & _) & _).
      destruct l1; [easy|discriminate].
Qed.

Lemma create_locations_idem p :
  create_locations (assign_mappings (create_locations p)) = assign_mappings (create_locations p).
Proof.
  destruct (pf_location (assign_mappings (create_locations p))) as [|l r] eqn:E.
  2:{ now apply create_locations_keeps in E. }
  unfold create_locations at 1. rewrite E. rewrite assign_mappings_sample.
  rewrite assign_mappings_location in E. apply map_eq_nil in E.
  unfold create_locations in *. destruct (pf_location p) as [|l r] eqn:E0; [|congruence].
  - destruct (intern_samples [] [] (pf_sample p)) as [locs ss] eqn:H. cbn in E. subst locs.
    assert (X := intern_samples_none _ _ H). subst ss. cbn [pf_sample set_sample]. rewrite H.
    unfold assign_mappings. cbn. destruct (pf_mapping p); reflexivity.
Qed.

Lemma finalize_idem b : finalize (fst (finalize b)) = finalize b.
Proof.
  unfold finalize. destruct (b_error b) eqn:E; cbn [fst with_profile b_error b_profile]; rewrite E; [reflexivity|].
  rewrite create_locations_idem, assign_mappings_idem. reflexivity.
Qed.

Lemma finalize_true b :
  snd (finalize b) = true -> check_valid (b_profile (fst (finalize b))) = true.
Proof. unfold finalize. destruct (b_error b); cbn; [discriminate|auto]. Qed.

Lemma sub64_add a b : b <= two64 -> sub64 a b = (a + (two64 - b)) mod two64.
Proof. intros H. unfold sub64. f_equal. lia. Qed.

Lemma add_callstack_spec s stack interrupt k a :
  nth_error stack k = Some a ->
  ps_val (add_callstack s stack interrupt) = ps_val s /\
  List.length (ps_loc (add_callstack s stack interrupt)) =
    (List.length (ps_loc s) + List.length stack)%nat /\
  firstn (List.length (ps_loc s)) (ps_loc (add_callstack s stack interrupt)) = ps_loc s /\
  nth_error (ps_loc (add_callstack s stack interrupt)) (List.length (ps_loc s) + k) =
    Some (if ((k =? 0)%nat && interrupt)%bool then a else (a + (two64 - 1)) mod two64).
Proof.
  destruct stack as [|x stack]; [destruct k; discriminate|]. intros H.
  cbn [add_callstack ps_val ps_loc].
  split; [reflexivity|]. split; [rewrite app_length; cbn; rewrite map_length; lia|].
  split; [rewrite firstn_app, Nat.sub_diag, firstn_all; cbn; apply app_nil_r|].
  rewrite nth_error_app2 by lia.
  replace (List.length (ps_loc s) + k - List.length (ps_loc s))%nat with k by lia.
  assert (B : 1 <= two64) by (vm_compute; discriminate).
  destruct k as [|k]; cbn [nth_error] in H |- *.
  - injection H as ->. cbn. rewrite (sub64_add _ _ B). now destruct interrupt.
  - rewrite nth_error_map, H. cbn. now rewrite (sub64_add _ _ B).
Qed.
