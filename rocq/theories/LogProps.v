(** C76: messages and checks. *)
From Verif Require Import Base LogModel.
Local Open Scope Z_scope.
Local Open Scope list_scope.

(** *** Specification: the verbosity of a program after some statements is the last one
    set, 0 at first. A message of a severity is shown unless the verbosity is below
    minus the severity, one of a verbosity if that is not above the verbosity set.
    The program ends at the first check that fails or message that is fatal. *)
Definition shown {T} (verbosity : Z) (s : statement T) : list T :=
  match s with
  | Log severity t | PLog severity t => if - severity <=? verbosity then [t] else []
  | VLog v t => if v <=? verbosity then [t] else []
  | Check holds t => if holds then [] else if -3 <=? verbosity then [t] else []
  | SetVerbosity _ => []
  end.
Definition ends {T} (s : statement T) : bool :=
  match s with Log severity _ | PLog severity _ => 3 <=? severity | Check holds _ => negb holds | _ => false end.
Definition verbosity_after {T} (verbosity : Z) (s : statement T) : Z :=
  match s with SetVerbosity v => v | _ => verbosity end.
Fixpoint expected {T} (verbosity : Z) (l : list (statement T)) : list T * bool :=
  match l with
  | [] => ([], false)
  | s :: r => if ends s then (shown verbosity s, true)
              else let '(out, e) := expected (verbosity_after verbosity s) r in (shown verbosity s ++ out, e)
  end.
(** PLOG is not used, and no verbosity is the least int or the negative of it. *)
Definition plain {T} (s : statement T) : Prop :=
  match s with PLog _ _ => False | SetVerbosity v => -2147483648 < v < 2147483648 | _ => True end.

Lemma as_expected {T} (l : list (statement T)) : Forall plain l ->
  forall verbosity, -2147483648 < verbosity < 2147483648 ->
  fst (messages (- verbosity) l) = fst (expected verbosity l) /\
  (snd (expected verbosity l) = true -> snd (messages (- verbosity) l) = Ended) /\
  (snd (expected verbosity l) = false -> exists v, snd (messages (- verbosity) l) = Going v).
Proof.
  induction l as [|s l IH]; intros F verbosity V; [split; [reflexivity|split; [discriminate|intros _; eexists; reflexivity]]|].
  assert (Ps := Forall_inv F). assert (Fl := Forall_inv_tail F).
  assert (Neg : negate (- verbosity) = Some verbosity).
  { unfold negate, int_least. destruct (Z.eqb_spec (- verbosity) (-2147483648)); [lia|]. now rewrite Z.opp_involutive. }
  assert (Le : forall a, (- verbosity <=? a) = (- a <=? verbosity)).
  { intros a. destruct (Z.leb_spec (- verbosity) a), (Z.leb_spec (- a) verbosity); lia. }
  assert (Go : forall out, 
    let m := (let '(out', g) := messages (- verbosity) l in (out ++ out', g)) in
    let x := (let '(out', e) := expected verbosity l in (out ++ out', e)) in
    fst m = fst x /\ (snd x = true -> snd m = Ended) /\ (snd x = false -> exists v, snd m = Going v)).
  { intros out. cbv zeta. destruct (IH Fl verbosity V) as (I1 & I2 & I3).
    destruct (messages (- verbosity) l) as [o g], (expected verbosity l) as [o' e]. cbn [fst snd] in *. rewrite I1. auto. }
  cbn [messages expected]. destruct s as [a t|a t|a t|h t|a]; cbn [execute ends shown verbosity_after plain] in *; [| | | |].
  - unfold log, fatal. rewrite Le. destruct (3 <=? a); [|apply Go].
    cbn [fst snd]. split; [reflexivity|]. split; [reflexivity|discriminate].
  - destruct Ps.
  - rewrite Neg. apply Go.
  - destruct h; cbn [negb]; [apply Go|]. unfold log, fatal. rewrite Le. cbn [Z.leb Z.compare Pos.compare Pos.compare_cont].
    cbn [fst snd]. split; [reflexivity|]. split; [reflexivity|discriminate].
  - unfold negate, int_least. destruct (Z.eqb_spec a (-2147483648)); [lia|].
    destruct (IH Fl a Ps) as (I1 & I2 & I3).
    destruct (messages (- a) l) as [o g], (expected a l) as [o' e]. cbn [fst snd app] in *. auto.
Qed.

(** *** Just the messages that the verbosity asks for are shown, in order, up to the
    first check that fails or fatal message, which ends the program whatever the
    verbosity is. *)
Theorem C76_messages {T} (l : list (statement T)) : Forall plain l ->
  fst (messages start l) = fst (expected 0 l) /\
  (snd (expected 0 l) = true <-> snd (messages start l) = Ended) /\
  snd (messages start l) <> Undefined.
Proof.
  intros F. destruct (as_expected l F 0) as (A & B & C); [lia|]. change (- 0) with start in *. split; [exact A|].
  destruct (snd (expected 0 l)).
  - rewrite (B eq_refl). split; [easy|discriminate].
  - destruct (C eq_refl) as (v & ->). split; [easy|discriminate].
Qed.
Print Assumptions C76_messages.

Example C76_hypotheses_met :
  let l := [Log 0 1%nat; VLog 1 2%nat; SetVerbosity 1; VLog 1 3%nat; Check true 4%nat; SetVerbosity (-9); Log 2 5%nat; Check false 6%nat; Log 2 7%nat] in
  Forall plain l /\ messages start l = ([1%nat; 3%nat], Ended).
Proof. cbv zeta. split; [repeat constructor|vm_compute; reflexivity]. Qed.

(** *** PLOG should be "like LOG but appends errno's string description". It reads a
    variable that has never been given a value. So if perf fails, what quipper does is
    undefined (perf_recorder.cc:163), unless errors are not shown. *)
Theorem C76_plog_refuted {T} (text : T) severity least r :
  least <= severity -> messages least (PLog severity text :: r) = ([], Undefined).
Proof. intros H. cbn [messages execute]. now rewrite (proj2 (Z.leb_le _ _) H). Qed.
Print Assumptions C76_plog_refuted.

(** *** So is the negation of the least int, which `perf_converter -v -2147483648` does. *)
Theorem C76_verbosity_refuted {T} (r : list (statement T)) : messages start (SetVerbosity (-2147483648) :: r) = ([], Undefined).
Proof. reflexivity. Qed.
Print Assumptions C76_verbosity_refuted.
