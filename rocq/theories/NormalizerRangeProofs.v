(** Every mapping the Normalizer hands out is a proper range. *)
From Coq Require Import String.
From Verif Require Import Base BytesModel TextModel TextProofs Assoc IntervalMapModel IntervalMapSpec IntervalMapProofs
  SpeModel SpeProofs PerfProto NormalizerModel NormalizerSpec BuilderProofs NormalizerProofs NormalizerStepProofs
  NormalizerMoreProofs.
Local Open Scope N_scope.
Local Open Scope list_scope.

Definition ranged (m : hmapping) : Prop := hm_start m < hm_limit m.

Lemma rename_ranged h p f : Forall ranged h -> Forall ranged (rename h p f).
Proof.
  intros H. revert p. induction H as [|m h Hm H IH]; intros p; cbn [rename]; [constructor|].
  destruct p; constructor; auto.
Qed.

Lemma fake_ranged s comm b md5 start s' p :
  start < w64 (start + 1) ->
  fake_mapping s comm b md5 start = (s', p) -> Forall ranged (ns_heap s) -> Forall ranged (ns_heap s').
Proof.
  intros L H F. unfold fake_mapping in H. destruct (aget fake_key_eqb _ _); injection H as <- <-; [exact F|].
  cbn. apply Forall_app. split; [exact F|]. constructor; [exact L|constructor].
Qed.

Lemma main_ranged s pid c s' o :
  main_mapping s pid c = Ok (s', o) -> Forall ranged (ns_heap s) -> Forall ranged (ns_heap s').
Proof.
  unfold main_mapping. intros H F. destruct (aget N.eqb pid (ns_exec s)); [injection H as <- <-; exact F|].
  destruct (actx_eqb c CHostKernel); [|injection H as <- <-; exact F].
  destruct (aget N.eqb pid (ns_comm s)).
  - ok_inv H. destruct (fake_mapping s _ _ _ _) eqn:E1. injection H0 as <- <-.
    eapply fake_ranged; [|exact E1|exact F]. reflexivity.
  - destruct (pid =? 0); injection H as <- <-; exact F.
Qed.

Lemma on_sample_ranged e s misc sm spe s' cs :
  on_sample e s misc sm spe = Ok (s', cs) -> Forall ranged (ns_heap s) -> Forall ranged (ns_heap s').
Proof.
  unfold on_sample. destruct (_ =? -1)%Z; intros H F; [injection H as <- <-; exact F|].
  ok_inv H. ok_inv H0. ok_inv H. destruct a1 as (s1, o). ok_inv H0. ok_inv H. ok_inv H0. ok_inv H.
  injection H0 as <- <-. exact (main_ranged _ _ _ _ _ E1 F).
Qed.

Lemma guess_main_ranged s m start p s' :
  guess_main s m start p = Ok s' -> Forall ranged (ns_heap s) -> Forall ranged (ns_heap s').
Proof.
  unfold guess_main. destruct (_ || _); intros H F; [injection H as <-; exact F|].
  ok_inv H. ok_inv H0.
  assert (L : Forall ranged (ns_heap a)).
  { destruct (aget N.eqb (mm_pid m) (ns_exec s)) as [o|]; [|injection E as <-; exact F].
    ok_inv E. destruct (_ && _ && _); injection H0 as <-; [|exact F]. cbn. now apply rename_ranged. }
  destruct (negb a0); [injection H as <-; exact L|].
  destruct (_ && _); injection H as <-; exact L.
Qed.

Lemma on_mmap_ranged e s m s' cs :
  on_mmap e s m = Ok (s', cs) -> Forall ranged (ns_heap s) -> Forall ranged (ns_heap s').
Proof.
  unfold on_mmap. destruct (mm_len m =? 0); intros H F; [injection H as <- <-; exact F|].
  ok_inv H. ok_inv H0. ok_inv H. injection H0 as <- <-.
  eapply guess_main_ranged; [exact E1|]. cbn. apply Forall_app. split; [exact F|]. constructor; [|constructor].
  unfold im_set in E0. unfold ranged. cbn [hm_start hm_limit].
  match type of E0 with (if ?a <? ?b then _ else _) = _ => destruct (N.ltb_spec a b) end; [assumption|discriminate E0].
Qed.

Lemma deliver_lost_ranged e s l s' cs :
  deliver_lost e s l = Ok (s', cs) -> Forall ranged (ns_heap s) -> Forall ranged (ns_heap s').
Proof.
  unfold deliver_lost. destruct (_ =? -1)%Z; intros H F; [injection H as <- <-; exact F|].
  destruct (fake_mapping _ _ _ _ _) as (s1, p) eqn:E1. ok_inv H. injection H0 as <- <-.
  eapply fake_ranged; [|exact E1|exact F]. reflexivity.
Qed.

Lemma spe_records_ranged e : forall rs s s' cs,
  on_spe_records e s rs = Ok (s', cs) -> Forall ranged (ns_heap s) -> Forall ranged (ns_heap s').
Proof.
  induction rs as [|r rs IH]; intros s s' cs; cbn [on_spe_records]; intros H F.
  - injection H as <- <-. exact F.
  - ok_inv H. destruct a as (s1, c1). ok_inv H0. destruct a as (s2, c2). injection H as <- <-.
    unfold on_spe_record in E. destruct (if _ =? 0 then _ else _) as (pid, miss) in E.
    apply on_sample_ranged in E; [|exact F]. exact (IH _ _ _ E0 E).
Qed.

Lemma on_event_ranged e s ev s' cs :
  on_event e s ev = Ok (s', cs) -> Forall ranged (ns_heap s) -> Forall ranged (ns_heap s').
Proof.
  unfold on_event. destruct (ev_what ev); intros H F.
  - ok_inv H. destruct a as (s1, c1). injection H0 as <- <-. exact (on_mmap_ranged _ _ _ _ _ E F).
  - injection H as H. unfold on_comm in H. destruct (cm_pid c =? cm_tid c).
    + destruct (_ || _ || _); injection H as <- <-; exact F.
    + injection H as <- <-. exact F.
  - injection H as <- <-. unfold on_fork. destruct (_ =? _); exact F.
  - injection H as <- <-. exact F.
  - destruct (ne_lost_samples e); [eapply deliver_lost_ranged; eauto|injection H as <- <-; exact F].
  - destruct (ne_lost_samples e); [injection H as <- <-; exact F|eapply deliver_lost_ranged; eauto].
  - eapply on_sample_ranged; eauto.
  - injection H as <- <-. exact F.
  - destruct trace; [|injection H as <- <-; exact F].
    destruct (ne_spe e); [|injection H as <- <-; exact F]. ok_inv H. eapply spe_records_ranged; eauto.
  - destruct (_ && _); [eapply on_mmap_ranged; eauto|injection H as <- <-; exact F].
  - injection H as <- <-. exact F.
Qed.

Lemma run_ranged e : forall evs s s' cs,
  run_events e s evs = Ok (s', cs) -> Forall ranged (ns_heap s) -> Forall ranged (ns_heap s').
Proof.
  induction evs as [|ev evs IH]; intros s s' cs; cbn [run_events]; intros H F.
  - injection H as <- <-. exact F.
  - ok_inv H. destruct a as (s1, c1). ok_inv H0. destruct a as (s2, c2). injection H as <- <-.
    exact (IH _ _ _ E0 (on_event_ranged _ _ _ _ _ E F)).
Qed.

Theorem process_ranges p cs c q m :
  process p = Ok cs -> In c cs -> In (q, m) (refs_of c) -> hm_start m < hm_limit m.
Proof.
  unfold process. intros H H1 R1. ok_inv H. ok_inv H0. destruct a0 as (s', cs').
  injection H as <-. pose proof (run_ranged _ _ _ _ _ E0 (Forall_nil _)) as F. apply run_refs in E0 as (_ & G).
  rewrite Forall_forall in G, F.
  destruct (G (q, m)) as (m' & E1 & (L1 & L2 & _)); [apply in_flat_map; eauto|]. cbn in *.
  pose proof (F _ (nth_error_In _ _ E1)) as X. unfold ranged in X. now rewrite L1, L2.
Qed.
