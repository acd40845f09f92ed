From Coq Require Import String.
From Verif Require Import Base BytesModel TextModel TextProofs Assoc IntervalMapModel IntervalMapSpec IntervalMapProofs
  SpeModel SpeProofs PerfProto NormalizerModel NormalizerSpec BuilderProofs NormalizerProofs NormalizerStepProofs.
Local Open Scope N_scope.
Local Open Scope list_scope.

(** * Mapping objects never change, except for being named *)

(** [b] is [a] later: an unnamed mapping at 0x400000 may have been named. *)
Definition later_obj (a b : hmapping) : Prop :=
  hm_start a = hm_start b /\ hm_limit a = hm_limit b /\ hm_off a = hm_off b /\
  hm_md5 a = hm_md5 b /\ hm_build a = hm_build b /\
  (hm_file a = hm_file b \/ (hm_file a = [] /\ hm_start a = 0x400000)).

Lemma later_refl a : later_obj a a.
Proof. repeat split. auto. Qed.

Lemma later_trans a b c : later_obj a b -> later_obj b c -> later_obj a c.
Proof.
  intros (A1 & A2 & A3 & A4 & A5 & A6) (B1 & B2 & B3 & B4 & B5 & B6).
  repeat split; try congruence. destruct A6 as [A6|A6]; [rewrite A6, A1|right; auto].
  destruct B6 as [B6|(B6 & B7)]; [auto|right]; auto.
Qed.

Lemma later_same a b c : later_obj a c -> later_obj b c -> same_object a b.
Proof.
  intros (A1 & A2 & A3 & A4 & A5 & A6) (B1 & B2 & B3 & B4 & B5 & B6).
  repeat split; try congruence. destruct A6 as [A6|(A6 & A7)]; [|right; auto].
  destruct B6 as [B6|(B6 & B7)]; [left; congruence|right; split; [congruence|auto]].
Qed.

Definition heap_le (h h' : list hmapping) : Prop :=
  forall p m, nth_error h p = Some m -> exists m', nth_error h' p = Some m' /\ later_obj m m'.

Lemma heap_refl h : heap_le h h.
Proof. intros p m H. eauto using later_refl. Qed.

Lemma heap_trans a b c : heap_le a b -> heap_le b c -> heap_le a c.
Proof.
  intros H1 H2 p m H. destruct (H1 p m H) as (m1 & E1 & L1). destruct (H2 p m1 E1) as (m2 & E2 & L2).
  eauto using later_trans.
Qed.

Lemma heap_app h x : heap_le h (h ++ x).
Proof.
  intros p m H. exists m. split; [|apply later_refl]. rewrite nth_error_app1; auto.
  apply nth_error_Some. congruence.
Qed.

Lemma heap_rename h o om f : nth_error h o = Some om -> hm_file om = [] -> hm_start om = 0x400000 -> heap_le h (rename h o f).
Proof.
  intros Eo Ef Es p m H. destruct (rename_nth_same h o f p m H) as (m' & E & [->|(-> & ->)]).
  - eauto using later_refl.
  - eexists. split; [exact E|]. rewrite H in Eo. injection Eo as ->. repeat split. auto.
Qed.

(** A reference valid in the heap. *)
Definition ref_in (h : list hmapping) (r : mref) : Prop :=
  exists m', nth_error h (fst r) = Some m' /\ later_obj (snd r) m'.

Lemma ref_le h h' r : heap_le h h' -> ref_in h r -> ref_in h' r.
Proof.
  intros H (m' & E & L). destruct (H _ _ E) as (m2 & E2 & L2). exists m2. eauto using later_trans.
Qed.

Lemma deref_ref s p m : deref s p = Ok m -> ref_in (ns_heap s) (p, m).
Proof.
  unfold deref. intros H. destruct (nth_error (ns_heap s) p) eqn:E; [|easy]. injection H as ->.
  exists m. auto using later_refl.
Qed.

Lemma oref_ref s o r : oref s o = Ok r -> Forall (ref_in (ns_heap s)) (opt_list r).
Proof.
  destruct o as [p|]; cbn; intros H.
  - ok_inv H. injection H0 as <-. constructor; auto. now apply deref_ref.
  - injection H as <-. constructor.
Qed.

Lemma get_mref_ref s pid ip c r : get_mref s pid ip c = Ok r -> Forall (ref_in (ns_heap s)) (opt_list r).
Proof. unfold get_mref. intros H. ok_inv H. eapply oref_ref; eauto. Qed.

Lemma chain_ref s pid : forall ips c l, chain_loop s pid c ips = Ok l ->
  Forall (ref_in (ns_heap s)) (flat_map (fun x => opt_list (snd x)) l).
Proof.
  induction ips as [|ip ips IH]; intros c l; cbn [chain_loop]; intros H.
  - injection H as <-. constructor.
  - destruct (negb _).
    + ok_inv H. injection H0 as <-. cbn. eauto.
    + ok_inv H. ok_inv H0. injection H as <-. cbn [flat_map snd]. apply Forall_app. split; eauto.
      eapply get_mref_ref; eauto.
Qed.

Lemma branch_ref s pid : forall bs l, branch_loop s pid bs = Ok l ->
  Forall (ref_in (ns_heap s)) (flat_map (fun b => opt_list (bp_from_map b) ++ opt_list (bp_to_map b)) l).
Proof.
  induction bs as [|b bs IH]; intros l; cbn [branch_loop]; intros H.
  - injection H as <-. constructor.
  - ok_inv H. ok_inv H0. ok_inv H. injection H0 as <-. cbn [flat_map bp_from_map bp_to_map].
    rewrite <- app_assoc. repeat (apply Forall_app; split); eauto; eapply get_mref_ref; eauto.
Qed.

Lemma fake_heap s comm b md5 start s' p :
  fake_mapping s comm b md5 start = (s', p) -> heap_le (ns_heap s) (ns_heap s').
Proof.
  unfold fake_mapping. destruct (aget fake_key_eqb _ _); intros H; injection H as <- <-.
  - apply heap_refl.
  - cbn. apply heap_app.
Qed.

Lemma main_heap s pid c s' o : main_mapping s pid c = Ok (s', o) -> heap_le (ns_heap s) (ns_heap s').
Proof.
  unfold main_mapping. destruct (aget N.eqb pid (ns_exec s)); intros H.
  { injection H as <- <-. apply heap_refl. }
  destruct (actx_eqb c CHostKernel); [|injection H as <- <-; apply heap_refl].
  destruct (aget N.eqb pid (ns_comm s)).
  - ok_inv H. destruct (fake_mapping s _ _ _ _) eqn:F. injection H0 as <- <-. eapply fake_heap; eauto.
  - destruct (pid =? 0); injection H as <- <-; apply heap_refl.
Qed.

(** What one step does to the heap, and the references it hands out. *)
Definition refs_step (s s' : nstate) (cs : list hcall) : Prop :=
  heap_le (ns_heap s) (ns_heap s') /\ Forall (ref_in (ns_heap s')) (flat_map refs_of cs).

Lemma on_sample_refs e s misc sm spe s' cs :
  on_sample e s misc sm spe = Ok (s', cs) -> refs_step s s' cs.
Proof.
  unfold on_sample. set (index := match spe with Some _ => 0%Z | None => event_index e sm end).
  destruct (index =? -1)%Z; intros H.
  { injection H as <- <-. split; [apply heap_refl|constructor]. }
  ok_inv H. rename a into mp. ok_inv H0. rename a into ad. ok_inv H. destruct a as (s1, o).
  ok_inv H0. rename a into main. ok_inv H. rename a into ch. ok_inv H0. rename a into bs.
  ok_inv H. rename a into bs'. injection H0 as <- <-.
  pose proof (main_heap _ _ _ _ _ E1) as L.
  assert (R : forall r, Forall (ref_in (ns_heap s)) r -> Forall (ref_in (ns_heap s1)) r).
  { intros r Hr. eapply Forall_impl; [|exact Hr]. intros x Hx. eapply ref_le; eauto. }
  split; [exact L|]. cbn [flat_map app refs_of cx_main cx_map cx_addr cx_chain cx_branch].
  rewrite app_nil_r. change (ns_heap (add_stat _ _ _ _ s1)) with (ns_heap s1).
  apply Forall_app. split; [eapply oref_ref; eauto|].
  apply Forall_app. split; [apply R; eapply get_mref_ref; eauto|].
  apply Forall_app. split.
  { destruct (s_addr sm); [apply R; eapply get_mref_ref; eauto|injection E0 as <-; constructor]. }
  apply Forall_app. split; [eapply chain_ref; eauto|].
  pose proof (branch_ref _ _ _ _ E4) as B.
  destruct spe as [r|]; [|injection E5 as <-; auto].
  destruct (negb _) in E5; [|injection E5 as <-; auto].
  ok_inv E5. injection H as <-. rewrite flat_map_app. apply Forall_app. split; auto.
  cbn [flat_map bp_from_map bp_to_map]. rewrite app_nil_r. apply Forall_app. split.
  - apply R. eapply get_mref_ref; eauto.
  - eapply get_mref_ref; eauto.
Qed.

Lemma guess_main_heap s m start p s' :
  guess_main s m start p = Ok s' -> heap_le (ns_heap s) (ns_heap s').
Proof.
  unfold guess_main. destruct (_ || _); intros H; [injection H as <-; apply heap_refl|].
  ok_inv H. ok_inv H0.
  assert (L : heap_le (ns_heap s) (ns_heap a)).
  { destruct (aget N.eqb (mm_pid m) (ns_exec s)) as [o|]; [|injection E as <-; apply heap_refl].
    ok_inv E. destruct (_ && _ && _) eqn:C; injection H0 as <-; [|apply heap_refl].
    apply andb_prop in C as (C & _). apply andb_prop in C as (C1 & C). apply N.eqb_eq in C1.
    unfold deref in E1. destruct (nth_error (ns_heap s) o) as [om|] eqn:En; [|easy]. injection E1 as ->.
    eapply heap_rename; eauto. now destruct (hm_file a1). }
  destruct (negb a0); [injection H as <-; exact L|].
  destruct (_ && _); injection H as <-; exact L.
Qed.

Lemma on_mmap_refs e s m s' cs : on_mmap e s m = Ok (s', cs) -> refs_step s s' cs.
Proof.
  unfold on_mmap. destruct (mm_len m =? 0); intros H.
  { injection H as <- <-. split; [apply heap_refl|constructor]. }
  ok_inv H. ok_inv H0. ok_inv H. injection H0 as <- <-.
  apply guess_main_heap in E1. cbn [ns_heap set_mmaps set_heap] in E1. split.
  - eapply heap_trans; [apply heap_app|exact E1].
  - cbn. constructor; [|constructor].
    match type of E1 with heap_le (_ ++ [?hm]) _ =>
      destruct (E1 (List.length (ns_heap s)) hm) as (m' & Em & L) end.
    + rewrite nth_error_app2, Nat.sub_diag; auto.
    + exists m'. split; auto.
Qed.

Lemma deliver_lost_refs e s l s' cs : deliver_lost e s l = Ok (s', cs) -> refs_step s s' cs.
Proof.
  unfold deliver_lost. destruct (_ =? -1)%Z; intros H.
  { injection H as <- <-. split; [apply heap_refl|constructor]. }
  destruct (fake_mapping _ _ _ _ _) as (s1, p) eqn:F. ok_inv H. injection H0 as <- <-.
  apply fake_heap in F. split; [exact F|]. apply deref_ref in E.
  apply Forall_flat_map. apply Forall_forall. intros x Hx. apply repeat_spec in Hx. subst x.
  cbn. constructor; auto.
Qed.

Lemma spe_records_refs e : forall rs s s' cs,
  on_spe_records e s rs = Ok (s', cs) -> refs_step s s' cs.
Proof.
  induction rs as [|r rs IH]; intros s s' cs; cbn [on_spe_records]; intros H.
  - injection H as <- <-. split; [apply heap_refl|constructor].
  - ok_inv H. destruct a as (s1, c1). ok_inv H0. destruct a as (s2, c2). injection H as <- <-.
    unfold on_spe_record in E. destruct (if _ =? 0 then _ else _) as (pid, miss) in E.
    apply on_sample_refs in E as (L1 & F1). destruct (IH _ _ _ E0) as (L2 & F2).
    change (ns_heap (add_stat 0 0 0 miss s)) with (ns_heap s) in L1. split.
    + eapply heap_trans; eauto.
    + rewrite flat_map_app. apply Forall_app. split; auto.
      eapply Forall_impl; [|exact F1]. intros x. now apply ref_le.
Qed.

Lemma on_event_refs e s ev s' cs : on_event e s ev = Ok (s', cs) -> refs_step s s' cs.
Proof.
  assert (Z : refs_step s s []) by (split; [apply heap_refl|constructor]).
  unfold on_event. destruct (ev_what ev); intros H.
  - ok_inv H. destruct a as (s1, c1). injection H0 as <- <-. exact (on_mmap_refs _ _ _ _ _ E).
  - injection H as H. unfold on_comm in H. destruct (cm_pid c =? cm_tid c).
    + destruct (_ || _ || _); injection H as <- <-; (split; [apply heap_refl|repeat constructor]).
    + injection H as <- <-. split; [apply heap_refl|repeat constructor].
  - injection H as <- <-. unfold on_fork. destruct (_ =? _); exact Z.
  - injection H as <- <-. exact Z.
  - destruct (ne_lost_samples e); [eapply deliver_lost_refs; eauto|injection H as <- <-; exact Z].
  - destruct (ne_lost_samples e); [injection H as <- <-; exact Z|eapply deliver_lost_refs; eauto].
  - eapply on_sample_refs; eauto.
  - injection H as <- <-. exact Z.
  - destruct trace; [|injection H as <- <-; exact Z].
    destruct (ne_spe e); [|injection H as <- <-; exact Z]. ok_inv H. eapply spe_records_refs; eauto.
  - destruct (_ && _); [eapply on_mmap_refs; eauto|injection H as <- <-; exact Z].
  - injection H as <- <-. exact Z.
Qed.

Lemma run_refs e : forall evs s s' cs, run_events e s evs = Ok (s', cs) -> refs_step s s' cs.
Proof.
  induction evs as [|ev evs IH]; intros s s' cs; cbn [run_events]; intros H.
  - injection H as <- <-. split; [apply heap_refl|constructor].
  - ok_inv H. destruct a as (s1, c1). ok_inv H0. destruct a as (s2, c2). injection H as <- <-.
    apply on_event_refs in E as (L1 & F1). destruct (IH _ _ _ E0) as (L2 & F2). split.
    + eapply heap_trans; eauto.
    + rewrite flat_map_app. apply Forall_app. split; auto.
      eapply Forall_impl; [|exact F1]. intros x. now apply ref_le.
Qed.

(** Two callbacks that carry the same pointer speak about the same mapping. *)
Theorem process_pointers p cs c1 c2 q m1 m2 :
  process p = Ok cs -> In c1 cs -> In c2 cs ->
  In (q, m1) (refs_of c1) -> In (q, m2) (refs_of c2) -> same_object m1 m2.
Proof.
  unfold process. intros H H1 H2 R1 R2. ok_inv H. ok_inv H0. destruct a0 as (s', cs').
  injection H as <-. apply run_refs in E0 as (_ & F). rewrite Forall_forall in F.
  destruct (F (q, m1)) as (m1' & E1 & L1); [apply in_flat_map; eauto|].
  destruct (F (q, m2)) as (m2' & E2 & L2); [apply in_flat_map; eauto|].
  cbn in *. rewrite E1 in E2. injection E2 as <-. eapply later_same; eauto.
Qed.

(** * Lost samples *)

Definition lost_key : list N * list N * N := (lost_name, [], lost_md5).

(** The memoized lost mapping is the right one. *)
Definition lost_inv (s : nstate) : Prop :=
  (forall p, aget fake_key_eqb lost_key (ns_fake s) = Some p ->
    exists m, nth_error (ns_heap s) p = Some m /\ hm_file m = lost_name /\ hm_start m = lost_ip /\
      hm_limit m = lost_ip + 1 /\ hm_build m = ([], SrcMissing) /\ hm_off m = 0) /\
  (forall pid c, aget N.eqb pid (ns_comm s) = Some c -> ~ (cm_comm c = lost_name /\ cm_md5 c = lost_md5)).

Lemma lost_inv_step s s' :
  lost_inv s -> heap_le (ns_heap s) (ns_heap s') -> ns_fake s' = ns_fake s ->
  (forall pid c, aget N.eqb pid (ns_comm s') = Some c -> ~ (cm_comm c = lost_name /\ cm_md5 c = lost_md5)) ->
  lost_inv s'.
Proof.
  intros (H1 & H2) L Ef Ec. split; auto. rewrite Ef. intros p Hp.
  destruct (H1 p Hp) as (m & E & F1 & F2 & F3 & F4 & F5). destruct (L p m E) as (m' & E' & L1 & L2 & L3 & L4 & L5 & L6).
  exists m'. split; auto. rewrite <- L1, <- L2, <- L3, <- L5.
  destruct L6 as [<-|(L6 & _)]; auto. rewrite F1 in L6. easy.
Qed.

Lemma fake_key_eq a b : fake_key_eqb a b = true -> a = b.
Proof.
  destruct a as ((a1, a2), a3), b as ((b1, b2), b3). cbn. intros H.
  apply andb_prop in H as (H & H3). apply andb_prop in H as (H1 & H2).
  apply list_eqb_eq in H1, H2. apply N.eqb_eq in H3. now subst.
Qed.

(** Adding another fake mapping. *)
Lemma fake_other_lost s comm b md5 start s' p :
  lost_inv s -> fake_mapping s comm b md5 start = (s', p) -> (comm, fst b, md5) <> lost_key ->
  lost_inv s'.
Proof.
  unfold fake_mapping. intros I H Hn. destruct (aget fake_key_eqb (comm, fst b, md5) (ns_fake s));
    injection H as <- <-; auto.
  destruct I as (H1 & H2). split; auto. cbn [ns_fake set_fake ns_heap set_heap]. intros p.
  rewrite aget_aset. destruct (fake_key_eqb lost_key (comm, fst b, md5)) eqn:E.
  - apply fake_key_eq in E. congruence.
  - intros Hp. destruct (H1 p Hp) as (m & Em & F). exists m. split; auto.
    rewrite nth_error_app1; auto. apply nth_error_Some. congruence.
Qed.

Lemma fake_lost s s' p :
  lost_inv s -> fake_mapping s lost_name ([], SrcMissing) lost_md5 lost_ip = (s', p) ->
  lost_inv s' /\
  exists m, nth_error (ns_heap s') p = Some m /\ hm_file m = lost_name /\ hm_start m = lost_ip /\
      hm_limit m = lost_ip + 1 /\ hm_build m = ([], SrcMissing) /\ hm_off m = 0.
Proof.
  unfold fake_mapping. intros (H1 & H2) H. cbn [fst] in H.
  change (lost_name, [], lost_md5) with lost_key in H.
  destruct (aget fake_key_eqb lost_key (ns_fake s)) as [q|] eqn:E; injection H as <- <-.
  - split; [split; auto; rewrite E; auto|]. now apply H1.
  - assert (N : nth_error (ns_heap s ++ [{| hm_file := lost_name; hm_build := ([], SrcMissing);
        hm_start := lost_ip; hm_limit := w64 (lost_ip + 1); hm_off := 0; hm_md5 := lost_md5 |}])
        (List.length (ns_heap s)) = Some {| hm_file := lost_name; hm_build := ([], SrcMissing);
        hm_start := lost_ip; hm_limit := w64 (lost_ip + 1); hm_off := 0; hm_md5 := lost_md5 |}).
    { rewrite nth_error_app2, Nat.sub_diag; auto. }
    split.
    + split; auto. cbn [ns_fake set_fake ns_heap set_heap]. intros p. rewrite aget_aset.
      destruct (fake_key_eqb lost_key lost_key).
      * intros [= <-]. eexists. split; [exact N|]. repeat split.
      * congruence.
    + cbn [ns_heap set_fake set_heap]. eexists. split; [exact N|]. repeat split.
Qed.

Lemma on_sample_lost_inv e s misc sm spe s' cs :
  lost_inv s -> on_sample e s misc sm spe = Ok (s', cs) -> lost_inv s'.
Proof.
  unfold on_sample. set (index := match spe with Some _ => 0%Z | None => event_index e sm end).
  destruct (index =? -1)%Z; intros I H.
  { injection H as <- <-. exact I. }
  ok_inv H. ok_inv H0. ok_inv H. destruct a1 as (s1, o).
  ok_inv H0. ok_inv H. ok_inv H0. ok_inv H. injection H0 as <- <-.
  cut (lost_inv s1); [auto|]. clear - I E1. unfold main_mapping in E1.
  destruct (aget N.eqb _ (ns_exec s)); [injection E1 as <- <-; auto|].
  destruct (actx_eqb _ _); [|injection E1 as <- <-; auto].
  destruct (aget N.eqb (dflt (s_pid sm)) (ns_comm s)) as [cm|] eqn:Ec.
  - ok_inv E1. destruct (fake_mapping s _ _ _ _) eqn:F. injection H as <- <-.
    eapply fake_other_lost; eauto. intros K. injection K as K1 _ K2.
    apply (proj2 I _ _ Ec). auto.
  - destruct (_ =? 0); injection E1 as <- <-; auto.
Qed.

Lemma spe_records_lost_inv e : forall rs s s' cs,
  lost_inv s -> on_spe_records e s rs = Ok (s', cs) -> lost_inv s'.
Proof.
  induction rs as [|r rs IH]; intros s s' cs I; cbn [on_spe_records]; intros H.
  - injection H as <- <-. auto.
  - ok_inv H. destruct a as (s1, c1). ok_inv H0. destruct a as (s2, c2). injection H as <- <-.
    unfold on_spe_record in E. destruct (if _ =? 0 then _ else _) as (pid, miss) in E.
    apply on_sample_lost_inv in E; eauto.
Qed.

Lemma guess_main_keeps s m start p s' : guess_main s m start p = Ok s' ->
  ns_fake s' = ns_fake s /\ ns_comm s' = ns_comm s.
Proof.
  unfold guess_main. destruct (_ || _); intros H; [injection H as <-; auto|].
  ok_inv H. ok_inv H0.
  assert (L : ns_fake a = ns_fake s /\ ns_comm a = ns_comm s).
  { destruct (aget N.eqb (mm_pid m) (ns_exec s)) as [o|]; [|injection E as <-; auto].
    ok_inv E. destruct (_ && _ && _) eqn:C; injection H0 as <-; auto. }
  destruct (negb a0); [injection H as <-; exact L|].
  destruct (_ && _); injection H as <-; exact L.
Qed.

Lemma on_mmap_keeps e s m s' cs : on_mmap e s m = Ok (s', cs) ->
  ns_fake s' = ns_fake s /\ ns_comm s' = ns_comm s.
Proof.
  unfold on_mmap. destruct (mm_len m =? 0); intros H; [injection H as <- <-; auto|].
  ok_inv H. ok_inv H0. ok_inv H. injection H0 as <- <-. apply guess_main_keeps in E1. exact E1.
Qed.

(** The lost samples a lost record makes. *)
Definition lost_sample (index : Z) (l : lost_ev) (c : sctx) : Prop :=
  cx_lost c = true /\ cx_attr c = index /\ s_ip (cx_sample c) = 9 * 2 ^ 60 /\
  s_pid (cx_sample c) = Some (lo_pid l) /\ s_tid (cx_sample c) = Some (lo_tid l) /\
  s_id (cx_sample c) = Some (lo_id l) /\ s_period (cx_sample c) = 0 /\
  s_callchain (cx_sample c) = [] /\ cx_chain c = [] /\ cx_branch c = [] /\
  cx_main c = None /\ cx_addr c = None /\ s_addr (cx_sample c) = None /\
  cx_spe c = None /\ s_time (cx_sample c) = None /\
  exists q m, cx_map c = Some (q, m) /\ hm_file m = lost_name /\
    hm_start m = 9 * 2 ^ 60 /\ hm_limit m = 9 * 2 ^ 60 + 1 /\ hm_build m = ([], SrcMissing) /\ hm_off m = 0.

Lemma event_index_id e s1 s2 : s_id s1 = s_id s2 -> event_index e s1 = event_index e s2.
Proof. unfold event_index. now intros ->. Qed.

Lemma deliver_lost_inv e s l s' cs :
  lost_inv s -> deliver_lost e s l = Ok (s', cs) ->
  lost_inv s' /\
  nt_samples (ns_stat s') = (nt_samples (ns_stat s) + Z.of_N (lo_lost l))%Z /\
  forall sm, s_id sm = Some (lo_id l) ->
  if (event_index e sm =? -1)%Z then cs = []
  else exists c, cs = repeat (HSample c) (N.to_nat (lo_lost l)) /\ lost_sample (event_index e sm) l c.
Proof.
  intros I. unfold deliver_lost.
  match goal with |- context [event_index e ?x] => set (sm0 := x) end.
  assert (I1 : lost_inv (add_stat (Z.of_N (lo_lost l)) (Z.of_N (lo_lost l)) 0 0 s)) by exact I.
  destruct (event_index e sm0 =? -1)%Z eqn:Ei; intros H.
  { injection H as <- <-. split; [exact I|]. split; [cbn; lia|]. intros sm Hs.
    rewrite (event_index_id e sm sm0), Ei; auto. }
  destruct (fake_mapping _ _ _ _ _) as (s1, p) eqn:F. ok_inv H. injection H0 as <- <-.
  destruct (fake_lost _ _ _ I1 F) as (I2 & m & Em & Fm). split; auto. split.
  { unfold fake_mapping in F. destruct (aget fake_key_eqb _ _); injection F as <- <-; cbn; lia. }
  intros sm Hs. rewrite (event_index_id e sm sm0), Ei; auto.
  unfold deref in E. rewrite Em in E. injection E as <-. eexists. split; [reflexivity|].
  unfold lost_sample. cbn [cx_lost cx_attr cx_sample cx_chain cx_branch cx_main cx_addr cx_spe cx_map
    s_ip s_pid s_tid s_id s_period s_callchain s_addr s_time].
  do 15 (split; [reflexivity|]). exists p, m. split; auto.
Qed.

Lemma on_event_lost_inv e s ev s' cs :
  lost_inv s -> not_named_lost ev -> on_event e s ev = Ok (s', cs) -> lost_inv s'.
Proof.
  intros I Hn H. pose proof (on_event_refs _ _ _ _ _ H) as (L & _).
  unfold on_event in H. destruct (ev_what ev) eqn:Ew.
  - ok_inv H. destruct a as (s1, c1). injection H0 as <- <-. apply on_mmap_keeps in E as (E1 & E2).
    apply (lost_inv_step s); auto. cbn. rewrite E2. apply I.
  - injection H as H. unfold on_comm in H. destruct (cm_pid c =? cm_tid c).
    + injection H as <- <-. apply (lost_inv_step s); auto.
      * now destruct (_ || _ || _).
      * cbn [ns_comm set_comm]. intros pid c0. rewrite aget_aset.
        destruct (pid =? cm_pid c); [intros [= <-]; now apply Hn|].
        destruct (_ || _ || _); apply I.
    + injection H as <- <-. auto.
  - injection H as <- <-. unfold on_fork. destruct (_ =? _); auto. apply (lost_inv_step s); auto.
    { apply heap_refl. }
    cbn [ns_comm set_exec set_comm]. intros pid c. rewrite aget_inherit.
    destruct (aget N.eqb (fk_ppid f) (ns_comm s)) eqn:E; [|apply I].
    destruct (pid =? fk_pid f); [intros [= <-]; eapply I; eauto|apply I].
  - injection H as <- <-. exact I.
  - destruct (ne_lost_samples e); [eapply deliver_lost_inv; eauto|injection H as <- <-; auto].
  - destruct (ne_lost_samples e); [injection H as <- <-; auto|eapply deliver_lost_inv; eauto].
  - eapply on_sample_lost_inv; eauto.
  - injection H as <- <-. auto.
  - destruct trace; [|injection H as <- <-; auto].
    destruct (ne_spe e); [|injection H as <- <-; auto]. ok_inv H. eapply spe_records_lost_inv; eauto.
  - destruct (_ && _); [|injection H as <- <-; auto]. apply on_mmap_keeps in H as (E1 & E2).
    apply (lost_inv_step s); auto. rewrite E2. apply I.
  - injection H as <- <-. auto.
Qed.

Lemma lost_inv0 : lost_inv nstate0.
Proof. split; cbn; easy. Qed.

Lemma run_lost_inv e : forall evs s s' cs,
  lost_inv s -> Forall not_named_lost evs -> run_events e s evs = Ok (s', cs) -> lost_inv s'.
Proof.
  induction evs as [|ev evs IH]; intros s s' cs I F; cbn [run_events]; intros H.
  - injection H as <- <-. auto.
  - inversion F; subst. ok_inv H. destruct a as (s1, c1). ok_inv H0. destruct a as (s2, c2).
    injection H as <- <-. eapply IH; [|eauto|eauto]. eapply on_event_lost_inv; eauto.
Qed.

(** With no process called "[lost]" all samples, lost ones included, have their
    addresses inside their mappings. *)
Lemma on_event_addresses e h s ev s' cs :
  Inv e h s -> lost_inv s -> on_event e s ev = Ok (s', cs) -> Forall addresses_ok cs.
Proof.
  intros I Il H. pose proof (on_event_inv e h s ev s' cs I H) as (_ & F).
  assert (L : forall l, deliver_lost e s l = Ok (s', cs) -> Forall addresses_ok cs).
  { intros l Hl. destruct (deliver_lost_inv e s l s' cs Il Hl) as (_ & _ & Hc).
    specialize (Hc {| s_ip := 0; s_pid := None; s_tid := None; s_time := None; s_addr := None;
      s_id := Some (lo_id l); s_period := 0; s_cpu := None; s_callchain := []; s_branch := [];
      s_weight := None; s_wstruct := None; s_data_src := None; s_cgroup := None;
      s_data_page := None; s_code_page := None |} eq_refl).
    destruct (_ =? -1)%Z; [subst; auto|]. destruct Hc as (c & -> & Hc).
    apply Forall_forall. intros x Hx. apply repeat_spec in Hx. subst x.
    destruct Hc as (_ & _ & E1 & _ & _ & _ & _ & _ & E2 & E3 & _ & E4 & E5 & _ & _ & q & m & E6 & _ & E7 & E8 & _).
    cbn. rewrite E1, E2, E3, E4, E5, E6. cbn. unfold contains. rewrite E7, E8. split; [lia|].
    split; auto. split; intros; contradiction. }
  unfold on_event in H. destruct (ev_what ev) eqn:Ew.
  - ok_inv H. destruct a as (s1, c1). injection H0 as <- <-.
    destruct (on_mmap_spec e h s m I s1 c1 E) as [(_ & _ & ->)|(_ & _ & p & hm & -> & _)]; auto.
    constructor; easy.
  - injection H as H. unfold on_comm in H.
    destruct (cm_pid c =? cm_tid c); injection H as <- <-; constructor; easy.
  - injection H as <- <-. auto.
  - injection H as <- <-. auto.
  - destruct (ne_lost_samples e); [eauto|injection H as <- <-; auto].
  - destruct (ne_lost_samples e); [injection H as <- <-; auto|eauto].
  - destruct (on_sample_spec e h s (ev_misc ev) s0 None I) as (s1 & c1 & E & I1 & _ & Hc).
    rewrite E in H. injection H as <- <-. cbn in Hc. destruct (event_index e s0 =? -1)%Z.
    + destruct Hc as (-> & _). auto.
    + destruct Hc as (c & -> & D). constructor; auto. apply D.
  - injection H as <- <-. auto.
  - destruct trace; [|injection H as <- <-; auto].
    destruct (ne_spe e); [|injection H as <- <-; auto]. ok_inv H.
    destruct (spe_records_spec e h a s I) as (s1 & c1 & E1 & _ & _ & G).
    rewrite E1 in H0. injection H0 as <- <-. auto.
  - destruct (_ && _); [|injection H as <- <-; auto].
    destruct (on_mmap_spec e h s _ I s' cs H) as [(_ & _ & ->)|(_ & _ & p & hm & -> & _)]; auto.
    constructor; easy.
  - injection H as <- <-. auto.
Qed.

Lemma run_addresses e : forall evs h s s' cs,
  Inv e h s -> lost_inv s -> Forall not_named_lost evs -> run_events e s evs = Ok (s', cs) ->
  Forall addresses_ok cs.
Proof.
  induction evs as [|ev evs IH]; intros h s s' cs I Il F; cbn [run_events]; intros H.
  - injection H as <- <-. auto.
  - inversion F; subst. ok_inv H. destruct a as (s1, c1). ok_inv H0. destruct a as (s2, c2).
    injection H as <- <-. apply Forall_app. split.
    + eapply on_event_addresses; eauto.
    + eapply (IH (ev :: h)); [|eapply on_event_lost_inv; eauto|auto|eauto].
      eapply on_event_inv; eauto.
Qed.

(** * Event index *)

Lemma fold_ids (i id : N) : forall ids (m : list (N * N)),
  aget N.eqb id (fold_left (fun m id0 => aset id0 i m) ids m)
  = if existsb (N.eqb id) ids then Some i else aget N.eqb id m.
Proof.
  induction ids as [|x ids IH]; intros m; cbn [fold_left existsb]; auto.
  rewrite IH, aget_aset. destruct (existsb (N.eqb id) ids); [now rewrite orb_true_r|].
  rewrite orb_false_r. reflexivity.
Qed.

Lemma in_ids id ids : existsb (N.eqb id) ids = true <-> In id ids.
Proof.
  rewrite existsb_exists. split.
  - intros (x & H & E). apply N.eqb_eq in E. now subst.
  - intros H. exists id. now rewrite N.eqb_refl.
Qed.

Lemma index_ids_spec id : forall attrs i m,
  (aget N.eqb id (index_ids i attrs m) = aget N.eqb id m /\ forall a, In a attrs -> ~ In id (fa_ids a)) \/
  exists j a, aget N.eqb id (index_ids i attrs m) = Some (i + N.of_nat j) /\
    nth_error attrs j = Some a /\ In id (fa_ids a) /\
    forall k b, (j < k)%nat -> nth_error attrs k = Some b -> ~ In id (fa_ids b).
Proof.
  induction attrs as [|a attrs IH]; intros i m; cbn [index_ids]; [left; auto|].
  destruct (IH (i + 1) (fold_left (fun m id0 => aset id0 i m) (fa_ids a) m)) as [(E & H)|(j & b & E & Hj & Hi & Hl)].
  - rewrite E, fold_ids. destruct (existsb (N.eqb id) (fa_ids a)) eqn:Ex.
    + right. exists O, a. rewrite N.add_0_r. split; auto. split; auto. split; [now apply in_ids|].
      intros [|k] b Hk; [lia|]. cbn. intros Hb. apply H. eapply nth_error_In; eauto.
    + left. split; auto. intros b [<-|Hb]; auto. intros Hi. apply in_ids in Hi. congruence.
  - right. exists (S j), b. split; [rewrite E; f_equal; lia|]. split; auto. split; auto.
    intros [|k] c Hk; [lia|]. cbn. apply Hl. lia.
Qed.

Theorem event_index_spec p e sm id :
  normalizer_env p = Ok e -> List.length (pp_attrs p) <> 1%nat -> s_id sm = Some id ->
  (event_index e sm = (-1)%Z /\ forall a, In a (pp_attrs p) -> ~ In id (fa_ids a)) \/
  exists i a, event_index e sm = Z.of_nat i /\ nth_error (pp_attrs p) i = Some a /\ In id (fa_ids a) /\
    forall j b, (i < j)%nat -> nth_error (pp_attrs p) j = Some b -> ~ In id (fa_ids b).
Proof.
  unfold normalizer_env. destruct (fold_left add_build_id _ _). intros H Hn Hs. ok_inv H.
  injection H0 as <-. unfold event_index. cbn [ne_attrs ne_ids]. rewrite Hs.
  destruct (N.eqb_spec (len (pp_attrs p)) 1) as [E1|E1]; [unfold len in E1; lia|].
  destruct (index_ids_spec id (pp_attrs p) 0 []) as [(-> & H)|(j & b & -> & Hj)]; cbn [aget].
  - left. auto.
  - right. exists j, b. split; [rewrite N.add_0_l; lia|]. auto.
Qed.

Theorem event_index_single p e sm :
  normalizer_env p = Ok e -> List.length (pp_attrs p) = 1%nat -> event_index e sm = 0%Z.
Proof.
  unfold normalizer_env. destruct (fold_left add_build_id _ _). intros H Hn. ok_inv H.
  injection H0 as <-. unfold event_index. cbn [ne_attrs ne_ids]. unfold len. rewrite Hn. reflexivity.
Qed.

Theorem event_index_no_id p e sm :
  normalizer_env p = Ok e -> List.length (pp_attrs p) <> 1%nat -> s_id sm = None -> event_index e sm = (-1)%Z.
Proof.
  unfold normalizer_env. destruct (fold_left add_build_id _ _). intros H Hn Hs. ok_inv H.
  injection H0 as <-. unfold event_index. cbn [ne_attrs ne_ids]. rewrite Hs.
  destruct (N.eqb_spec (len (pp_attrs p)) 1) as [E1|E1]; auto. unfold len in E1; lia.
Qed.

(** * Build ids *)

Lemma zeros_repeat l : forallb (fun c => c =? 48) l = true <-> exists n, l = repeat 48 n.
Proof.
  split.
  - intros H. exists (List.length l). induction l as [|c l IH]; cbn in *; auto.
    apply andb_prop in H as (H1 & H2). apply N.eqb_eq in H1. subst. f_equal. auto.
  - intros (n & ->). induction n; cbn; auto.
Qed.

Theorem same_build_id_spec a b : ~ In 0 a -> ~ In 0 b ->
  exists r, is_same_build_id a b = Ok r /\ (r = true <-> zero_extends a b \/ zero_extends b a).
Proof.
  intros Ha Hb. unfold is_same_build_id. rewrite is_same_half_text by auto. cbn [obind].
  rewrite is_same_half_text by auto.
  assert (G : forall x y, (if starts_with y x then forallb (fun c => c =? 48) (skipn (List.length y) x)
              else false) = true <-> zero_extends x y).
  { intros x y. unfold zero_extends. split.
    - destruct (starts_with y x) eqn:E; [|easy]. apply starts_with_iff in E as (t & ->).
      rewrite skipn_app, skipn_all, Nat.sub_diag. cbn. intros H. apply zeros_repeat in H as (n & ->). eauto.
    - intros (n & ->). rewrite starts_with_app, skipn_app, skipn_all, Nat.sub_diag. cbn.
      apply zeros_repeat. eauto. }
  pose proof (G a b) as G1. pose proof (G b a) as G2.
  destruct (if starts_with b a then _ else _).
  - exists true. split; auto. split; auto. intros _. left. now apply G1.
  - eexists. split; [reflexivity|]. rewrite G2. split; auto. intros [H|H]; auto.
    apply G1 in H. easy.
Qed.

(** * IsDeletedSharedObject *)

Definition sep (c : N) : Prop := c = 46 \/ c = 95 \/ c = 32.

Definition deleted_name (path : list N) : Prop :=
  exists u c v, path = u ++ str ".so" ++ c :: v /\ u <> [] /\ sep c /\ occurs (str "(deleted)") (c :: v).

Lemma sep_b c : (c =? 46) || (c =? 95) || (c =? 32) = true <-> sep c.
Proof. unfold sep. lia. Qed.

Lemma find_from_occurs needle hay pos : (pos <= List.length hay)%nat ->
  (match find_from needle hay pos with Some _ => true | None => false end) = true
  <-> occurs needle (skipn pos hay).
Proof.
  intros Hp. unfold find_from. destruct (Nat.ltb_spec (List.length hay) pos); [lia|].
  destruct (find_sub needle (skipn pos hay)) eqn:E; cbn.
  - split; auto. intros _. apply find_sub_some in E as (u & v & -> & _). now exists u, v.
  - split; [easy|]. intros (u & v & H1). exfalso. eapply find_sub_none; eauto.
Qed.

(** The first occurrence at or after a position. *)
Lemma find_sub_least needle : forall hay d, find_sub needle hay = Some d ->
  forall u v, hay = u ++ needle ++ v -> (d <= List.length u)%nat.
Proof.
  induction hay as [|c hay IH]; intros d; cbn [find_sub].
  - destruct (starts_with needle []); [intros [= <-]; lia|easy].
  - destruct (starts_with needle (c :: hay)) eqn:E; [intros [= <-]; lia|].
    destruct (find_sub needle hay) as [k|] eqn:Ek; [|easy]. cbn. intros [= <-] u v H.
    destruct u as [|x u].
    + cbn in H. rewrite H, starts_with_app in E. easy.
    + injection H as -> H. cbn. specialize (IH k eq_refl u v H). lia.
Qed.

Lemma find_after_least hay needle cursor c u v :
  find_after hay needle cursor = Some c -> hay = u ++ needle ++ v -> (cursor <= List.length u)%nat ->
  (c <= List.length u + List.length needle)%nat.
Proof.
  unfold find_after, find_from. destruct (Nat.ltb_spec (List.length hay) cursor); [easy|].
  destruct (find_sub needle (skipn cursor hay)) as [d|] eqn:E; [|easy]. cbn. intros [= <-] H1 H2.
  assert (Hs : skipn cursor hay = skipn cursor u ++ needle ++ v).
  { rewrite H1, skipn_app. replace (cursor - List.length u)%nat with O by lia. reflexivity. }
  pose proof (find_sub_least needle _ d E _ _ Hs). rewrite skipn_length in H0. lia.
Qed.

Lemma find_after_none hay needle cursor u v :
  find_after hay needle cursor = None -> hay = u ++ needle ++ v -> (cursor <= List.length u)%nat -> False.
Proof.
  unfold find_after, find_from. intros H H1 H2.
  destruct (Nat.ltb_spec (List.length hay) cursor).
  - rewrite H1, app_length in H0. lia.
  - destruct (find_sub needle (skipn cursor hay)) as [d|] eqn:E; [easy|].
    eapply (find_sub_none _ _ E (skipn cursor u) v).
    rewrite H1, skipn_app. replace (cursor - List.length u)%nat with O by lia. reflexivity.
Qed.

Lemma app_eq_split {A} : forall (u1 v1 u2 v2 : list A),
  u1 ++ v1 = u2 ++ v2 -> (List.length u1 <= List.length u2)%nat -> exists w, u2 = u1 ++ w /\ v1 = w ++ v2.
Proof.
  induction u1 as [|x u1 IH]; intros v1 u2 v2 H L.
  - exists u2. auto.
  - destruct u2 as [|y u2]; [cbn in L; lia|]. injection H as -> H. cbn in L.
    destruct (IH v1 u2 v2 H ltac:(lia)) as (w & -> & ->). exists w. auto.
Qed.

Lemma is_deleted_go_spec path : has_suffix path (str ".so") = false ->
  forall fuel cursor b, is_deleted_go fuel path cursor = Ok b ->
  (b = true <-> exists u c v, path = u ++ str ".so" ++ c :: v /\ (cursor <= List.length u)%nat /\ sep c /\
                  occurs (str "(deleted)") (c :: v)).
Proof.
  intros Hs. induction fuel as [|fuel IH]; intros cursor b; cbn [is_deleted_go]; [easy|].
  destruct (find_after path (str ".so") cursor) as [p|] eqn:E.
  2: { intros [= <-]. split; [easy|]. intros (u & c & v & Hp & Hc & _). exfalso.
       eapply find_after_none; eauto. }
  destruct (nth_error path p) as [ch|] eqn:En; [|easy].
  pose proof (find_after_some _ _ _ _ E) as (u0 & v0 & Ep & Epp & Hu0).
  change (List.length (str ".so")) with 3%nat in Epp.
  assert (Hv0 : exists v1, v0 = ch :: v1).
  { rewrite Ep, app_assoc, nth_error_app2 in En.
    - rewrite app_length in En. change (List.length (str ".so")) with 3%nat in En.
      replace (p - (List.length u0 + 3))%nat with O in En by lia.
      destruct v0; [easy|]. injection En as ->. eauto.
    - rewrite app_length. change (List.length (str ".so")) with 3%nat. lia. }
  destruct Hv0 as (v1 & ->).
  assert (Sk : skipn p path = ch :: v1).
  { rewrite Ep, app_assoc, skipn_app, app_length. change (List.length (str ".so")) with 3%nat.
    rewrite skipn_all2 by (rewrite app_length; change (List.length (str ".so")) with 3%nat; lia).
    replace (p - (List.length u0 + 3))%nat with O by lia. reflexivity. }
  assert (Hpl : (p <= List.length path)%nat).
  { assert (p < List.length path)%nat by (apply nth_error_Some; congruence). lia. }
  destruct ((ch =? 46) || (ch =? 95) || (ch =? 32)) eqn:Ec.
  - intros [= <-]. rewrite find_from_occurs, Sk by auto. split.
    + intros H. exists u0, ch, v1. repeat split; auto. now apply sep_b.
    + intros (u & c & v & Hp & Hc & Hsp & Ho).
      pose proof (find_after_least path (str ".so") cursor p u (c :: v) E Hp Hc) as Hl.
      change (List.length (str ".so")) with 3%nat in Hl.
      assert (Heq : (u0 ++ str ".so") ++ ch :: v1 = (u ++ str ".so") ++ c :: v).
      { rewrite <- !app_assoc. rewrite <- Ep, <- Hp. reflexivity. }
      apply app_eq_split in Heq as (w & _ & ->).
      * destruct Ho as (x & y & Ho). exists (w ++ x), y. rewrite Ho, <- app_assoc. reflexivity.
      * rewrite !app_length. change (List.length (str ".so")) with 3%nat. lia.
  - intros H. rewrite (IH p b H). split.
    + intros (u & c & v & Hp & Hc & H2). exists u, c, v. repeat split; try tauto. lia.
    + intros (u & c & v & Hp & Hc & Hsp & Ho). exists u, c, v. repeat split; auto.
      pose proof (find_after_least path (str ".so") cursor p u (c :: v) E Hp Hc) as Hl.
      change (List.length (str ".so")) with 3%nat in Hl.
      (* the occurrence found is followed by another character, so u is a later one;
         two occurrences of ".so" cannot overlap *)
      destruct (Nat.le_gt_cases p (List.length u)) as [|Hgt]; auto. exfalso.
      assert (Heq : u0 ++ (str ".so" ++ ch :: v1) = u ++ (str ".so" ++ c :: v)) by congruence.
      assert (Hle : (List.length u0 <= List.length u)%nat) by lia.
      apply app_eq_split in Heq as (w & -> & Heq); auto.
      rewrite app_length in Hgt.
      destruct w as [|w0 [|w1 [|w2 w]]]; cbn in Heq; cbn in Hgt; try lia.
      * injection Heq as -> _. apply sep_b in Hsp. congruence.
      * easy.
      * easy.
Qed.

Theorem is_deleted_so_spec path : has_suffix path (str ".so") = false ->
  exists b, is_deleted_so path = Ok b /\ (b = true <-> deleted_name path).
Proof.
  intros H. destruct (is_deleted_so_ok path H) as (b & E). exists b. split; auto.
  rewrite (is_deleted_go_spec path H _ 1%nat b E). unfold deleted_name. split.
  - intros (u & c & v & Hp & Hc & H2). exists u, c, v. repeat split; try tauto. now destruct u.
  - intros (u & c & v & Hp & Hc & H2). exists u, c, v. repeat split; try tauto.
    destruct u; [easy|]. cbn. lia.
Qed.

Theorem is_versioned_so_spec path :
  is_versioned_so path = true <-> exists u v, path = u ++ str ".so." ++ v /\ u <> [].
Proof.
  unfold is_versioned_so, find_from. destruct path as [|c path].
  - split; [easy|]. intros (u & v & H & Hu). now destruct u.
  - change (Nat.ltb (List.length (c :: path)) 1) with false. cbn [skipn].
    destruct (find_sub (str ".so.") path) as [d|] eqn:E; cbn [option_map].
    + split; auto. intros _. apply find_sub_some in E as (u & v & -> & _). exists (c :: u), v. split; [reflexivity|discriminate].
    + split; [easy|]. intros (u & v & H & Hu). destruct u as [|x u]; [easy|].
      injection H as -> H. exfalso. exact (find_sub_none _ _ E u v H).
Qed.
