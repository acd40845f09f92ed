(** C65: every sample is shown, with its addresses and labels. *)
From Coq Require Import String.
From Verif Require Import Base BytesModel TextModel Assoc ProfileModel PerfProto NormalizerModel NormalizerSpec NormalizerProofs
  NormalizerStepProofs NormalizerMainProofs NormalizerBuildProofs ConverterModel ConverterSpec ConverterFinalProofs ConverterProps.
From Verif Require Import PipelineSpec PipelineCallProofs PipelineProofs SuccessProofs RecordSpec RecordNameProofs.
Local Open Scope N_scope.
Local Open Scope list_scope.

(** ** Stack *)

Definition start_in (o : option mref) : option N := option_map (fun r => hm_start (snd r)) o.
Lemma agrees_start e o r : agrees e o r -> start_in o = option_map start_of r.
Proof. destruct o as [(q, m)|], r as [v|]; cbn; try easy. intros (-> & _). reflexivity. Qed.
Lemma mapped_start a o : mapped_or_zero a o = or_zero a (start_in o).
Proof. now destruct o. Qed.

Definition entry_ok (x : N * option mref) (y : N * option N) : Prop :=
  fst x = fst y /\ (is_marker (fst x) = false -> start_in (snd x) = snd y).

Lemma marker_is ip : marker ip = true -> is_marker ip = true.
Proof.
  unfold marker, is_marker. cbn [existsb]. rewrite !orb_true_iff, !N.eqb_eq. intros H. apply N.leb_le.
  change (2 ^ 64) with 18446744073709551616 in *. lia.
Qed.
Lemma Forall2_nth {A B} (R : A -> B -> Prop) : forall l k, List.length l = List.length k ->
  (forall i x y, nth_error l i = Some x -> nth_error k i = Some y -> R x y) -> Forall2 R l k.
Proof.
  induction l as [|x l IH]; intros [|y k] L H; try discriminate L; constructor.
  - apply (H O); reflexivity.
  - apply IH; [now injection L|]. intros i a b Ha Hb. now apply (H (S i)).
Qed.
Lemma nth_error_seq n : forall a i x, nth_error (List.seq a n) i = Some x -> x = (a + i)%nat.
Proof.
  induction n as [|n IH]; intros a [|i] x H; try discriminate H; cbn in H.
  - injection H as <-. lia.
  - apply IH in H. lia.
Qed.

Lemma before_until l k : Forall2 entry_ok l k -> Forall2 entry_ok (before_user l) (until_user k).
Proof.
  induction 1 as [|x y l k E F IH]; [constructor|]. cbn [before_user until_user]. destruct E as (E1 & E2). rewrite <- E1.
  destruct (fst x =? 2 ^ 64 - 512); [constructor|]. constructor; [split; auto|exact IH].
Qed.
Definition same_start (x : N * option mref) (y : N * option N) : Prop := fst x = fst y /\ start_in (snd x) = snd y.
Lemma drop_markers l k : Forall2 entry_ok l k ->
  Forall2 same_start (filter (fun f => negb (is_marker (fst f))) l) (filter (fun x => negb (is_marker (fst x))) k).
Proof.
  induction 1 as [|x y l k (E1 & E2) F IH]; [constructor|]. cbn [filter]. rewrite <- E1.
  destruct (is_marker (fst x)); cbn [negb]; [exact IH|]. constructor; [split; auto|exact IH].
Qed.
Lemma filter_above l k : Forall2 same_start l k ->
  map (fun f => fst f - 1) (filter above_start l) =
  map (fun x => fst x - 1) (filter (fun x => match snd x with Some s => s <? fst x | None => false end) k).
Proof.
  induction 1 as [|x y l k (E1 & E2) F IH]; [reflexivity|]. cbn [filter]. unfold above_start at 1. rewrite <- E1, <- E2.
  destruct x as [a [(q, m)|]]; cbn [fst snd start_in option_map] in *; [|exact IH].
  destruct (hm_start m <? a); [|exact IH]. cbn [map fst]. now rewrite IH, E1.
Qed.
Lemma tl_same {A B} (R : A -> B -> Prop) l k : Forall2 R l k -> Forall2 R (tl l) (tl k).
Proof. intros [|]; [constructor|assumption]. Qed.

Section Sample.
Variables (e : nenv) (h : list perf_event) (misc : option N) (sm : sample_ev) (cx : sctx).
Hypothesis D : delivered e h misc sm None cx.
Let f := sample_facts sm.

Lemma chain_entries : Forall2 entry_ok (cx_chain cx) (entries h f).
Proof using D.
  unfold entries. apply Forall2_nth.
  - rewrite map_length, seq_length. apply (dl_chain_len _ _ _ _ _ _ D).
  - intros i x y Hx Hy. rewrite nth_error_map in Hy. destruct (nth_error (List.seq _ _) i) as [j|] eqn:J; [|discriminate Hy].
    apply nth_error_seq in J. cbn in J. subst j. injection Hy as <-. unfold f in *. cbn [sample_facts f_chain] in *.
    destruct (dl_chain _ _ _ _ _ _ D i x Hx) as (A & _ & B).
    assert (A' : nth i (s_callchain sm) 0 = fst x) by (apply nth_error_nth, A). unfold entry_ok. cbn [fst snd]. rewrite A'. split; [reflexivity|].
    intros M. cbn [snd]. destruct (marker (fst x)) eqn:M'; [apply marker_is in M'; congruence|].
    apply agrees_start in B. exact B.
Qed.
Lemma branches_ok : Forall2 (pair_ok e h (dflt (s_pid sm))) (s_branch sm) (cx_branch cx).
Proof using D. destruct (dl_branch _ _ _ _ _ _ D) as (l & F & ->). exact F. Qed.
Lemma branched_ok : from_branches cx = match f_sources f with [] => false | _ => true end.
Proof using D.
  unfold from_branches. rewrite (dl_spe _ _ _ _ _ _ D). unfold f. cbn [sample_facts f_sources].
  destruct branches_ok; reflexivity.
Qed.
Lemma callers_ok : map fst (callchain_frames cx) = callers h f.
Proof using D.
  unfold callchain_frames, callers. rewrite branched_ok, map_map. cbn [fst].
  destruct (f_sources f); apply filter_above, tl_same, drop_markers; [|apply before_until]; apply chain_entries.
Qed.
Lemma sources_ok : map fst (branch_sources cx) = branched h f.
Proof using D.
  unfold branch_sources, branched. rewrite branched_ok. unfold f. cbn [sample_facts f_sources].
  pose proof branches_ok as B. destruct (s_branch sm) as [|b0 bs0] eqn:Eb; [reflexivity|]. cbn [map].
  change (br_from b0 :: map br_from bs0) with (map br_from (b0 :: bs0)). revert B. generalize (b0 :: bs0), (cx_branch cx). clear.
  intros bs xs B. induction B as [|b x bs xs (A1 & _ & _ & _ & _ & _ & _ & _ & A2 & _ & A3 & _) F IH]; [reflexivity|].
  cbn [map filter]. unfold start_at at 1. cbn [sample_facts f_pid]. rewrite <- (agrees_start _ _ _ A2).
  unfold at_or_above_start at 1. cbn [fst snd]. destruct (bp_from_map x) as [(q, m)|] eqn:M; cbn [start_in option_map present].
  - cbn in A3. unfold contains in A3. assert (L : hm_start m <=? bp_from x = true) by (apply N.leb_le; lia). rewrite L.
    cbn [map fst]. rewrite A1. f_equal. exact IH.
  - exact IH.
Qed.
Lemma stack_shown c : map fst (stack_frames c cx) = shown_stack (data_frames c) h misc f.
Proof using D.
  unfold stack_frames, shown_stack, code_frames. rewrite map_app. cbn [map fst]. rewrite map_app, callers_ok, sources_ok.
  rewrite !mapped_start, (agrees_start _ _ _ (dl_map _ _ _ _ _ _ D)), (dl_sample _ _ _ _ _ _ D). f_equal.
  destruct (data_frames c); [|reflexivity]. cbn [map fst]. unfold f. cbn [sample_facts f_addr].
  pose proof (dl_addr _ _ _ _ _ _ D) as A. destruct (s_addr sm) as [a|]; cbn [dflt].
  - rewrite (agrees_start _ _ _ A). reflexivity.
  - rewrite A. reflexivity.
Qed.

(** ** Labels *)
Lemma str_txt on key s : str_label key (text_if on s) = txt on key s.
Proof. unfold txt, text_if. destruct (if on then text s else []); reflexivity. Qed.
Lemma num_num on key n u : num_label (nonzero (num_if on n)) key (num_if on n) u = num (on && nonzero n) key n u.
Proof. destruct on; reflexivity. Qed.
Lemma mode_txt (on : bool) (m : option N) : str_label (str "execution_mode") (if on then mode_text m else []) = txt on (str "execution_mode") (mode_text m).
Proof.
  destruct on; [|reflexivity]. unfold txt. replace (text (mode_text m)) with (mode_text m); [now destruct (mode_text m) |].
  destruct m as [m|]; [|reflexivity]. unfold mode_text. pose proof (N.mod_lt m 8 ltac:(discriminate)) as L.
  assert (Q : m mod 8 = 0 \/ m mod 8 = 1 \/ m mod 8 = 2 \/ m mod 8 = 3 \/ m mod 8 = 4 \/ m mod 8 = 5 \/ m mod 8 = 6 \/ m mod 8 = 7) by lia.
  destruct Q as [->|[->|[->|[->|[->|[->|[->| ->]]]]]]]; reflexivity.
Qed.
Lemma labels_shown c r marked :
  (forall pid tid, thread_name r pid tid = name_at marked h pid tid) ->
  cx_cgroup cx = match s_cgroup sm with None => None | Some id => path_at h id end ->
  expected_labels c r cx = shown_labels (cf_labels c) (cf_types c) (name_at marked h) (path_at h) misc f.
Proof using D.
  intros Nm Cg. unfold expected_labels, shown_labels. unfold view_of, total_latency.
  cbn [vw_tid vw_time vw_mode vw_comm vw_type vw_tcomm vw_cgroup vw_code_page vw_data_page vw_cpu vw_cache vw_src vw_snoop vw_total vw_issue vw_trans].
  rewrite (dl_spe _ _ _ _ _ _ D), (dl_misc _ _ _ _ _ _ D), (dl_sample _ _ _ _ _ _ D), Cg, !Nm, !num_num, !str_txt, mode_txt.
  cbn [nonzero N.eqb negb]. rewrite !andb_false_r. unfold num at 8 9. rewrite !app_nil_r.
  unfold f. cbn [sample_facts f_pid f_tid f_time f_cpu f_cgroup f_code_page f_data_page f_cache_latency f_total_latency f_data_src].
  destruct (s_cgroup sm); reflexivity.
Qed.
End Sample.

(** ** Samples that look the same have the same labels *)
Lemma labels_alike c hi hj cx cy :
  view_of c hi cx = view_of c hj cy -> dflt (s_pid (cx_sample cx)) = dflt (s_pid (cx_sample cy)) ->
  present (s_pid (cx_sample cx)) = present (s_pid (cx_sample cy)) ->
  present (s_tid (cx_sample cx)) = present (s_tid (cx_sample cy)) ->
  present (s_time (cx_sample cx)) = present (s_time (cx_sample cy)) ->
  present (s_cpu (cx_sample cx)) = present (s_cpu (cx_sample cy)) ->
  expected_labels c hi cx = expected_labels c hj cy.
Proof.
  intros V P P1 P2 P3 P4. unfold expected_labels. rewrite V, P, P1, P2, P3, P4.
  assert (Q : forall on (o : bool) key u x y, num_if on x = num_if on y -> num_label (on && o) key x u = num_label (on && o) key y u).
  { intros on o key u x y H. destruct on; [|reflexivity]. cbn in H. now rewrite H. }
  rewrite (Q (label_on c 2) _ (str "tid") [] (dflt (s_tid (cx_sample cx))) (dflt (s_tid (cx_sample cy)))) by exact (f_equal vw_tid V).
  rewrite (Q (label_on c 4) _ (str "timestamp_ns") [] (dflt (s_time (cx_sample cx))) (dflt (s_time (cx_sample cy)))) by exact (f_equal vw_time V).
  rewrite (Q (label_on c 1024) _ (str "cpu") (str "cpu") (dflt (s_cpu (cx_sample cx))) (dflt (s_cpu (cx_sample cy)))) by exact (f_equal vw_cpu V).
  reflexivity.
Qed.

Lemma first_place (os : list (option place)) r : forall i, nth_error os i = Some (Some r) ->
  exists j, (j <= i)%nat /\ nth_error os j = Some (Some r) /\ forall k, (k < j)%nat -> nth_error os k <> Some (Some r).
Proof.
  induction os as [|o os IH]; intros [|i] H; try discriminate H.
  - exists O. split; [lia|]. split; [exact H|]. intros k L. lia.
  - assert (Dec : o = Some r \/ o <> Some r).
    { destruct o as [(a, b)|]; [|right; discriminate]. destruct r as (a', b').
      destruct (Nat.eq_dec a a') as [->|]; [|right; congruence]. destruct (Nat.eq_dec b b') as [->|]; [now left|right; congruence]. }
    destruct Dec as [->|Ne].
    + exists O. split; [lia|]. split; [reflexivity|]. intros k L. lia.
    + destruct (IH i H) as (j & L & Hj & F). exists (S j). split; [lia|]. split; [exact Hj|].
      intros [|k] Lk; cbn [nth_error]; [congruence|]. apply F. lia.
Qed.
Lemma in_placed r : forall hs os i h, nth_error hs i = Some h -> nth_error os i = Some (Some r) -> In h (placed r hs os).
Proof.
  induction hs as [|x hs IH]; intros [|o os] [|i] h H O; try discriminate H; try discriminate O; cbn [nth_error] in *.
  - injection H as ->. injection O as ->. cbn [placed]. rewrite !Nat.eqb_refl. now left.
  - cbn [placed]. specialize (IH os i h H O). destruct o as [y|]; [|exact IH]. destruct (_ && _); [now right|exact IH].
Qed.
Lemma in_filed k : forall hs os i cx, nth_error hs i = Some (HSample cx) -> nth_error os i = Some (Some k) -> In cx (filed k hs os).
Proof.
  induction hs as [|x hs IH]; intros [|o os] [|i] cx H O; try discriminate H; try discriminate O; cbn [nth_error] in *.
  - injection H as ->. injection O as ->. cbn [filed]. rewrite Nat.eqb_refl. now left.
  - specialize (IH os i cx H O). destruct x as [cy|cm ex|q m]; cbn [filed]; [|exact IH|exact IH].
    destruct o as [y|]; [|exact IH]. apply in_or_app. now right.
Qed.

(** The leaf of a stack, behind the data address if there is one. *)
Lemma leaf_same c cx cy : map fst (stack_frames c cx) = map fst (stack_frames c cy) ->
  mapped_or_zero (s_ip (cx_sample cx)) (cx_map cx) = mapped_or_zero (s_ip (cx_sample cy)) (cx_map cy).
Proof.
  unfold stack_frames, code_frames. destruct (data_frames c); cbn [map app fst]; congruence.
Qed.

Lemma sample_shown c hs ps e h misc sm t i :
  process (cf_data c) = Ok hs -> never_reset c hs -> convert c = Ok ps -> normalizer_env (cf_data c) = Ok e ->
  pp_events (cf_data c) = h ++ {| ev_misc := misc; ev_what := EvSample sm |} :: t ->
  event_of (map fa_ids (pp_attrs (cf_data c))) (s_id sm) = Some i ->
  exists p s, In p ps /\
    shows p s i (if grouped c then dflt (s_pid sm) else 0) (dflt (s_time sm))
      (shown_stack (data_frames c) (rev h) misc (sample_facts sm)) /\
    ((has_spe (pp_events (cf_data c)) = true -> thread_only (sample_facts sm)) -> same_fields (pp_events (cf_data c)) (sample_facts sm) -> s_ip sm <> 9 * 2 ^ 60 ->
     Forall2 (reads (pr_data p)) (ps_label s)
       (shown_labels (cf_labels c) (cf_types c) (name_at (existsb fa_comm_exec (pp_attrs (cf_data c))) (rev h)) (path_at (rev h)) misc
          (sample_facts sm))).
Proof.
  intros P NR C He Hp Ei.
  assert (Id : event_index e sm = Z.of_nat i) by (rewrite event_index_id, (index_event _ _ _ He), Ei; reflexivity).
  assert (Bi : (i < events c)%nat) by (unfold events; rewrite <- (map_length fa_ids); now apply event_of_bound in Ei).
  destruct (process_record _ _ _ _ _ _ _ P He Hp ltac:(lia)) as (cs0 & cx & cs2 & Ehs & D & Nm).
  assert (Hn : nth_error hs (List.length cs0) = Some (HSample cx)) by (rewrite Ehs, nth_error_app2, Nat.sub_diag by lia; reflexivity).
  assert (Bf : before (List.length cs0) hs = rev cs0).
  { unfold before. rewrite Ehs, firstn_app, Nat.sub_diag, firstn_all, app_nil_r. reflexivity. }
  set (n := List.length cs0) in *.
  assert (K : kept c cx = true).
  { unfold kept. rewrite (dl_attr _ _ _ _ _ _ D), (dl_lost _ _ _ _ _ _ D), Id. cbn [andb negb].
    apply andb_true_iff. split; [|reflexivity]. apply andb_true_iff. split; [apply Z.leb_le|apply Z.ltb_lt]; lia. }
  destruct (convert_samples c hs ps P NR C) as (os & Co & As & Mg & St & La).
  destruct (pc_kept _ _ _ _ Co n (HSample cx) Hn) as (_ & Pl). destruct Pl as (r & Hr); [eauto|].
  destruct (St n cx r (conj Hn Hr)) as (p & s & Ep & Es & F). exists p, s.
  pose proof (nth_error_In _ _ Ep) as Ip. pose proof (nth_error_In _ _ Es) as Is. split; [exact Ip|]. unfold shows.
  assert (Fd : In cx (filed (fst r) hs (assigned c hs))).
  { apply in_filed with n; [exact Hn|]. rewrite <- As, nth_error_map. exact (f_equal (option_map (option_map fst)) Hr). }
  destruct (C29_pid_and_span c hs ps (fst r) p P C Ep) as (_ & Pid & _ & Sp).
  split; [split; [rewrite <- (Pid cx Fd); unfold filed_under; now rewrite (dl_sample _ _ _ _ _ _ D)|split; [|split; [exact Is|split]]]|].
  { intros T0. assert (It : In (int64_of (dflt (s_time sm))) (times (filed (fst r) hs (assigned c hs)))).
    { unfold times. apply filter_In. split; [|apply negb_true_iff; now apply Z.eqb_neq].
      apply in_map_iff. exists cx. split; [now rewrite (dl_sample _ _ _ _ _ _ D)|exact Fd]. }
    apply Sp; [|exact It]. intros Nil. rewrite Nil in It. exact It. }
  { destruct (pc_values _ _ _ _ Co r s i) as (V & _); [unfold sample_at; now rewrite Ep|exact Bi|]. rewrite V.
    assert (I : In (HSample cx) (filter (sample_of c i) (placed r hs os))).
    { apply filter_In. split; [now apply in_placed with n|]. unfold sample_of. rewrite K, (dl_attr _ _ _ _ _ _ D), Id, Z.eqb_refl. reflexivity. }
    destruct (filter _ _); [contradiction I|]. cbn [List.length]. lia. }
  { rewrite <- (stack_shown _ _ _ _ _ D c). exact F. }
  intros Spe Sf Ni.
  assert (Se : ne_spe e = has_spe (pp_events (cf_data c)) /\ ne_comm_exec e = existsb fa_comm_exec (pp_attrs (cf_data c))).
  { unfold normalizer_env in He. destruct (fold_left add_build_id _ _). ok_inv He. injection H as <-. split; reflexivity. }
  destruct Se as (Se & <-). destruct Nm as (Nm1 & Nm2). rewrite <- (labels_shown _ _ _ _ _ D c (rev cs0) _ Nm1 Nm2), <- Bf.
  destruct (first_place os r n Hr) as (j & Lj & Hj & Fj).
  assert (Lj' : (j < List.length hs)%nat) by (rewrite <- (pc_length _ _ _ _ Co); apply nth_error_Some; congruence).
  destruct (nth_error hs j) as [hj|] eqn:Ej; [|apply nth_error_None in Ej; lia].
  destruct (pc_kept _ _ _ _ Co j hj Ej) as (Pk & _). destruct Pk as (cy & -> & Ky); [eauto|].
  destruct (La j cy r (conj Ej Hj) Fj) as (p' & s' & Ep' & Es' & Fl). rewrite Ep in Ep'. injection Ep' as <-. rewrite Es in Es'. injection Es' as <-.
  destruct (Nat.eq_dec j n) as [->|Nj].
  { rewrite Hn in Ej. injection Ej as <-. exact Fl. }
  assert (Al : alike c hs j n cy cx) by (apply (Mg j n cy cx r r); [lia|split; assumption|split; assumption|reflexivity]).
  destruct Al as (A1 & _ & A2 & A3 & _).
  rewrite <- (labels_alike c (before j hs) (before n hs) cy cx); [exact Fl|exact A2|exact A1|..].
  all: destruct (process_samples _ _ _ cy P He (nth_error_In _ _ Ej)) as [(ev & Iev & Wev)|[(L1 & L2 & _)|(L1 & T1 & T2 & T3 & T4)]];
    [destruct (Sf ev _ Iev Wev) as (B1 & B2 & B3 & B4); rewrite (dl_sample _ _ _ _ _ _ D); assumption|
     exfalso; apply leaf_same in A3; rewrite L1, (dl_sample _ _ _ _ _ _ D) in A3;
     destruct (cx_map cy); [|congruence]; destruct (cx_map cx); cbn [mapped_or_zero] in A3; [congruence|discriminate A3]|
     rewrite Se in L1; destruct (Spe L1) as (U1 & U2 & U3 & U4); rewrite (dl_sample _ _ _ _ _ _ D);
     cbn [sample_facts f_pid f_tid f_time f_cpu] in *; congruence].
Qed.
