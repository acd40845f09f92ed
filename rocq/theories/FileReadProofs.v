(** Reading records, attributes and metadata. *)
From Verif Require Import Base BytesModel BytesProofs BytesMoreProofs BufferModel BufferSpec BufferProofs TextModel Assoc
  EventSizeModel EventSizeSpec EventSizeProofs SampleModel ReaderOpsModel ReaderOpsProofs FileModel FileSpec
  FileProofs FileEventProofs FileOrderProofs.
Local Open Scope N_scope.

(** What reading a record leaves alone. *)
Definition frame (s s' : fstate) : Prop :=
  fs_mask s' = fs_mask s /\ fs_attrs s' = fs_attrs s /\ fs_readers s' = fs_readers s /\
  fs_types s' = fs_types s /\ fs_meta s' = fs_meta s.
Lemma frame_refl s : frame s s. Proof. repeat split. Qed.
Lemma frame_trans a b c : frame a b -> frame b c -> frame a c.
Proof. intros (?&?&?&?&?) (?&?&?&?&?). repeat split; congruence. Qed.

Definition no_kernel (s : fstate) : bool :=
  match fs_attrs s with a :: _ => attr_exclude_kernel (fa_attr a) | [] => false end.

Lemma mmap2_build_id_ok e s :
  72 <= len e -> strnlen (skipn 72 e) < len (skipn 72 e) ->
  match mmap2_build_id e s with
  | Ok s' => frame s s' /\ fs_events s' = fs_events s
  | Fail => True
  | _ => False
  end.
Proof.
  intros L H. unfold mmap2_build_id, ev_c_str. change (N.to_nat 72) with 72%nat. cbv zeta.
  replace (strnlen (skipn 72 e) <? len (skipn 72 e)) with true by lia. cbn [obind].
  destruct (mem_by _ _ _); [now split|].
  unfold mem_read. replace (40 + 1 <=? len e) with true by lia. cbn [obind].
  destruct (20 <? of_le (slice e 40 1)) eqn:E; [exact I|].
  replace (44 + of_le (slice e 40 1) <=? len e) with true by lia. cbn [obind].
  destruct (serialize_build_id_event _) as [[|] b]; [|exact I].
  destruct s; now repeat split.
Qed.

Lemma fixed_payload_8 ty f : fixed_payload ty = Some f -> 8 <= f.
Proof.
  intros H. apply known_types in H. cbn in H.
  repeat (destruct H as [E|H]; [injection E as <- <-; lia|]). contradiction.
Qed.

Lemma supported_kept ty : supported_event ty = existsb (N.eqb ty) kept_types.
Proof.
  unfold supported_event, kept_types.
  cbn [existsb]. unfold R_MMAP, R_LOST, R_COMM, R_EXIT, R_THROTTLE, R_UNTHROTTLE, R_FORK, R_SAMPLE, R_MMAP2,
    R_AUX, R_ITRACE_START, R_LOST_SAMPLES, R_SWITCH, R_SWITCH_CPU_WIDE, R_NAMESPACES,
    R_CGROUP, R_KSYMBOL, R_FINISHED_ROUND, R_AUXTRACE_INFO, R_AUXTRACE, R_AUXTRACE_ERROR, R_ID_INDEX,
    R_THREAD_MAP, R_STAT_CONFIG, R_STAT, R_STAT_ROUND, R_TIME_CONV, R_BPF_METADATA.
  repeat match goal with |- context [ty =? ?k] => destruct (ty =? k); cbn [orb]; rewrite ?orb_true_r; [reflexivity|] end.
  reflexivity.
Qed.

(** What a successful read of the record at [o] does. *)
Definition record_read (cf : fconfig) (sw : bool) (b : list N) (o : N) (s s' : fstate) (n : N) : Prop :=
  let h := header_at sw b o in
  if becomes_event (cf_skip cf) (no_kernel s) sw b o
  then exists e t, fs_events s' = fs_events s ++ [mkFEvent e t] /\ event_of sw b o e /\
         n = h_size h - 8 + len t /\ len t = trace_length (cf_skip cf) (no_kernel s) sw b o /\
         o + h_size h + len t <= len b /\ t = slice b (o + h_size h) (len t)
  else fs_events s' = fs_events s /\ n = h_size h - 8.

Lemma wp_event cf o s r (Q : fstate * N -> reader -> Prop) (h := header_at (rswap r) (rbuf r) o) :
  good r -> roff r = o + 8 -> 8 <= h_size h -> o + h_size h <= len (rbuf r) ->
  (forall s' n r', good r' -> same r r' -> roff r' = roff r + n -> h_size h - 8 <= n -> frame s s' ->
     record_read cf (rswap r) (rbuf r) o s s' n -> Q (s', n) r') ->
  wp (read_event cf h s) r Q.
Proof.
  intros G Ho H8 Hl HQ. assert (Hb := proj1 G). assert (G2 := proj1 (proj2 G)). unfold two63 in G2.
  set (sw := rswap r) in *. set (b := rbuf r) in *.
  assert (B3 : h_size h < two16) by apply (int_at_bound _ _ _ 2 Hb). unfold two16 in B3.
  assert (BE : forall v, becomes_event (cf_skip cf) (no_kernel s) sw b o = v ->
    existsb (N.eqb (h_type h)) kept_types && negb (cf_skip cf (h_type h)) &&
    negb (((h_type h =? 1) || (h_type h =? 10)) && N.testbit (h_misc h) 12) &&
    negb (((h_type h =? 1) || (h_type h =? 10)) && no_kernel s && N.testbit (h_misc h) 0 && (int_at sw b (o + 24) 8 =? 0)) = v)
    by (intros v <-; reflexivity).
  assert (Skip : becomes_event (cf_skip cf) (no_kernel s) sw b o = false ->
    wp (rlet pos := rask tell in rlet _ := seek_set (w64 (pos + (h_size h - 8))) in rret (s, h_size h - 8)) r Q).
  { intros E. apply wp_bind, wp_ask. apply wp_bind, wp_seek; [exact G|]. intros r' G' S' E'. apply wp_ret.
    unfold tell in E'. rewrite w64_small in E' by (unfold two64; lia).
    apply HQ; auto using frame_refl; [lia|]. unfold record_read. rewrite E. auto. }
  unfold read_event. fold h. cbv zeta. rewrite supported_kept.
  destruct (existsb (N.eqb (h_type h)) kept_types) eqn:Ek; cbn [negb].
  2:{ apply Skip. unfold becomes_event. cbv zeta. fold h. rewrite Ek. reflexivity. }
  apply wp_bind, wp_guard. intros _.
  destruct (fixed_payload (h_type h)) as [f|] eqn:Ef; [|apply wp_fail].
  apply wp_bind, wp_guard. intros Hf.
  destruct (is_timeout_mmap h) eqn:Et.
  { apply Skip. unfold becomes_event. cbv zeta. fold h. unfold is_timeout_mmap, R_MMAP, R_MMAP2 in Et.
    rewrite Et. cbn [negb andb]. now rewrite andb_false_r. }
  apply wp_bind, wp_data; [exact G|unfold two64; lia|]. intros r1 G1 S1 E1 L1 B1.
  apply wp_bind, wp_ask. change (rswap r1) with (rswap r1). rewrite (proj2 S1). fold sw.
  rewrite Ho. fold b.
  destruct (block_is_record sw b o Hb H8 Hl) as (W & T1 & T2 & T3 & TH & TS & T8). fold h in W, T1, T2, T3, TH, TS, T8.
  change (le_bytes 4 (h_type h) ++ le_bytes 2 (h_misc h) ++ le_bytes 2 (h_size h) ++ slice b (o + 8) (h_size h - 8))
    with (new_block h (slice b (o + 8) (h_size h - 8))).
  set (e0 := new_block h (slice b (o + 8) (h_size h - 8))) in *.
  assert (F0 : fixed_payload (ev_type e0) = Some f) by congruence.
  assert (F1 : f <= ev_size e0) by lia.
  assert (X := localise_ok sw f e0 W F0 F1).
  assert (Y := fun e' v o' => localise_member sw f e0 e' v o' W F0 F1).
  apply wp_bind, wp_lift. destruct (localise_event sw f e0) as [[e v]| | | |] eqn:EL; try exact X.
  destruct X as (W' & L' & K1 & K2 & K3 & K4 & K5).
  assert (LW : len e = h_size h) by (destruct W as (_ & _ & W); lia).
  assert (EV : event_of sw b o e).
  { split; [exact LW|]. split.
    - unfold header_at at 1. unfold int_at. change (mkHdr (ev_type e) (ev_misc e) (ev_size e) = h).
      destruct W' as (_ & _ & W'). rewrite K1, K2, W', T1, T2, LW. now destruct h.
    - split; [intros E; rewrite K4 by exact E; symmetry; now apply TS|].
      intros E NK. refine (event_other_sw sw b o f e v E Hb H8 Hl Ef _ NK EL). fold h. lia. }
  apply wp_bind, wp_guard. intros _.
  assert (Map : forall t, (h_type h =? R_MMAP) || (h_type h =? R_MMAP2) = t -> t = true -> 32 <= f).
  { intros t <- HT. apply orb_prop in HT. destruct HT as [HT|HT]; apply N.eqb_eq in HT; rewrite HT in Ef;
      injection Ef as <-; lia. }
  set (mapping := (h_type h =? R_MMAP) || (h_type h =? R_MMAP2)) in *.
  apply wp_bind, wp_lift.
  assert (Z : (if mapping then let! l := ev_u64 e 24 in Ok (l =? 0) else Ok false) =
              Ok (mapping && (int_at sw b (o + 24) 8 =? 0))).
  { destruct mapping eqn:EM; [|reflexivity]. rewrite (Y e v 24); [|reflexivity|].
    - cbn [obind andb]. do 2 f_equal. unfold int_at. cbv zeta. change (N.of_nat 8) with 8.
      rewrite T8; [reflexivity|lia|]. specialize (Map _ eq_refl eq_refl). lia.
    - left. split; [|reflexivity]. rewrite T1. unfold mapping in EM. apply orb_prop in EM.
      destruct EM as [EM|EM]; apply N.eqb_eq in EM; auto. }
  rewrite Z. clear Z.
  assert (KB : negb (N.land (h_misc h) 1 =? 0) = N.testbit (h_misc h) 0).
  { change 1 with (2 ^ 0) at 1. destruct (N.testbit (h_misc h) 0) eqn:E.
    - apply negb_true_iff, N.eqb_neq. intros C. assert (D := f_equal (fun x => N.testbit x 0) C). cbv beta in D.
      rewrite N.land_spec, E, N.pow2_bits_true in D. discriminate.
    - apply negb_false_iff, N.eqb_eq. apply N.bits_inj. intros i. rewrite N.land_spec, N.bits_0.
      destruct (N.eq_dec i 0) as [->|D]; [now rewrite E|]. rewrite N.pow2_bits_false by auto. apply andb_false_r. }
  rewrite KB. fold (no_kernel s).
  destruct (mapping && no_kernel s && N.testbit (h_misc h) 0 && (mapping && (int_at sw b (o + 24) 8 =? 0))) eqn:ED.
  { apply wp_ret, HQ; auto using frame_refl; [lia|]. unfold record_read.
    replace (becomes_event _ _ _ _ _) with false; [auto|]. symmetry. unfold becomes_event. cbv zeta. fold h.
    change ((h_type h =? 1) || (h_type h =? 10)) with mapping.
    replace (mapping && no_kernel s && N.testbit (h_misc h) 0 && (int_at sw b (o + 24) 8 =? 0)) with true.
    - apply andb_false_r.
    - symmetry. destruct mapping; cbn [andb] in *; auto. }
  assert (BE' : becomes_event (cf_skip cf) (no_kernel s) sw b o = negb (cf_skip cf (h_type h))).
  { unfold becomes_event. cbv zeta. fold h. unfold is_timeout_mmap in Et.
    change ((h_type h =? 1) || (h_type h =? 10)) with mapping. fold mapping in Et. rewrite Ek, Et.
    cbn [negb andb]. rewrite andb_true_r.
    replace (mapping && no_kernel s && N.testbit (h_misc h) 0 && (int_at sw b (o + 24) 8 =? 0)) with false.
    - apply andb_true_r.
    - symmetry. destruct mapping; cbn [andb] in *; auto. }
  apply wp_bind, wp_lift.
  assert (M : match (if (h_type h =? R_MMAP2) && N.testbit (h_misc h) 14 then mmap2_build_id e s else Ok s) with
              | Ok s' => frame s s' /\ fs_events s' = fs_events s | Fail => True | _ => False end).
  { destruct ((h_type h =? R_MMAP2) && N.testbit (h_misc h) 14) eqn:E2; [|split; [apply frame_refl|reflexivity]].
    apply andb_prop in E2. destruct E2 as [E2 _]. apply N.eqb_eq in E2.
    apply mmap2_build_id_ok; [rewrite E2 in Ef; injection Ef as <-; lia|]. apply K5. congruence. }
  destruct (if (h_type h =? R_MMAP2) && N.testbit (h_misc h) 14 then mmap2_build_id e s else Ok s) as [s1| | | |];
    try exact M. destruct M as [M1 M2]. clear Skip.
  assert (FC : forall v, frame s (put_called v s1)) by (intros; destruct s1; exact M1).
  assert (FE : forall v, frame s (put_events v s1)) by (intros; destruct s1; exact M1).
  assert (FEC : forall v w, frame s (put_called w (put_events v s1))) by (intros; destruct s1; exact M1).
  assert (EC : forall v, fs_events (put_called v s1) = fs_events s) by (intros; destruct s1; exact M2).
  assert (EE : forall v, fs_events (put_events v s1) = v) by (intros; destruct s1; reflexivity).
  assert (EEC : forall v w, fs_events (put_called w (put_events v s1)) = v) by (intros; destruct s1; reflexivity).
  destruct (cf_skip cf (h_type h)) eqn:ES; cbn [negb] in BE'.
  { assert (HQ' : forall s', frame s s' -> fs_events s' = fs_events s -> Q (s', h_size h - 8) r1).
    { intros s' A1 A2. apply HQ; auto; [lia|]. unfold record_read. rewrite BE'. auto. }
    destruct ((h_type h =? R_SAMPLE) && cf_callback cf); [|apply wp_ret; auto].
    apply wp_bind, wp_guard. intros _. apply wp_ret; auto. }
  apply wp_bind, wp_guard. intros _.
  destruct (h_type h =? R_AUXTRACE) eqn:EA.
  { unfold read_trace. apply wp_bind.
    apply wp_bind, wp_lift. apply N.eqb_eq in EA.
    rewrite (Y e v 8); [|reflexivity|right; split; [congruence|reflexivity]].
    assert (U : int_at sw e0 8 8 = int_at sw b (o + 8) 8).
    { unfold int_at. cbv zeta. change (N.of_nat 8) with 8. rewrite T8; [reflexivity|lia|].
      rewrite EA in Ef. injection Ef as <-. lia. }
    rewrite U. apply wp_bind, wp_ask. apply wp_bind, wp_guard. intros Hr.
    rewrite remaining_good in Hr by exact G1.
    assert (BU := int_at_bound sw b (o + 8) 8 Hb).
    apply wp_data; [exact G1|exact BU|]. intros r2 G2' S2 E2 L2 B2. apply wp_ret.
    rewrite (proj1 S1), E1 in *. fold b in L2, B2, Hr |- *.
    replace (roff r + (h_size h - 8)) with (o + h_size h) in * by lia.
    apply HQ; auto.
    - eapply same_trans; eauto.
    - rewrite L2, E2, w64_small by (unfold two64; lia). lia.
    - rewrite L2, w64_small by (unfold two64; lia). lia.
    - unfold record_read. rewrite BE'.
      exists e, (slice b (o + h_size h) (int_at sw b (o + 8) 8)).
      rewrite EE, M2. split; [reflexivity|]. split; [exact EV|]. rewrite L2. split; [|split; [|split]].
      + rewrite w64_small by (unfold two64; lia). reflexivity.
      + unfold trace_length. rewrite BE'. fold h. rewrite EA. reflexivity.
      + fold h. lia.
      + reflexivity. }
  assert (HQ' : forall s', frame s s' -> fs_events s' = fs_events s ++ [mkFEvent e []] -> Q (s', h_size h - 8) r1).
  { intros s' A1 A2. apply HQ; auto; [lia|]. unfold record_read. rewrite BE'.
    exists e, []. split; [exact A2|]. split; [exact EV|]. change (len (@nil N)) with 0. split; [now rewrite N.add_0_r|].
    split; [|split; [fold h; lia|reflexivity]].
    unfold trace_length. rewrite BE'. fold h. change (h_type h =? 71) with (h_type h =? R_AUXTRACE). now rewrite EA. }
  destruct ((h_type h =? R_SAMPLE) && cf_callback cf); apply wp_ret; apply HQ'; auto; rewrite ?EEC, ?EE, M2; reflexivity.
Qed.
