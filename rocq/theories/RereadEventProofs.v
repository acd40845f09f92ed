(** Reading the events that were written. *)
From Verif Require Import Base BytesModel BytesProofs BytesMoreProofs BufferModel BufferSpec BufferProofs
  EventSizeModel EventSizeSpec EventSizeProofs Assoc TextModel TextProofs ReaderOpsModel ReaderOpsProofs SampleModel SampleProofs
  FileModel SerializerModel SerializerSpec SerializerProofs SerializerTotalProofs AttrModel
  MapperProofs WriteModel WriteSpec WriteProofs WriteFileProofs WriteFeatureProofs WriteEventProofs WriteLayoutProofs
  RereadProofs RereadSpec RereadMetaProofs RereadBuildProofs RereadAttrProofs.
Local Open Scope N_scope.

(** ** What was written *)
Lemma mem_write_front e off d e' k : mem_write e off d = Ok e' -> k <= off -> firstn (N.to_nat k) e' = firstn (N.to_nat k) e.
Proof.
  intros H Ho. unfold mem_write in H. destruct (N.leb_spec (off + len d) (len e)) as [L|]; [|discriminate]. injection H as <-.
  rewrite firstn_app, firstn_firstn, firstn_length.
  replace (Nat.min (N.to_nat k) (N.to_nat off)) with (N.to_nat k) by lia.
  assert (Q : (N.to_nat k - Nat.min (N.to_nat off) (length e))%nat = O) by (unfold len in *; lia).
  rewrite Q. cbn [firstn]. apply app_nil_r.
Qed.
Lemma mem_write_there e off d e' : mem_write e off d = Ok e' -> slice e' off (len d) = d.
Proof.
  intros H. unfold mem_write in H. destruct (N.leb_spec (off + len d) (len e)) as [L|]; [|discriminate]. injection H as <-.
  apply slice_app; [|reflexivity]. rewrite len_firstn; lia.
Qed.
Lemma slice_front (e : list N) o n k : o + n <= k -> slice (firstn (N.to_nat k) e) o n = slice e o n.
Proof. intros H. unfold slice. rewrite skipn_firstn_comm, firstn_firstn. f_equal. lia. Qed.
Lemma same_front (e e' : list N) o n k : firstn (N.to_nat k) e' = firstn (N.to_nat k) e -> o + n <= k -> slice e' o n = slice e o n.
Proof. intros H L. rewrite <- (slice_front e' o n k), <- (slice_front e o n k) by exact L. now rewrite H. Qed.
Lemma stores_front l k : forall e e', stores e l = Ok e' -> Forall (fun x => k <= fst x) l ->
  firstn (N.to_nat k) e' = firstn (N.to_nat k) e.
Proof.
  induction l as [|(o, d) l IH]; intros e e' H F; cbn [stores] in H.
  - now injection H as <-.
  - inversion F as [|? ? F1 F2]; subst. destruct (mem_write e o d) as [e1| | | |] eqn:M; try discriminate.
    cbn [obind] in H. rewrite (IH e1 e' H F2). eapply mem_write_front; eassumption.
Qed.
Lemma deserialize_bound ord s x e : deserialize ord s x = Ok e -> xe_type x < 85.
Proof.
  unfold deserialize. cbv zeta. destruct (stores _ _) as [e1| | | |]; cbn [obind]; try discriminate.
  destruct (N.leb_spec 64 (xe_type x)) as [L|L]; [|intros _; lia].
  destruct (N.lt_ge_cases (xe_type x) 85) as [B|B]; [intros _; exact B|].
  unfold des_user. cbv zeta.
  repeat match goal with |- (if ?b then _ else _) = Ok e -> _ => let E := fresh in destruct b eqn:E;
    [try (apply N.eqb_eq in E; unfold R_AUXTRACE_INFO, R_AUXTRACE, R_AUXTRACE_ERROR, R_ID_INDEX, R_THREAD_MAP, R_STAT_CONFIG,
       R_STAT, R_STAT_ROUND, R_TIME_CONV, R_BPF_METADATA in E; lia)|] end;
    try discriminate.
  match goal with H : (85 <=? xe_type x) = false |- _ => apply N.leb_gt in H; lia end.
Qed.
Lemma header_type x e :
  stores (repeat 0 (N.to_nat (xe_size x))) [u32_at 0 (xe_type x); u16_at 4 (xe_misc x); u16_at 6 (xe_size x)] = Ok e ->
  8 <= len e /\ slice e 0 4 = le_bytes 4 (xe_type x).
Proof.
  cbn [stores]. unfold u32_at, u16_at.
  destruct (mem_write _ 0 _) as [e1| | | |] eqn:M1; cbn [obind]; try discriminate.
  destruct (mem_write e1 4 _) as [e2| | | |] eqn:M2; cbn [obind]; try discriminate.
  destruct (mem_write e2 6 _) as [e3| | | |] eqn:M3; cbn [obind]; try discriminate.
  intros H. injection H as <-.
  assert (L3 := mem_write_len _ _ _ _ M3). rewrite len_le_bytes in L3.
  split; [lia|]. rewrite (same_front e2 e3 0 4 6 (mem_write_front _ _ _ _ 6 M3 (N.le_refl _))) by lia.
  rewrite (same_front e1 e2 0 4 4 (mem_write_front _ _ _ _ 4 M2 (N.le_refl _))) by lia.
  assert (T := mem_write_there _ _ _ _ M1). rewrite len_le_bytes in T. exact T.
Qed.
Lemma deserialize_type ord s x e : short_sample x -> x_size s x = Ok (xe_size x) -> xe_size x < two16 ->
  deserialize ord s x = Ok e -> ev_type e = xe_type x.
Proof.
  intros R X Hs D. assert (B := deserialize_bound _ _ _ _ D). unfold deserialize in D. cbv zeta in D.
  destruct (stores _ _) as [e1| | | |] eqn:E; cbn [obind] in D; try discriminate.
  assert (H := header_stored _ _ E). destruct H as (H1 & H2 & H3). destruct (header_type _ _ E) as [L8 T].
  assert (B1 : len e1 < two32) by (unfold two16, two32 in *; lia).
  assert (B2 : ev_size e1 < two64) by (rewrite H2; unfold w16, two16, two64 in *; lia).
  assert (K : same_head e1 e).
  { destruct (64 <=? xe_type x); [now apply (keeps_user ord s x)|now apply (kernel_kept s x)]. }
  rewrite (head_type _ _ K). unfold ev_type. rewrite T. apply of_le_le_bytes.
  change (256 ^ N.of_nat 4) with 4294967296. lia.
Qed.
Lemma deserialize_trace ord s x e : deserialize ord s x = Ok e -> xe_type x = R_AUXTRACE ->
  slice e 8 8 = le_bytes 8 (xat_size (get_auxtrace (xe_body x))).
Proof.
  unfold deserialize. cbv zeta. destruct (stores _ [u32_at 0 _; _; _]) as [e1| | | |]; cbn [obind]; try discriminate.
  intros H E. rewrite E in H. change (64 <=? R_AUXTRACE) with true in H. cbv iota in H.
  unfold des_user in H. rewrite E in H. cbv zeta in H. change (R_AUXTRACE =? R_AUXTRACE_INFO) with false in H.
  rewrite N.eqb_refl in H. cbv iota in H. unfold des_auxtrace in H.
  change (stores e1 ?l) with (let! e' := mem_write e1 8 (le_bytes 8 (xat_size (get_auxtrace (xe_body x)))) in stores e' (tl l)) in H.
  cbn [tl] in H. destruct (mem_write e1 8 _) as [e2| | | |] eqn:M; cbn [obind] in H; try discriminate.
  assert (T := mem_write_there _ _ _ _ M). rewrite len_le_bytes in T.
  rewrite (same_front e2 e 8 8 16); [exact T| |lia].
  apply (stores_front _ 16 _ _ H). repeat constructor; cbn [fst]; apply N.leb_le; reflexivity.
Qed.

(** ** Reading it *)
Lemma head_cut e : raw_event e ->
  e = le_bytes 4 (ev_type e) ++ le_bytes 2 (ev_misc e) ++ le_bytes 2 (ev_size e) ++ skipn 8 e.
Proof.
  intros (B & L & _). unfold ev_type, ev_misc, ev_size.
  assert (Q : forall o n, (o + n <= 8)%nat -> le_bytes n (of_le (slice e (N.of_nat o) (N.of_nat n))) = slice e (N.of_nat o) (N.of_nat n)).
  { intros o n H. unfold slice. rewrite !Nat2N.id.
    replace n with (length (firstn n (skipn o e))) at 1 by (rewrite firstn_length, skipn_length; unfold len in L; lia).
    apply le_bytes_of_le. unfold bytes_ok in *. rewrite forallb_forall in *. intros y I. apply B.
    rewrite <- (firstn_skipn o e). apply in_or_app. right. rewrite <- (firstn_skipn n (skipn o e)). apply in_or_app. now left. }
  assert (Q1 := Q 0%nat 4%nat ltac:(lia)). assert (Q2 := Q 4%nat 2%nat ltac:(lia)). assert (Q3 := Q 6%nat 2%nat ltac:(lia)).
  change (N.of_nat 0) with 0 in Q1. change (N.of_nat 4) with 4 in Q1, Q2. change (N.of_nat 2) with 2 in Q2, Q3.
  change (N.of_nat 6) with 6 in Q3. rewrite Q1, Q2, Q3. clear Q Q1 Q2 Q3 B.
  destruct e as [|a [|b [|c [|d [|g [|h [|i [|j r]]]]]]]]; try (exfalso; clear - L; cbn in L; lia). reflexivity.
Qed.

Lemma ev_misc_bound e : bytes_ok e = true -> ev_misc e < two16.
Proof.
  intros H. unfold ev_misc.
  assert (B := of_le_bound (slice e 4 2) (bytes_ok_slice _ _ _ H)).
  assert (L : len (slice e 4 2) <= 2) by (unfold slice, len; rewrite firstn_length; lia).
  eapply N.lt_le_trans; [exact B|].
  change two16 with (256 ^ 2). apply N.pow_le_mono_r; lia.
Qed.

(** One event more. *)
Record one_more (e trace : list N) (st st' : fstate) : Prop := mkOneMore {
  om_events : fs_events st' = fs_events st ++ [mkFEvent e trace];
  om_mask : fs_mask st' = fs_mask st;
  om_attrs : fs_attrs st' = fs_attrs st;
  om_types : fs_types st' = fs_types st;
  om_meta : fs_meta st' = fs_meta st;
  om_readers : fs_readers st' = fs_readers st /\ fs_sample_pos st' = fs_sample_pos st /\ fs_other_pos st' = fs_other_pos st;
  om_builds : exists extra, fs_builds st' = fs_builds st ++ extra /\
    forall b, In b extra -> ev_type e = R_MMAP2 /\ N.testbit (ev_misc e) 14 = true /\ rb_file b = text_of e 72 }.

Lemma contains_same st s ty : map as_reader (fs_readers st) = ss_readers s -> contains_sample_info ty st = contains_info s ty.
Proof.
  intros M. unfold contains_sample_info, contains_info. rewrite <- M. destruct (ty =? R_SAMPLE); [reflexivity|].
  destruct (fs_readers st) as [|(k, a) r]; reflexivity.
Qed.

Lemma known_supported e off : event_data_size e = Ok off -> exists fixed var, supported_event (ev_type e) = true /\
  fixed_payload (ev_type e) = Some fixed /\ fixed <= ev_size e /\ variable_payload e (ev_size e - fixed) = Ok var /\
  off = w64 (fixed + var) /\ (ev_type e = R_MMAP -> fixed = 40) /\ (ev_type e = R_MMAP2 -> fixed = 72) /\
  (ev_type e = R_AUXTRACE -> fixed = 48).
Proof.
  unfold event_data_size. destruct (fixed_payload (ev_type e)) as [fixed|] eqn:F; [|discriminate].
  destruct (N.ltb_spec (ev_size e) fixed) as [L|L]; [discriminate|].
  destruct (variable_payload e (ev_size e - fixed)) as [var| | | |] eqn:V; cbn [obind]; try discriminate.
  intros H. apply Ok_inj in H. exists fixed, var.
  split; [|split; [reflexivity|split; [exact L|split; [exact V|split; [now symmetry|]]]]].
  - revert F. unfold fixed_payload, supported_event. cbn [existsb].
    repeat match goal with |- context [ev_type e =? ?t] => destruct (ev_type e =? t);
      [cbn [orb]; rewrite ?Bool.orb_true_r; reflexivity|cbn [orb]] end; discriminate.
  - split; [|split]; intros E; rewrite E in F; now injection F.
Qed.

Lemma mmap2_more e off st : raw_event e -> event_data_size e = Ok off -> len e = ev_size e -> ev_type e = R_MMAP2 ->
  N.testbit (ev_misc e) 14 = true -> byte e 40 <= 20 ->
  exists st', mmap2_build_id e st = Ok st' /\ fs_events st' = fs_events st /\ fs_mask st' = fs_mask st /\
    fs_attrs st' = fs_attrs st /\ fs_types st' = fs_types st /\ fs_meta st' = fs_meta st /\
    (fs_readers st' = fs_readers st /\ fs_sample_pos st' = fs_sample_pos st /\ fs_other_pos st' = fs_other_pos st) /\
    exists extra, fs_builds st' = fs_builds st ++ extra /\ forall b, In b extra -> rb_file b = text_of e 72.
Proof.
  intros He D Le T M B. unfold mmap2_build_id.
  destruct (text_total e R_MMAP2 72 4096 off He) as (t & Et); [cbn; tauto|exact T|exact D|].
  assert (Tt : t = text_of e 72).
  { unfold ev_c_str in Et. cbv zeta in Et. destruct (_ <? _); [|discriminate]. now injection Et as <-. }
  rewrite Et. cbn [obind]. destruct (mem_by list_eqb t (fs_files st)).
  { exists st. repeat (split; [repeat split; reflexivity|]). exists []. split; [now rewrite app_nil_r|intros b []]. }
  destruct (known_supported e off D) as (fixed & var & _ & _ & L & _ & _ & _ & F & _). specialize (F T). subst fixed.
  rewrite <- Le in L. unfold mem_read at 1. rewrite (proj2 (N.leb_le _ _)) by lia. cbn [obind].
  assert (S40 : of_le (slice e 40 1) = byte e 40).
  { assert (Q : slice e 40 1 = [byte e 40]).
    { unfold slice, byte. change (N.to_nat 1) with 1%nat.
      assert (G : (N.to_nat 40 < length e)%nat) by (unfold len in L; lia).
      destruct (skipn (N.to_nat 40) e) as [|y r] eqn:E.
      - apply (f_equal (@length N)) in E. rewrite skipn_length in E. cbn [length] in E. lia.
      - cbn [firstn]. f_equal. rewrite <- (firstn_skipn (N.to_nat 40) e), E.
        rewrite app_nth2; rewrite firstn_length_le by lia; [now rewrite Nat.sub_diag|lia]. }
    rewrite Q. cbn [of_le]. lia. }
  rewrite S40. destruct (N.ltb_spec 20 (byte e 40)) as [X|X]; [lia|].
  unfold mem_read. rewrite (proj2 (N.leb_le _ _)) by lia. cbn [obind].
  destruct (serialize_new (raw_to_hex (slice e 44 (byte e 40))) t (ev_misc e)) as (k & Ek & _). cbn zeta in Ek. rewrite Ek.
  eexists. split; [reflexivity|]. destruct st as [x0 x1 x2 x3 x4 x5 x6 x7 x8 x9 x10 x11 x12].
  unfold put_files, put_builds. cbn [fs_events fs_mask fs_attrs fs_types fs_meta fs_readers fs_builds fs_sample_pos fs_other_pos].
  repeat (split; [repeat split; reflexivity|]). eexists. split; [reflexivity|].
  intros b [<-|[]]. cbn [rb_file]. rewrite <- Tt. apply c_str_id.
  apply c_str_text in Et. apply (tr_nul _ _ _ Et).
Qed.

Section Events.
Variable f : list N.
Hypothesis Hf : len f < two63.
Notation gets := (gets f).
Variable cf : fconfig.
Hypothesis All : takes_all cf.

Lemma gets_event s nk e trace o st : event_ok s nk e -> at_off f o (e ++ trace) ->
  matches st s -> ss_swap s = false -> fs_readers st <> [] ->
  nk = match fs_attrs st with a :: _ => attr_exclude_kernel (fa_attr a) | [] => false end ->
  (if ev_type e =? R_AUXTRACE then number_at e 8 = len trace else trace = []) ->
  exists st', one_more e trace st st' /\
    gets (read_event cf (mkHdr (ev_type e) (ev_misc e) (ev_size e)) st) (o + 8)
      (st', ev_size e - 8 + len trace) (o + len e + len trace).
Proof.
  intros [(off & R) C1 C2 C3 (xm & C4)] A (M & M1 & M2) Sw NR NK TR.
  destruct All as [Skip Accept']. assert (Accept : forall st1, fs_readers st1 = fs_readers st /\ fs_sample_pos st1 = fs_sample_pos st /\
    fs_other_pos st1 = fs_other_pos st -> cf_accept cf st1 e = true).
  { intros st1 (X1 & X2 & X3). apply (Accept' st1 s e xm); [rewrite X1; exact M|congruence|congruence|exact Sw|exact C4]. }
  assert (He := re_raw _ _ _ R). assert (Le := re_len _ _ _ R). assert (D := re_data _ _ _ R).
  assert (S16 := ev_size_bound e (proj1 He)). unfold two16 in S16.
  destruct (known_supported e off D) as (fixed & var & Sup & Fx & Lfx & V & Off & F1 & F2 & F3).
  assert (L8 := proj1 (proj2 He)).
  assert (E := at_end_le _ _ _ A). rewrite len_app in E.
  assert (A1 := at_left _ _ _ _ A). assert (A2 := at_right _ _ _ _ A).
  assert (HC := head_cut e He).
  assert (AP : at_off f (o + 8) (skipn 8 e)).
  { rewrite HC in A1. rewrite !app_assoc in A1. apply at_right in A1. rewrite !len_app, !len_le_bytes in A1. exact A1. }
  assert (LP : len (skipn 8 e) = ev_size e - 8).
  { unfold len. rewrite skipn_length. unfold len in Le, L8. lia. }
  (* the state with what a mapping says about build ids *)
  assert (B : exists st1,
    (if (ev_type e =? R_MMAP2) && N.testbit (ev_misc e) 14 then mmap2_build_id e st else Ok st) = Ok st1 /\
    fs_events st1 = fs_events st /\ fs_mask st1 = fs_mask st /\ fs_attrs st1 = fs_attrs st /\ fs_types st1 = fs_types st /\
    fs_meta st1 = fs_meta st /\
    (fs_readers st1 = fs_readers st /\ fs_sample_pos st1 = fs_sample_pos st /\ fs_other_pos st1 = fs_other_pos st) /\
    exists extra, fs_builds st1 = fs_builds st ++ extra /\
      forall b, In b extra -> ev_type e = R_MMAP2 /\ N.testbit (ev_misc e) 14 = true /\ rb_file b = text_of e 72).
  { destruct (N.eqb_spec (ev_type e) R_MMAP2) as [T|T]; [destruct (N.testbit (ev_misc e) 14) eqn:T14|]; cbn [andb].
    - destruct (mmap2_more e off st He D Le T T14 (C3 T eq_refl)) as (st1 & Q0 & Q1 & Q2 & Q3 & Q4 & Q5 & Q6 & extra & Q7 & Q8).
      exists st1. repeat (split; [assumption|]). exists extra. split; [exact Q7|]. intros b I. auto.
    - exists st. repeat (split; [repeat split; reflexivity|]). exists []. split; [now rewrite app_nil_r|intros b []].
    - exists st. repeat (split; [repeat split; reflexivity|]). exists []. split; [now rewrite app_nil_r|intros b []]. }
  destruct B as (st1 & B0 & B1 & B2 & B3 & B4 & B5 & B6 & extra & B7 & B8).
  assert (More : forall st2, fs_events st2 = fs_events st1 ++ [mkFEvent e trace] -> fs_mask st2 = fs_mask st1 ->
    fs_attrs st2 = fs_attrs st1 -> fs_types st2 = fs_types st1 -> fs_meta st2 = fs_meta st1 ->
    fs_readers st2 = fs_readers st1 /\ fs_sample_pos st2 = fs_sample_pos st1 /\ fs_other_pos st2 = fs_other_pos st1 ->
    fs_builds st2 = fs_builds st1 -> one_more e trace st st2).
  { intros st2 X1 X2 X3 X4 X5 X6 X7. constructor; try congruence; [intuition congruence|]. exists extra. split; [congruence|exact B8]. }
  unfold read_event. cbn [h_size h_type h_misc]. rewrite Sup. cbn [negb]. rewrite Fx.
  assert (Run : exists st', one_more e trace st st' /\
    gets (rlet s0 := rlift (if (ev_type e =? R_MMAP2) && N.testbit (ev_misc e) 14 then mmap2_build_id e st else Ok st) in
          if cf_skip cf (ev_type e) then
            if (ev_type e =? R_SAMPLE) && cf_callback cf then
              rlet _ := rguard (cf_accept cf s0 e) in
              rret (put_called (fs_called s0 ++ [e]) s0, ev_size e - 8)
            else rret (s0, ev_size e - 8)
          else
            rlet _ := rguard (cf_accept cf s0 e) in
            if ev_type e =? R_AUXTRACE then
              rlet t := read_trace e in
              rret (put_events (fs_events s0 ++ [mkFEvent e t]) s0, w64 (ev_size e - 8 + len t))
            else
              let s1 := put_events (fs_events s0 ++ [mkFEvent e []]) s0 in
              if (ev_type e =? R_SAMPLE) && cf_callback cf
              then rret (put_called (fs_called s1 ++ [e]) s1, ev_size e - 8)
              else rret (s1, ev_size e - 8)) (o + len e) (st', ev_size e - 8 + len trace) (o + len e + len trace)).
  { rewrite B0. destruct (ev_type e =? R_AUXTRACE) eqn:TA.
    - exists (put_events (fs_events st1 ++ [mkFEvent e trace]) st1). split; [apply More; destruct st1; repeat split; reflexivity|].
      next; [apply gets_lift; reflexivity|]. rewrite Skip. next; [apply gets_guard, Accept; exact B6|].
      apply N.eqb_eq in TA. specialize (F3 TA). subst fixed.
      next.
      { unfold read_trace. next.
        - apply gets_lift. unfold ev_u64, mem_read. rewrite (proj2 (N.leb_le _ _)) by (clear - Lfx Le; lia). cbn [obind].
          fold (number_at e 8). rewrite TR. reflexivity.
        - next; [apply gets_ask|]. next; [apply gets_guard, N.leb_le|].
          + unfold remaining. cbn [rbuf roff rd]. rewrite sub64_le; clear - E Hf; unfold two63, two64 in *; lia.
          + apply gets_data; [exact Hf|exact A2]. }
      replace (w64 (ev_size e - 8 + len trace)) with (ev_size e - 8 + len trace); [apply gets_ret|].
      unfold w64. rewrite N.mod_small; [reflexivity|]. clear - E Hf Le. unfold two63, two64 in *. lia.
    - subst trace. change (len []) with 0. rewrite !N.add_0_r.
      destruct ((ev_type e =? R_SAMPLE) && cf_callback cf) eqn:CB.
      + exists (put_called (fs_called (put_events (fs_events st1 ++ [mkFEvent e []]) st1) ++ [e]) (put_events (fs_events st1 ++ [mkFEvent e []]) st1)).
        split; [apply More; destruct st1; repeat split; reflexivity|].
        next; [apply gets_lift; reflexivity|]. rewrite Skip. next; [apply gets_guard, Accept; exact B6|]. apply gets_ret.
      + exists (put_events (fs_events st1 ++ [mkFEvent e []]) st1). split; [apply More; destruct st1; repeat split; reflexivity|].
        next; [apply gets_lift; reflexivity|]. rewrite Skip. next; [apply gets_guard, Accept; exact B6|]. apply gets_ret. }
  destruct Run as (st' & OM & Run). exists st'. split; [exact OM|].
  next; [apply gets_guard; destruct (fs_readers st); [contradiction|reflexivity]|].
  next; [apply gets_guard, N.leb_le; exact Lfx|].
  assert (NT : is_timeout_mmap (mkHdr (ev_type e) (ev_misc e) (ev_size e)) = false).
  { unfold is_timeout_mmap. cbn [h_type h_misc].
    destruct (N.eqb_spec (ev_type e) R_MMAP) as [T|T]; [rewrite C1 by (now left); reflexivity|].
    destruct (N.eqb_spec (ev_type e) R_MMAP2) as [T2|T2]; [rewrite C1 by (now right); reflexivity|]. reflexivity. }
  rewrite NT.
  next; [apply gets_data'; [exact Hf|exact AP|now symmetry]|].
  next; [apply gets_ask|]. cbn [rswap rd]. rewrite <- HC.
  next; [apply gets_lift; unfold localise_event; cbv iota; cbn [obind]; rewrite V; cbn [obind]; reflexivity|].
  replace (o + 8 + (ev_size e - 8)) with (o + len e) by (rewrite Le; clear - Le L8; lia).
  next.
  { apply gets_guard. rewrite (contains_same st s) by exact M. destruct (contains_info s (ev_type e)) eqn:CI; [reflexivity|].
    cbn [orb]. apply N.eqb_eq. rewrite <- Off. symmetry. apply (re_plain _ _ _ R CI). }
  assert (Z : (if (ev_type e =? R_MMAP) || (ev_type e =? R_MMAP2) then let! l := ev_u64 e 24 in Ok (l =? 0) else Ok false) =
              Ok (if (ev_type e =? R_MMAP) || (ev_type e =? R_MMAP2) then number_at e 24 =? 0 else false)).
  { destruct ((ev_type e =? R_MMAP) || (ev_type e =? R_MMAP2)) eqn:Q; [|reflexivity].
    unfold ev_u64, mem_read. rewrite (proj2 (N.leb_le _ _)); [reflexivity|].
    apply Bool.orb_true_iff in Q as [Q|Q]; apply N.eqb_eq in Q; [rewrite (F1 Q) in Lfx|rewrite (F2 Q) in Lfx]; clear - Lfx Le; lia. }
  next; [apply gets_lift; exact Z|].
  rewrite <- NK.
  assert (K : ((ev_type e =? R_MMAP) || (ev_type e =? R_MMAP2)) && nk && negb (N.land (ev_misc e) 1 =? 0) &&
              (if (ev_type e =? R_MMAP) || (ev_type e =? R_MMAP2) then number_at e 24 =? 0 else false) = false).
  { destruct ((ev_type e =? R_MMAP) || (ev_type e =? R_MMAP2)) eqn:Q; [|reflexivity]. cbn [andb].
    destruct nk; [|reflexivity]. cbn [andb].
    destruct (N.testbit (ev_misc e) 0) eqn:B0'.
    - assert (X : number_at e 24 <> 0).
      { apply C2; [|reflexivity|reflexivity]. apply Bool.orb_true_iff in Q as [Q|Q]; apply N.eqb_eq in Q; auto. }
      apply N.eqb_neq in X. rewrite X. apply Bool.andb_false_r.
    - assert (X : N.land (ev_misc e) 1 = 0).
      { change 1 with (N.ones 1). rewrite N.land_ones. change (2 ^ 1) with 2. rewrite <- N.bit0_mod, B0'. reflexivity. }
      rewrite X. reflexivity. }
  rewrite K. exact Run.
Qed.

(** ** All of them *)
Definition event_read ord (s : sstate) (nk : bool) (x : x_event) : Prop :=
  short_sample x /\ x_size s x = Ok (xe_size x) /\ xe_size x < two16 /\
  (xe_type x = R_AUXTRACE -> xat_size (get_auxtrace (xe_body x)) = len (xat_trace (get_auxtrace (xe_body x)))) /\
  exists e, deserialize ord s x = Ok e /\ event_ok s nk e.

Record all_more ord (s : sstate) (l : list x_event) (st st' : fstate) : Prop := mkAllMore {
  al_events : exists evs, fs_events st' = fs_events st ++ evs /\
    Forall2 (fun x e => deserialize ord s x = Ok (fe_raw e) /\ fe_trace e = trace_of x) l evs;
  al_mask : fs_mask st' = fs_mask st;
  al_attrs : fs_attrs st' = fs_attrs st;
  al_types : fs_types st' = fs_types st;
  al_meta : fs_meta st' = fs_meta st;
  al_builds : exists extra, fs_builds st' = fs_builds st ++ extra /\
    forall b, In b extra -> exists e, In e (fs_events st') /\ ev_type (fe_raw e) = R_MMAP2 /\
      N.testbit (ev_misc (fe_raw e)) 14 = true /\ rb_file b = text_of (fe_raw e) 72 }.

Lemma event_bytes_cut ord s x e : deserialize ord s x = Ok e ->
  (xe_type x = R_AUXTRACE -> xat_size (get_auxtrace (xe_body x)) = len (xat_trace (get_auxtrace (xe_body x)))) ->
  event_bytes ord s x = e ++ trace_of x.
Proof.
  intros D T. unfold event_bytes, trace_of. rewrite D. f_equal.
  destruct (N.eqb_spec (xe_type x) R_AUXTRACE) as [E|E]; [|reflexivity]. cbn [andb]. rewrite (T E).
  destruct (xat_trace (get_auxtrace (xe_body x))) as [|y r]; [reflexivity|]. rewrite len_cons.
  destruct (N.ltb_spec 0 (1 + len r)) as [X|X]; [reflexivity|clear - X; lia].
Qed.

Lemma gets_events ord s nk l : Forall (event_read ord s nk) l -> forall fuel o st, (length l < fuel)%nat ->
  at_off f o (concat (map (event_bytes ord s) l)) ->
  matches st s -> ss_swap s = false -> (l = [] \/ fs_readers st <> []) ->
  nk = match fs_attrs st with a :: _ => attr_exclude_kernel (fa_attr a) | [] => false end ->
  exists st', all_more ord s l st st' /\
    gets (data_loop fuel cf (len (concat (map (event_bytes ord s) l))) st) o st' (o + len (concat (map (event_bytes ord s) l))).
Proof.
  induction 1 as [|x l (Sh & Xs & Xl & Xt & e & D & Ok') F IH]; intros fuel o st K A M Sw NR NK; (destruct fuel as [|fuel]; [inversion K|]).
  - exists st. split.
    + constructor; try reflexivity; [exists []|exists []]; (split; [now rewrite app_nil_r|]); [constructor|intros b []].
    + cbn [map concat data_loop]. change (len []) with 0. rewrite N.add_0_r. apply gets_ret.
  - destruct NR as [NR|NR]; [discriminate|].
    cbn [map concat data_loop] in *. rewrite (event_bytes_cut ord s x e D Xt) in *.
    destruct (split2 f o _ _ A) as [A1 A2].
    destruct (deserialize_size ord s x e Sh Xs Xl D) as [Le Se]. assert (Ty := deserialize_type ord s x e Sh Xs Xl D).
    assert (TR : if ev_type e =? R_AUXTRACE then number_at e 8 = len (trace_of x) else trace_of x = []).
    { rewrite Ty. unfold trace_of. destruct (N.eqb_spec (xe_type x) R_AUXTRACE) as [E|E]; [|reflexivity].
      unfold number_at. rewrite (deserialize_trace ord s x e D E), of_le_le_bytes; [apply (Xt E)|].
      assert (G := at_end_le _ _ _ A1). rewrite len_app in G. unfold trace_of in G. rewrite E, N.eqb_refl in G.
      rewrite (Xt E). change (256 ^ N.of_nat 8) with two64. clear - G Hf. unfold two63, two64 in *. lia. }
    destruct (gets_event s nk e (trace_of x) o st Ok' A1 M Sw NR NK TR) as (st1 & OM & G).
    destruct Ok' as [(off & R) _ _ _ _]. assert (He := re_raw _ _ _ R). assert (L8 := proj1 (proj2 He)).
    destruct (IH fuel (o + len (e ++ trace_of x)) st1) as (st' & AM & G').
    { cbn [length] in K. lia. }
    { exact A2. }
    { destruct M as (M0 & M1 & M2). destruct (om_readers _ _ _ _ OM) as (X1 & X2 & X3). unfold matches. rewrite X1, X2, X3. auto. }
    { exact Sw. }
    { right. now rewrite (proj1 (om_readers _ _ _ _ OM)). }
    { now rewrite (om_attrs _ _ _ _ OM). }
    exists st'. split.
    + destruct AM as [(evs & V1 & V2) W1 W2 W3 W4 (extra & V3 & V4)].
      destruct OM as [U1 U2 U3 U4 U5 U6 (ex & U7 & U8)]. constructor; try congruence.
      * exists (mkFEvent e (trace_of x) :: evs). split; [rewrite V1, U1, <- app_assoc; reflexivity|].
        constructor; [now split|exact V2].
      * exists (ex ++ extra). split; [rewrite V3, U7; now rewrite app_assoc|].
        intros b I. apply in_app_or in I as [I|I]; [|now apply V4].
        destruct (U8 b I) as (Q1 & Q2 & Q3). exists (mkFEvent e (trace_of x)). cbn [fe_raw].
        split; [|auto]. rewrite V1, U1. apply in_or_app. left. apply in_or_app. right. now left.
    + rewrite !len_app in *. rewrite (proj2 (N.eqb_neq _ _)) by (clear - L8; lia).
      next.
      { apply (gets_header f Hf o (ev_type e) (ev_misc e) (ev_size e) (skipn 8 e)).
        - rewrite <- (head_cut e He). now apply at_left in A1.
        - rewrite Ty. assert (B85 := deserialize_bound _ _ _ _ D). clear - B85. unfold two32. lia.
        - assert (B16 := ev_misc_bound e (proj1 He)). exact B16.
        - rewrite Se. exact Xl.
        - rewrite Se, <- Le. split; [exact L8|]. unfold len. rewrite skipn_length. unfold len in L8. lia. }
      next; [exact G|].
      assert (SB : sub64 (len e + len (trace_of x) + len (concat (map (event_bytes ord s) l)))
                     (w64 (8 + (ev_size e - 8 + len (trace_of x)))) = len (concat (map (event_bytes ord s) l))).
      { assert (EE := at_end_le _ _ _ A). rewrite !len_app in EE.
        rewrite Se, <- Le. unfold w64. rewrite N.mod_small by (clear - EE Hf L8; unfold two63, two64 in *; lia).
        rewrite sub64_le; clear - EE Hf L8; unfold two63, two64 in *; lia. }
      cbn beta iota. rewrite SB, !N.add_assoc. rewrite !N.add_assoc in G'. exact G'.
Qed.
End Events.
