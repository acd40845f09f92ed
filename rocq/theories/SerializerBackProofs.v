(** The sample part of the event made of a message. *)
From Verif Require Import Base BytesModel BytesProofs BytesMoreProofs BufferModel EventSizeModel
  EventSizeSpec EventSizeProofs TextModel SampleModel SampleSpec SampleProofs SampleReadProofs
  SampleSafeProofs SampleMainProofs FileModel FileProofs SerializerModel SerializerSpec
  SerializerProofs SerializerSizeProofs SerializerSampleProofs SerializerMessageProofs
  SerializerSampleOfProofs.
Local Open Scope N_scope.

(** ** Chunks without padding *)
Definition tight (c : chunk) : Prop := len (ck_bytes c) = ck_move c.

Lemma fill_app a : forall b old, fill (a ++ b) old = fill a old ++ fill b (skipn (N.to_nat (total a)) old).
Proof.
  induction a as [|c a IH]; intros b old; [reflexivity|]. cbn [app fill total].
  rewrite IH, <- !app_assoc. do 3 f_equal. f_equal. rewrite skipn_skipn'. f_equal. lia.
Qed.

Lemma fill_tight cs : forall d old, Forall tight cs -> image cs d -> fill cs old = d.
Proof.
  induction cs as [|c cs IH]; intros d old H I; inversion I; subst; [reflexivity|].
  inversion_clear H as [|? ? T1 T2]. cbn [fill]. unfold tight in T1.
  match goal with X : image1 c d1 |- _ => destruct X as (pad & -> & L) end.
  rewrite len_app in L. assert (pad = []) by (apply len_0; lia). subst pad.
  replace (ck_move c - len (ck_bytes c)) with 0 by lia. rewrite app_nil_r.
  unfold slice. cbn [N.to_nat firstn app]. f_equal. now apply IH.
Qed.

Lemma tight_when b l : (b = true -> Forall tight l) -> Forall tight (when b l).
Proof. destruct b; cbn [when]; auto. Qed.
Lemma tight_put64 v : tight (put64 v). Proof. unfold tight, put64. cbn [ck_bytes ck_move]. now rewrite len_le_bytes. Qed.
Lemma tight_put32 x y : tight (put32_32 x y).
Proof. unfold tight, put32_32. cbn [ck_bytes ck_move]. rewrite len_app, !len_le_bytes. reflexivity. Qed.
Lemma tight_flat {A} (g : A -> list chunk) l : (forall x, Forall tight (g x)) -> Forall tight (flat_map g l).
Proof. intros H. induction l; cbn [flat_map]; [constructor|]. apply Forall_app. auto. Qed.
Lemma tight_map64 {A} (f : A -> N) l : Forall tight (map (fun x => put64 (f x)) l).
Proof. induction l; constructor; auto using tight_put64. Qed.

Definition before_raw (a : attr) (ty : N) (s : psample) : list chunk :=
  let has := carries a ty in
  when ((ty =? R_SAMPLE) && has B_IDENTIFIER) [put64 (s_id s)]
  ++ when (has B_IP) [put64 (s_ip s)]
  ++ when (has B_TID) [put32_32 (s_pid s) (s_tid s)]
  ++ when (has B_TIME) [put64 (s_time s)]
  ++ when (has B_ADDR) [put64 (s_addr s)]
  ++ when (has B_ID) [put64 (s_id s)]
  ++ when (has B_STREAM_ID) [put64 (s_stream_id s)]
  ++ when (has B_CPU) [put32_32 (s_cpu s) 0]
  ++ when (negb (ty =? R_SAMPLE) && has B_IDENTIFIER) [put64 (s_id s)]
  ++ when (has B_PERIOD) [put64 (s_period s)]
  ++ when (has B_READ) (write_read a s)
  ++ when (has B_CALLCHAIN) (write_callchain s).
Definition after_raw (a : attr) (ty : N) (s : psample) : list chunk :=
  let has := carries a ty in
  when (has B_BRANCH_STACK) (branch_chunks (N.testbit (at_branch_type a) BR_HW_INDEX) s)
  ++ when (has B_WEIGHT || has B_WEIGHT_STRUCT) [put64 (s_weight s)]
  ++ when (has B_DATA_SRC) [put64 (s_data_src s)]
  ++ when (has B_TRANSACTION) [put64 (s_transaction s)]
  ++ when (has B_PHYS_ADDR) [put64 (s_phys_addr s)]
  ++ when (has B_CGROUP) [put64 (s_cgroup s)]
  ++ when (has B_DATA_PAGE_SIZE) [put64 (s_data_page s)]
  ++ when (has B_CODE_PAGE_SIZE) [put64 (s_code_page s)].

Lemma chunks_parts a ty s :
  all_chunks a ty s = before_raw a ty s ++ when (carries a ty B_RAW) [put_sized (s_raw s)] ++ after_raw a ty s.
Proof. unfold all_chunks, before_raw, after_raw. cbv zeta. now rewrite <- !app_assoc. Qed.

Lemma tight_one c : tight c -> Forall tight [c]. Proof. auto. Qed.

Lemma tight_read a s : Forall tight (write_read a s).
Proof.
  unfold write_read. cbv zeta. rewrite ?Forall_app.
  repeat first [apply tight_put64 | apply Forall_nil | apply Forall_cons | apply Forall_app; split
    | apply tight_when; intros _ | apply tight_flat; intros ?
    | match goal with |- Forall tight (if ?b then _ else _) => destruct b end
    | match goal with |- Forall tight (match ?b with _ => _ end) => destruct b end ].
Qed.

Lemma tight_before a ty s : Forall tight (before_raw a ty s).
Proof.
  unfold before_raw. cbv zeta. rewrite !Forall_app.
  repeat split; apply tight_when; intros _; auto using tight_one, tight_put64, tight_put32, tight_read.
  unfold write_callchain. destruct (s_callchain s) as [ips|]; constructor; try apply tight_put64; [|constructor].
  apply (tight_map64 (fun x => x)).
Qed.
Lemma tight_after a ty s : Forall tight (after_raw a ty s).
Proof.
  unfold after_raw. cbv zeta. rewrite !Forall_app.
  repeat split; apply tight_when; intros _; auto using tight_one, tight_put64.
  unfold branch_chunks.
  repeat first [apply tight_put64 | apply Forall_nil | apply Forall_cons | apply Forall_app; split
    | apply tight_when; intros _ | apply tight_flat; intros ?].
Qed.

Lemma total_before a s : total (before_raw a R_SAMPLE s) = raw_start a s.
Proof.
  unfold before_raw, raw_start. cbv zeta. change (R_SAMPLE =? R_SAMPLE) with true. cbn [negb andb].
  rewrite !total_app, !total_when, total_read, total_callchain. cbn [map]. rewrite !words_cons, words_nil.
  rewrite !total_put64, !total_put32. cbn [total].
  match goal with |- context [if carries a R_SAMPLE B_READ then ?x else 0] =>
    set (R := if carries a R_SAMPLE B_READ then x else 0); clearbody R end.
  match goal with |- context [if carries a R_SAMPLE B_CALLCHAIN then ?x else 0] =>
    set (C := if carries a R_SAMPLE B_CALLCHAIN then x else 0); clearbody C end.
  repeat match goal with |- context [if ?b then 8 + 0 else 0] =>
    replace (if b then 8 + 0 else 0) with (8 * (if b then 1 else 0)) by (destruct b; reflexivity);
    set (if b then 1 else 0) end.
  lia.
Qed.

(** A block with other padding takes the same bytes if its padding is that of the
    image. *)
Lemma fill_raw a s d old :
  image (all_chunks a R_SAMPLE s) d -> len old = len d -> len (s_raw s) < 2 ^ 30 ->
  (carries a R_SAMPLE B_RAW = true -> forall i,
     raw_start a s + 4 + len (s_raw s) <= i ->
     i < raw_start a s + 8 * ((4 + len (s_raw s) + 7) / 8) -> byte old i = byte d i) ->
  fill (all_chunks a R_SAMPLE s) old = d.
Proof.
  rewrite chunks_parts, !fill_app. intros I L Hr Hp.
  apply image_app in I as (d1 & d' & -> & I1 & I). apply image_app in I as (d2 & d3 & -> & I2 & I3).
  assert (L1 := image_len _ _ I1). assert (L2 := image_len _ _ I2). assert (L3 := image_len _ _ I3).
  rewrite total_before in *. rewrite !len_app in L.
  rewrite (fill_tight _ _ _ (tight_before a R_SAMPLE s) I1), (fill_tight _ _ _ (tight_after a R_SAMPLE s) I3).
  do 2 f_equal. destruct (carries a R_SAMPLE B_RAW); cbn [when] in *.
  2:{ inversion I2; subst. reflexivity. }
  specialize (Hp eq_refl). apply image_one in I2. destruct I2 as (pad & E2 & M). cbn [fill].
  rewrite app_nil_r, (sized_move _ Hr). rewrite (sized_move _ Hr) in M. rewrite E2. f_equal.
  assert (Lb : len (ck_bytes (put_sized (s_raw s))) = 4 + len (s_raw s)).
  { unfold put_sized. cbn [ck_bytes]. rewrite len_app, len_le_bytes. reflexivity. }
  rewrite E2, len_app, Lb in M. rewrite Lb.
  assert (Lo : len (skipn (N.to_nat (raw_start a s)) old) = len d2 + len d3) by (rewrite len_skipn; lia).
  assert (Ld : len d2 = 4 + len (s_raw s) + len pad) by (rewrite E2, len_app, Lb; reflexivity).
  apply bytes_ext.
  - rewrite len_slice by lia. lia.
  - intros i Hi. rewrite len_slice in Hi by lia. rewrite byte_slice by exact Hi.
    assert (X : byte (skipn (N.to_nat (raw_start a s)) old) (4 + len (s_raw s) + i)
                = byte old (raw_start a s + (4 + len (s_raw s) + i))).
    { assert (E : old = firstn (N.to_nat (raw_start a s)) old ++ skipn (N.to_nat (raw_start a s)) old)
        by (symmetry; apply firstn_skipn).
      assert (Lf : len (firstn (N.to_nat (raw_start a s)) old) = raw_start a s) by (apply len_firstn; lia).
      rewrite E at 2. rewrite byte_app2 by lia. f_equal. lia. }
    rewrite X, Hp by lia. rewrite byte_app2 by lia. rewrite byte_app1 by lia. rewrite E2.
    rewrite byte_app2 by lia. f_equal. lia.
Qed.

Lemma fill_other a ty s d old :
  image (all_chunks a ty s) d -> carries a ty B_RAW = false -> fill (all_chunks a ty s) old = d.
Proof.
  intros I H. apply fill_tight; [|exact I]. rewrite chunks_parts, H. cbn [when app].
  apply Forall_app. split; [apply tight_before|apply tight_after].
Qed.

(** ** Writing the sample into the cleaned block *)
Record restored (s : sstate) (off : N) (e e' : list N) (a : attr) (p : psample) : Prop := {
  rs_len : len e' = len e;
  rs_data : forall i, i < off -> byte e' i = kept e i;
  rs_info : exists p', read_sample_info a false e' fresh_sample = Ok p' /\
              recovered a (ev_type e) (storable p) p';
  rs_exact : (forall i, i < off -> kept e i = byte e i) -> agree a (ev_type e) (storable p) p ->
    (ev_type e = R_SAMPLE -> carries a R_SAMPLE B_RAW = true -> forall i,
       off + raw_start a p + 4 + len (s_raw p) <= i ->
       i < off + raw_start a p + 8 * ((4 + len (s_raw p) + 7) / 8) -> byte e i = 0) ->
    e' = e
}.

Lemma agree_trans a ty p q r : agree a ty p q -> agree a ty q r -> agree a ty p r.
Proof.
  intros [] []. constructor; intros;
    try solve [repeat match goal with H : ?P, F : ?P -> _ |- _ => specialize (F H) end; congruence].
  - eapply Forall2_trans'; [|apply ag_group0; assumption|apply ag_group; assumption].
    unfold value_agrees. intros x y z (A1 & A2 & A3) (B1 & B2 & B3).
    split; [congruence|]. split; intros F; [rewrite B2, A2|rewrite B3, A3]; auto.
  - specialize (ag_one H). specialize (ag_one0 H). revert ag_one ag_one0.
    unfold value_agrees. intros (B1 & B2 & B3) (A1 & A2 & A3).
    split; [congruence|]. split; intros F; [rewrite B2, A2|rewrite B3, A3]; auto.
Qed.

Lemma put_back s e off a p q :
  readable_event s e off -> sample_facts s e off a p -> carried s a (ev_type e) p q ->
  exists e', put_info a q (clean e) = Ok e' /\ restored s off e e' a p.
Proof.
  intros [R1 R2 R3 R4] F [C1 C2 C3 C4 C5].
  assert (K := clean_raw e R1). assert (G8 : 8 <= len e) by apply R1. assert (T := clean_type e G8). assert (Z := clean_size e G8).
  assert (D := clean_data_size e off R1 R3). assert (Lc := len_clean e).
  destruct (sf_split _ _ _ _ _ F) as (pre & d & E & Lp & Ld & Im).
  assert (Ht := sf_type _ _ _ _ _ F). assert (Hr := sf_readable _ _ _ _ _ F).
  assert (Ev := ev_size_bound e (proj1 R1)).
  assert (Le : len e = off + field_bytes a (ev_type e) p).
  { assert (L := f_equal (@len N) E). rewrite len_app in L. lia. }
  assert (Hl : len (clean e) < two64) by (unfold two64, two16 in *; lia).
  assert (Hc := write_chunks_eq a _ q Ht Hr C3). rewrite <- T in Hc.
  assert (Hsh := sample_ok_short q C2).
  assert (Tt : total (all_chunks a (ev_type e) q) = field_bytes a (ev_type e) p).
  { rewrite <- C5. apply total_all. apply Hsh. }
  destruct (write_ok a q (clean e) off _ K Hl Hsh (eq_trans (f_equal supported_type T) Ht) D Hc)
    as (pre' & old & post & E' & L1 & L2 & W).
  { rewrite T, Tt. lia. }
  rewrite T in *. rewrite Tt in *. rewrite Z in W.
  assert (post = []).
  { apply len_0. assert (L := f_equal (@len N) E'). rewrite !len_app in L. lia. }
  subst post. rewrite app_nil_r in *.
  replace (off + field_bytes a (ev_type e) p =? ev_size e) with true in W by (symmetry; apply N.eqb_eq; lia).
  destruct (roundtrip a q (clean e) _ K Hl C2 ltac:(now rewrite T) ltac:(now rewrite T) W) as (p' & P1 & P2).
  rewrite T in P2. assert (Wf := wf_chunks a (ev_type e) q _ (proj1 Hsh) Hc).
  assert (Lf := len_fill _ old Wf (eq_trans L2 (eq_sym Tt))).
  set (new := fill (all_chunks a (ev_type e) q) old) in *.
  exists (pre' ++ new). split; [unfold put_info; rewrite W; reflexivity|]. constructor.
  - rewrite len_app. lia.
  - intros i Hi. rewrite byte_app1 by lia. rewrite <- byte_clean by lia. rewrite E'. now rewrite byte_app1 by lia.
  - exists p'. split; [exact P1|]. eapply agree_recovered; eauto.
  - intros G1 G2 G3. rewrite E.
    assert (pre' = pre).
    { apply bytes_ext; [lia|]. intros i Hi. rewrite <- (byte_app1 pre d) by lia. rewrite <- E.
      rewrite <- (byte_app1 pre' old) by lia. rewrite <- E'. rewrite byte_clean by lia. apply G1. lia. }
    subst pre'. f_equal. unfold new.
    assert (Hcs : all_chunks a (ev_type e) q = all_chunks a (ev_type e) p).
    { apply agree_chunks. eapply agree_trans; eauto. }
    rewrite Hcs.
    destruct (N.eq_dec (ev_type e) R_SAMPLE) as [Es|Es].
    + rewrite Es in *. apply fill_raw; [exact Im|lia|apply (sample_ok_short p), (sf_ok _ _ _ _ _ F)|].
      intros B i I1 I2. specialize (G3 eq_refl B (off + i) ltac:(lia) ltac:(lia)).
      assert (Hi : i < len d).
      { rewrite Ld. unfold field_bytes, raw_start in *. cbv zeta in *. rewrite B in *. cbn [map app] in *.
        rewrite !words_cons, words_nil in *.
        revert I2. clear.
        repeat match goal with |- context [if ?b then ?x else 0] => let v := fresh in set (v := if b then x else 0); clearbody v end.
        lia. }
      assert (X : byte (pre ++ d) (off + i) = byte d i) by (rewrite byte_app2 by lia; f_equal; lia).
      rewrite <- E in X. rewrite <- X, G3.
      assert (Y : byte (clean e) (off + i) = byte old i).
      { rewrite E', byte_app2 by lia. f_equal. lia. }
      rewrite <- Y, byte_clean by lia. unfold kept.
      destruct (N.ltb_spec (off + i) 8) as [H8|H8]; [|fields_of Es; reflexivity].
      exact G3.
    + apply fill_other; [exact Im|].
      destruct (sf_all _ _ _ _ _ F) as [X|X]; [contradiction|].
      rewrite carries_other by auto. apply andb_false_r.
Qed.
