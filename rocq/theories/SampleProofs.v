(** Proofs about reading and writing sample fields: writing, and reading back. *)
From Verif Require Import Base BytesModel BytesProofs BytesMoreProofs BufferModel BufferSpec
  BufferProofs EventSizeModel EventSizeSpec EventSizeProofs SampleModel SampleSpec.
Local Open Scope N_scope.

(** ** Chunks *)
Definition wfc (c : chunk) : Prop :=
  len (ck_bytes c) <= ck_move c /\ ck_move c mod 8 = 0 /\ ck_move c < 2 ^ 32.

Fixpoint total (cs : list chunk) : N :=
  match cs with [] => 0 | c :: cs' => ck_move c + total cs' end.

Lemma total_app a b : total (a ++ b) = total a + total b.
Proof. induction a as [|c a IH]; cbn [app total]; [reflexivity|]. rewrite IH. lia. Qed.

Lemma total_mod8 cs : Forall wfc cs -> total cs mod 8 = 0.
Proof.
  induction 1 as [|c cs (H1 & H2 & H3) _ IH]; [reflexivity|]. cbn [total]. lia.
Qed.

Lemma chunks_size_total cs : total cs < two64 -> chunks_size cs = total cs.
Proof.
  unfold chunks_size.
  assert (G : forall cs n, n + total cs < two64 ->
            fold_left (fun n c => w64 (n + ck_move c)) cs n = n + total cs).
  { clear. induction cs as [|c cs IH]; intros n H; cbn [fold_left total] in *; [lia|].
    rewrite w64_small by lia. rewrite IH by lia. lia. }
  intros H. rewrite G by lia. lia.
Qed.

(** The bytes of the block after storing: the padding keeps what was there. *)
Fixpoint fill (cs : list chunk) (old : list N) : list N :=
  match cs with
  | [] => []
  | c :: cs' =>
      ck_bytes c ++ slice old (len (ck_bytes c)) (ck_move c - len (ck_bytes c))
      ++ fill cs' (skipn (N.to_nat (ck_move c)) old)
  end.

Lemma split_at {A} (l : list A) n : n <= len l -> exists a b, l = a ++ b /\ len a = n.
Proof.
  intros H. exists (firstn (N.to_nat n) l), (skipn (N.to_nat n) l).
  rewrite firstn_skipn. split; [reflexivity|]. now apply len_firstn.
Qed.

Lemma mem_write_app pre old post d :
  len d <= len old ->
  mem_write (pre ++ old ++ post) (len pre) d =
    Ok (pre ++ d ++ slice old (len d) (len old - len d) ++ post).
Proof.
  intros H. destruct (split_at old (len d) H) as (o1 & o2 & -> & L1).
  unfold mem_write. rewrite !len_app.
  destruct (N.leb_spec (len pre + len d) (len pre + (len o1 + len o2 + len post))); [|lia].
  rewrite firstn_len_app. do 3 f_equal.
  replace (len o1 + len o2 - len d) with (len o2) by lia.
  rewrite <- L1.
  replace (len pre + len o1) with (len (pre ++ o1)) by apply len_app.
  rewrite <- app_assoc, (app_assoc pre o1), skipn_len_app.
  f_equal. unfold slice. rewrite skipn_len_app, to_nat_len, firstn_all. reflexivity.
Qed.

Lemma store_fill cs : forall pre old post,
  Forall wfc cs -> len old = total cs -> len (pre ++ old ++ post) < two64 ->
  store_chunks (pre ++ old ++ post) (len pre) cs = Ok (pre ++ fill cs old ++ post, len pre + total cs).
Proof.
  induction cs as [|c cs IH]; intros pre old post Hw Hl Hb; cbn [store_chunks fill total] in *.
  { destruct old; [|rewrite len_cons in Hl; lia]. cbn [app]. f_equal. f_equal. lia. }
  inversion_clear Hw as [|? ? (W1 & W2 & W3) Hw']. 
  destruct (split_at old (ck_move c)) as (o1 & o2 & -> & L1); [lia|].
  rewrite <- app_assoc, mem_write_app by lia. cbn [obind].
  rewrite len_app in Hl.
  replace (8 * (ck_move c / 8)) with (ck_move c) by lia.
  rewrite w64_small by (rewrite !len_app in Hb; lia).
  set (n1 := ck_bytes c ++ slice o1 (len (ck_bytes c)) (len o1 - len (ck_bytes c))).
  assert (Ln : len n1 = ck_move c).
  { unfold n1. rewrite len_app, len_slice by lia. lia. }
  replace (pre ++ ck_bytes c ++ slice o1 (len (ck_bytes c)) (len o1 - len (ck_bytes c)) ++ o2 ++ post)
    with ((pre ++ n1) ++ o2 ++ post) by (unfold n1; now rewrite <- !app_assoc).
  replace (len pre + ck_move c) with (len (pre ++ n1)) by (rewrite len_app, Ln; reflexivity).
  rewrite IH; auto.
  - f_equal. f_equal.
    + rewrite <- L1, skipn_len_app.
      replace (slice (o1 ++ o2) (len (ck_bytes c)) (len o1 - len (ck_bytes c)))
        with (slice o1 (len (ck_bytes c)) (len o1 - len (ck_bytes c))).
      2:{ destruct (split_at o1 (len (ck_bytes c))) as (p1 & p2 & -> & Lp); [lia|].
          rewrite <- Lp, len_app. replace (len p1 + len p2 - len p1) with (len p2) by lia.
          rewrite <- app_assoc.
          rewrite (slice_app p1 p2 o2) by reflexivity.
          rewrite <- (app_nil_r p2) at 1. now rewrite (slice_app p1 p2 []) by reflexivity. }
      unfold n1. now rewrite <- !app_assoc.
    + rewrite len_app, Ln. lia.
  - lia.
  - rewrite !len_app in *. lia.
Qed.

Lemma len_fill cs : forall old, Forall wfc cs -> len old = total cs -> len (fill cs old) = total cs.
Proof.
  induction cs as [|c cs IH]; intros old Hw Hl; cbn [fill total] in *; [reflexivity|].
  inversion_clear Hw as [|? ? (W1 & W2 & W3) Hw'].
  rewrite !len_app, len_slice by lia. rewrite IH; auto; [lia|]. rewrite len_skipn. lia.
Qed.

(** [d] is the image of the chunks: their bytes, each padded. *)
Definition image1 (c : chunk) (d : list N) : Prop :=
  exists pad, d = ck_bytes c ++ pad /\ len d = ck_move c.
Inductive image : list chunk -> list N -> Prop :=
| image_nil : image [] []
| image_cons c cs d1 d2 : image1 c d1 -> image cs d2 -> image (c :: cs) (d1 ++ d2).

Lemma fill_image cs : forall old, Forall wfc cs -> len old = total cs -> image cs (fill cs old).
Proof.
  induction cs as [|c cs IH]; intros old Hw Hl; cbn [fill total] in *; [constructor|].
  inversion_clear Hw as [|? ? (W1 & W2 & W3) Hw'].
  rewrite app_assoc. constructor.
  - eexists. split; [reflexivity|]. rewrite len_app, len_slice by lia. lia.
  - apply IH; auto. rewrite len_skipn. lia.
Qed.

Lemma image_len cs d : image cs d -> len d = total cs.
Proof.
  induction 1 as [|c cs d1 d2 (pad & E & L) _ IH]; [reflexivity|].
  rewrite len_app. cbn [total]. lia.
Qed.

Lemma fill_same cs d : image cs d -> fill cs d = d.
Proof.
  induction 1 as [|c cs d1 d2 (pad & E & L) _ IH]; cbn [fill]; [reflexivity|].
  rewrite <- L, skipn_len_app, IH. subst d1. rewrite len_app.
  replace (len (ck_bytes c) + len pad - len (ck_bytes c)) with (len pad) by lia.
  rewrite <- app_assoc. rewrite (slice_app (ck_bytes c) pad d2) by reflexivity.
  reflexivity.
Qed.

Lemma image_app a : forall b d, image (a ++ b) d -> exists d1 d2, d = d1 ++ d2 /\ image a d1 /\ image b d2.
Proof.
  induction a as [|c a IH]; intros b d H; cbn [app] in H.
  { exists [], d. repeat split; auto. constructor. }
  inversion H as [|? ? d1 d2 H1 H2]; subst. destruct (IH _ _ H2) as (x & y & -> & Hx & Hy).
  exists (d1 ++ x), y. rewrite app_assoc. repeat split; auto. now constructor.
Qed.

Lemma app_image a : forall b d1 d2, image a d1 -> image b d2 -> image (a ++ b) (d1 ++ d2).
Proof.
  induction a as [|c a IH]; intros b d1 d2 H1 H2; inversion H1; subst; cbn [app]; auto.
  rewrite <- app_assoc. constructor; auto.
Qed.

Lemma image_one c d : image [c] d -> image1 c d.
Proof. intros H. inversion H as [|? ? d1 d2 H1 H2]; subst. inversion H2; subst. now rewrite app_nil_r. Qed.
Lemma one_image c d : image1 c d -> image [c] d.
Proof. intros H. rewrite <- (app_nil_r d). constructor; [exact H|constructor]. Qed.

Lemma image_put64 v d : image1 (put64 v) d <-> d = le_bytes 8 v.
Proof.
  split.
  - intros (pad & -> & L). cbn [put64 ck_bytes ck_move] in *. rewrite len_app, len_le_bytes in L.
    destruct pad; [apply app_nil_r|]. rewrite len_cons in L. lia.
  - intros ->. exists []. rewrite app_nil_r. split; [reflexivity|]. apply len_le_bytes.
Qed.

Lemma image_put32 x y d : image1 (put32_32 x y) d <-> d = le_bytes 4 x ++ le_bytes 4 y.
Proof.
  split.
  - intros (pad & -> & L). cbn [put32_32 ck_bytes ck_move] in *. rewrite !len_app, !len_le_bytes in L.
    destruct pad; [apply app_nil_r|]. rewrite len_cons in L. lia.
  - intros ->. exists []. rewrite app_nil_r. split; [reflexivity|].
    rewrite len_app, !len_le_bytes. reflexivity.
Qed.

Lemma through_int_small x : x < 2 ^ 31 -> through_int x = x.
Proof.
  intros H. unfold through_int, w32. rewrite N.mod_small by (unfold two32; lia). cbv zeta.
  destruct (N.ltb_spec x (2 ^ 31)); [reflexivity|lia].
Qed.

Lemma image_put_data v d : image1 (put_data (le_bytes 8 v)) d <-> d = le_bytes 8 v.
Proof.
  replace (put_data (le_bytes 8 v)) with (put64 v); [apply image_put64|].
  unfold put_data, put64. rewrite len_le_bytes. reflexivity.
Qed.

(** ** Every chunk of a sample is well formed *)
Lemma wf_put64 v : wfc (put64 v).
Proof. unfold wfc, put64. cbn [ck_bytes ck_move]. rewrite len_le_bytes. repeat split; reflexivity || lia. Qed.
Lemma wf_put32 x y : wfc (put32_32 x y).
Proof.
  unfold wfc, put32_32. cbn [ck_bytes ck_move]. rewrite len_app, !len_le_bytes. repeat split; reflexivity || lia.
Qed.
Lemma sized_move d : len d < 2 ^ 30 -> ck_move (put_sized d) = 8 * ((4 + len d + 7) / 8).
Proof.
  intros H. unfold put_sized. cbn [ck_move]. rewrite align8_value by (unfold two64; lia).
  apply through_int_small. lia.
Qed.
Lemma wf_sized d : len d < 2 ^ 30 -> wfc (put_sized d).
Proof.
  intros H. unfold wfc. rewrite sized_move by exact H. unfold put_sized. cbn [ck_bytes].
  rewrite len_app, len_le_bytes. split; [lia|]. split; lia.
Qed.
Lemma wf_when b l : Forall wfc l -> Forall wfc (when b l).
Proof. intros H. destruct b; [exact H|constructor]. Qed.


Ltac wfs :=
  repeat (apply Forall_app; split); try apply wf_when;
  repeat (apply Forall_cons; [first [apply wf_put64|apply wf_put32|now apply wf_sized]|]);
  try apply Forall_nil.

Lemma wf_read a s : Forall wfc (write_read a s).
Proof.
  unfold write_read. cbv zeta.
  destruct (N.testbit (at_read_format a) F_GROUP); wfs.
  set (vs := match s_group s with Some vs => vs | None => [] end). clearbody vs.
  induction vs as [|v vs IH]; cbn [flat_map]; [constructor|]. wfs. exact IH.
Qed.

Lemma wf_callchain s : Forall wfc (write_callchain s).
Proof.
  unfold write_callchain. destruct (s_callchain s) as [ips|]; wfs.
  apply Forall_map, Forall_forall. intros; apply wf_put64.
Qed.

Lemma put_data8 v : put_data (le_bytes 8 v) = put64 v.
Proof. unfold put_data, put64. rewrite len_le_bytes. reflexivity. Qed.

Lemma wf_branch s l : write_branch s = Ok l -> Forall wfc l.
Proof.
  unfold write_branch. destruct (s_no_hw_idx s) as [no|]; [|discriminate].
  intros H. apply Ok_inj in H. subst l. wfs.
  set (bs := match s_branch s with Some bs => bs | None => _ end). clearbody bs.
  induction (bs_entries bs) as [|b es IH]; cbn [flat_map]; [constructor|].
  rewrite put_data8. wfs. exact IH.
Qed.

Lemma wf_chunks a ty s cs : len (s_raw s) < 2 ^ 30 -> write_chunks a ty s = Ok cs -> Forall wfc cs.
Proof.
  intros Hr. unfold write_chunks.
  destruct (negb _); [intros H; apply Ok_inj in H; subst; constructor|].
  destruct (sample_fields ty (at_sample_type a)) as [f| | | |]; cbn [obind]; try discriminate.
  unfold write_first. cbv zeta.
  assert (W2 : Forall wfc (write_second f s)) by (unfold write_second; wfs).
  assert (W3 : Forall wfc (write_third f s)) by (unfold write_third; wfs).
  destruct (if N.testbit f B_BRANCH_STACK then write_branch s else Ok []) as [br| | | |] eqn:Eb;
    cbn [obind]; try discriminate.
  assert (Wb : Forall wfc br).
  { destruct (N.testbit f B_BRANCH_STACK); [now apply (wf_branch s)|]. apply Ok_inj in Eb. subst. constructor. }
  set (first := when _ _ ++ _).
  assert (W1 : Forall wfc first).
  { unfold first. wfs; try exact Wb; try apply wf_read; try apply wf_callchain. }
  clearbody first.
  destruct (N.testbit f B_REGS_USER || N.testbit f B_STACK_USER).
  { intros H. apply Ok_inj in H. now subst. }
  destruct (N.testbit f B_REGS_INTR); intros H; apply Ok_inj in H; subst;
    repeat (assumption || (apply Forall_app; split)).
Qed.

(** ** Fields of an event *)
Lemma mask_bits b :
  N.testbit (2 ^ B_TID + 2 ^ B_TIME + 2 ^ B_ID + 2 ^ B_STREAM_ID + 2 ^ B_CPU + 2 ^ B_IDENTIFIER) b
  = existsb (N.eqb b) sample_id_bits.
Proof.
  destruct (N.lt_ge_cases b 17) as [H|H].
  - assert (G : forallb (fun i => Bool.eqb
      (N.testbit (2 ^ B_TID + 2 ^ B_TIME + 2 ^ B_ID + 2 ^ B_STREAM_ID + 2 ^ B_CPU + 2 ^ B_IDENTIFIER) (N.of_nat i))
      (existsb (N.eqb (N.of_nat i)) sample_id_bits)) (List.seq 0 17) = true) by (vm_compute; reflexivity).
    rewrite forallb_forall in G. specialize (G (N.to_nat b) ltac:(apply in_seq; lia)).
    rewrite N2Nat.id in G. now apply eqb_prop in G.
  - rewrite (bits_lt_pow2 _ 17 b) by (auto; vm_compute; reflexivity).
    symmetry. apply not_true_is_false. intros E. apply existsb_exists in E.
    destruct E as (x & Hx & E). apply N.eqb_eq in E. subst x. cbn in Hx.
    unfold B_TID, B_TIME, B_ID, B_STREAM_ID, B_CPU, B_IDENTIFIER in Hx. lia.
Qed.

Definition reads_something (a : attr) (ty : N) : bool := (ty =? R_SAMPLE) || at_sample_id_all a.

Lemma fields_ok a ty :
  supported_type ty = true -> reads_something a ty = true -> at_sample_type a < two64 ->
  exists f, sample_fields ty (at_sample_type a) = Ok f /\
    (forall b, b < 64 -> N.testbit f b = carries a ty b) /\
    (readable a ty -> f < 2 ^ 25).
Proof.
  intros Hs Hr Hw. unfold sample_fields, carries, reads_something in *.
  destruct (existsb (N.eqb ty) [R_MMAP; R_LOST; R_COMM; R_EXIT; R_THROTTLE; R_UNTHROTTLE; R_FORK; R_MMAP2;
        R_KSYMBOL; R_BPF_METADATA; R_AUX; R_ITRACE_START; R_LOST_SAMPLES; R_SWITCH;
        R_SWITCH_CPU_WIDE; R_NAMESPACES; R_CGROUP]) eqn:E.
  - assert (E9 : (ty =? R_SAMPLE) = false).
    { destruct (N.eqb_spec ty R_SAMPLE) as [->|]; [vm_compute in E; discriminate|reflexivity]. }
    rewrite E9 in *. cbn [orb] in *. eexists. split; [reflexivity|]. split.
    + intros b _. rewrite N.land_spec, mask_bits, Hr. reflexivity.
    + intros _. apply lt_pow2_bits. intros j Hj. rewrite N.land_spec, mask_bits.
      apply andb_false_iff. right. apply not_true_is_false. intros X. apply existsb_exists in X.
      destruct X as (x & Hx & X). apply N.eqb_eq in X. subst x. cbn in Hx.
      unfold B_TID, B_TIME, B_ID, B_STREAM_ID, B_CPU, B_IDENTIFIER in Hx. lia.
  - destruct (N.eqb_spec ty R_SAMPLE) as [->|Hn].
    + eexists. split; [reflexivity|].
      assert (Em : N.land (at_sample_type a) max64 = at_sample_type a).
      { change max64 with (N.ones 64). rewrite N.land_ones. apply N.mod_small. exact Hw. }
      rewrite Em. split.
      * intros b _. cbn [orb]. now rewrite andb_true_r.
      * intros (_ & H). now apply H.
    + exfalso. unfold supported_type in Hs. cbn [existsb] in Hs, E.
      repeat match goal with
      | H : context [ty =? ?b] |- _ => destruct (N.eqb_spec ty b) as [?|?]; [subst ty; cbn in *; try congruence|]
      end; cbn in *; congruence.
Qed.

Lemma words_cons b l : words (b :: l) = (if b then 1 else 0) + words l.
Proof. unfold words. destruct b; cbn [filter]; [apply len_cons|reflexivity]. Qed.
Lemma words_nil : words [] = 0. Proof. reflexivity. Qed.

Lemma total_when b l : total (when b l) = if b then total l else 0.
Proof. destruct b; reflexivity. Qed.
Lemma total_put64 v l : total (put64 v :: l) = 8 + total l. Proof. reflexivity. Qed.
Lemma total_put32 x y l : total (put32_32 x y :: l) = 8 + total l. Proof. reflexivity. Qed.
Lemma total_map64 l : total (map put64 l) = 8 * len l.
Proof. induction l as [|x l IH]; [reflexivity|]. cbn [map]. rewrite total_put64, IH, len_cons. lia. Qed.

Lemma total_read a s :
  total (write_read a s) =
    (if formats a F_GROUP
     then 8 * (1 + words (map (formats a) [F_TIME_ENABLED; F_TIME_RUNNING])
               + len (group_of s) * (1 + words (map (formats a) [F_ID; F_LOST])))
     else 8 * (1 + words (map (formats a) [F_TIME_ENABLED; F_TIME_RUNNING; F_ID; F_LOST]))).
Proof.
  unfold write_read, formats. cbv zeta. fold (group_of s). cbn [map].
  rewrite !words_cons, words_nil.
  destruct (N.testbit (at_read_format a) F_GROUP).
  - rewrite !total_app, !total_when, !total_put64. cbn [total].
    replace (total (flat_map _ (group_of s))) with
      (len (group_of s) * (8 + (if N.testbit (at_read_format a) F_ID then 8 else 0)
                             + (if N.testbit (at_read_format a) F_LOST then 8 else 0))).
    + destruct (N.testbit (at_read_format a) F_TIME_ENABLED), (N.testbit (at_read_format a) F_TIME_RUNNING),
        (N.testbit (at_read_format a) F_ID), (N.testbit (at_read_format a) F_LOST); lia.
    + induction (group_of s) as [|v vs IH]; [reflexivity|]. cbn [flat_map].
      rewrite !total_app, !total_when, !total_put64, <- IH, len_cons. cbn [total].
      destruct (N.testbit (at_read_format a) F_ID), (N.testbit (at_read_format a) F_LOST); lia.
  - rewrite !total_app, !total_when, !total_put64. cbn [total].
    destruct (N.testbit (at_read_format a) F_TIME_ENABLED), (N.testbit (at_read_format a) F_TIME_RUNNING),
        (N.testbit (at_read_format a) F_ID), (N.testbit (at_read_format a) F_LOST); reflexivity.
Qed.

Lemma total_callchain s : total (write_callchain s) = 8 * (1 + len (chain_of s)).
Proof.
  unfold write_callchain, chain_of. destruct (s_callchain s) as [ips|]; [|reflexivity].
  rewrite total_put64, total_map64. lia.
Qed.

Definition branch_chunks (hw : bool) (s : psample) : list chunk :=
  [put64 (len (branches_of s))] ++ when hw [put64 (hw_idx_of s)]
  ++ flat_map (fun b => [put64 (be_from b); put64 (be_to b); put64 (be_flags b)]) (branches_of s).

Lemma write_branch_eq s no :
  s_no_hw_idx s = Some no -> write_branch s = Ok (branch_chunks (negb no) s).
Proof.
  intros E. unfold write_branch, branch_chunks, branches_of, hw_idx_of. rewrite E.
  destruct (s_branch s) as [bs|]; reflexivity.
Qed.

Lemma total_branch hw s :
  total (branch_chunks hw s) = 8 * (1 + (if hw then 1 else 0) + 3 * len (branches_of s)).
Proof.
  unfold branch_chunks. rewrite !total_app, total_when, !total_put64. cbn [total].
  replace (total (flat_map _ (branches_of s))) with (24 * len (branches_of s)); [destruct hw; lia|].
  induction (branches_of s) as [|b l IH]; [reflexivity|]. cbn [flat_map].
  rewrite total_app, <- IH, len_cons, !total_put64. cbn [total]. lia.
Qed.

(** Everything that is written, when the attribute is one quipper can handle. *)
Definition all_chunks (a : attr) (ty : N) (s : psample) : list chunk :=
  let has := carries a ty in
  when ((ty =? R_SAMPLE) && has B_IDENTIFIER) [put64 (s_id s)]
  ++ when (has B_IP) [put64 (s_ip s)]
  ++ when (has B_TID) [put32_32 (s_pid s) (s_tid s)]
  ++ when (has B_TIME) [put64 (s_time s)]
  ++ when (has B_ADDR) [put64 (s_addr s)]
  ++ when (has B_ID) [put64 (s_id s)]
  ++ when (has B_STREAM_ID) [put64 (s_stream_id s)]
  ++ when (has B_CPU) [put32_32 (s_cpu s) 0]
  ++ when (negb (ty =? R_SAMPLE) && has B_IDENTIFIER) [put64 (s_id s)]
  ++ when (has B_PERIOD) [put64 (s_period s)]
  ++ when (has B_READ) (write_read a s)
  ++ when (has B_CALLCHAIN) (write_callchain s)
  ++ when (has B_RAW) [put_sized (s_raw s)]
  ++ when (has B_BRANCH_STACK) (branch_chunks (N.testbit (at_branch_type a) BR_HW_INDEX) s)
  ++ when (has B_WEIGHT || has B_WEIGHT_STRUCT) [put64 (s_weight s)]
  ++ when (has B_DATA_SRC) [put64 (s_data_src s)]
  ++ when (has B_TRANSACTION) [put64 (s_transaction s)]
  ++ when (has B_PHYS_ADDR) [put64 (s_phys_addr s)]
  ++ when (has B_CGROUP) [put64 (s_cgroup s)]
  ++ when (has B_DATA_PAGE_SIZE) [put64 (s_data_page s)]
  ++ when (has B_CODE_PAGE_SIZE) [put64 (s_code_page s)].

Lemma carries_nothing a ty b : reads_something a ty = false -> carries a ty b = false.
Proof.
  unfold reads_something, carries. intros H. apply orb_false_elim in H as [-> ->].
  cbn. apply andb_false_r.
Qed.

Lemma readable_bits a ty :
  readable a ty ->
  carries a ty B_REGS_USER = false /\ carries a ty B_STACK_USER = false /\
  carries a ty B_REGS_INTR = false /\ (carries a ty B_WEIGHT && carries a ty B_WEIGHT_STRUCT) = false.
Proof.
  intros (_ & H). unfold carries.
  destruct (N.eqb_spec ty R_SAMPLE) as [->|Hn].
  - destruct (H eq_refl) as (_ & -> & -> & -> & E). cbn [orb andb]. rewrite !andb_true_r. auto.
  - cbn [orb]. repeat split.
    all: try (change (existsb (N.eqb _) sample_id_bits) with false; rewrite andb_false_r; apply andb_false_r).
    change (existsb (N.eqb B_WEIGHT) sample_id_bits) with false.
    rewrite andb_false_r, andb_false_r. reflexivity.
Qed.

Lemma write_chunks_eq a ty s :
  supported_type ty = true -> readable a ty -> hw_idx_agrees a ty s ->
  write_chunks a ty s = Ok (all_chunks a ty s).
Proof.
  intros Hs Hr Hh. unfold write_chunks. fold (reads_something a ty).
  destruct (reads_something a ty) eqn:Er; cbn [negb].
  - destruct (fields_ok a ty Hs Er (proj1 Hr)) as (f & -> & Hf & _). cbn [obind].
    unfold write_first, write_second, write_third. cbv zeta.
    rewrite !Hf by reflexivity.
    destruct (readable_bits a ty Hr) as (-> & -> & -> & _). cbn [orb].
    assert (Eb : (if carries a ty B_BRANCH_STACK then write_branch s else Ok [])
                 = Ok (when (carries a ty B_BRANCH_STACK)
                         (branch_chunks (N.testbit (at_branch_type a) BR_HW_INDEX) s))).
    { destruct (carries a ty B_BRANCH_STACK) eqn:E; [|reflexivity].
      rewrite (write_branch_eq s _ (Hh E)), negb_involutive. reflexivity. }
    rewrite Eb. cbn [obind]. unfold all_chunks. cbv zeta. rewrite <- !app_assoc. reflexivity.
  - unfold all_chunks. cbv zeta. rewrite !(carries_nothing a ty) by exact Er.
    rewrite !andb_false_r. reflexivity.
Qed.

Lemma total_all a ty s : len (s_raw s) < 2 ^ 30 -> total (all_chunks a ty s) = field_bytes a ty s.
Proof.
  intros Hr. unfold all_chunks, field_bytes. cbv zeta. cbn [map app].
  rewrite !total_app, !total_when, total_read, total_callchain, total_branch, !total_put64, !total_put32.
  cbn [total map]. rewrite sized_move by exact Hr. rewrite !words_cons, words_nil.
  set (R := if formats a F_GROUP then _ else _). clearbody R.
  set (C := 8 * (1 + len (chain_of s))). set (B := 8 * (1 + _ + 3 * _)).
  set (W := 8 * ((4 + _ + 7) / 8)). clearbody C B W.
  assert (X : (if (ty =? R_SAMPLE) && carries a ty B_IDENTIFIER then 8 + 0 else 0)
            + (if negb (ty =? R_SAMPLE) && carries a ty B_IDENTIFIER then 8 + 0 else 0)
            = 8 * (if carries a ty B_IDENTIFIER then 1 else 0)).
  { destruct (ty =? R_SAMPLE), (carries a ty B_IDENTIFIER); reflexivity. }
  set (x1 := if (ty =? R_SAMPLE) && carries a ty B_IDENTIFIER then 8 + 0 else 0) in *.
  set (x2 := if negb (ty =? R_SAMPLE) && carries a ty B_IDENTIFIER then 8 + 0 else 0) in *.
  clearbody x1 x2.
  assert (Y : forall b : bool, (if b then 8 + 0 else 0) = 8 * (if b then 1 else 0)) by (intros []; reflexivity).
  rewrite !Y. clear Y.
  assert (Z : forall b : bool, (if b then W + 0 else 0) = (if b then W else 0)) by (intros []; lia).
  rewrite !Z. clear Z.
  repeat match goal with |- context [if ?b then 1 else 0] =>
    let v := fresh "v" in set (v := if b then 1 else 0) in *; clearbody v end.
  repeat match goal with |- context [if ?b then ?x else 0] =>
    let v := fresh "v" in set (v := if b then x else 0) in *; clearbody v end.
  lia.
Qed.

(** ** Writing into an event *)
Definition short_arrays (s : psample) : Prop :=
  len (s_raw s) < 2 ^ 30 /\ len (chain_of s) < 2 ^ 32 /\ len (group_of s) < 2 ^ 32 /\
  len (branches_of s) < 2 ^ 32.

Lemma sample_ok_short s : sample_ok s -> short_arrays s.
Proof. unfold sample_ok, short_arrays. tauto. Qed.

Lemma total_read_bound a s : len (group_of s) < 2 ^ 32 -> total (write_read a s) < 2 ^ 40.
Proof.
  intros H. rewrite total_read. cbn [map]. rewrite !words_cons, words_nil.
  destruct (formats a F_GROUP), (formats a F_TIME_ENABLED), (formats a F_TIME_RUNNING),
    (formats a F_ID), (formats a F_LOST); lia.
Qed.

Lemma total_when_le b l : total (when b l) <= total l.
Proof. destruct b; cbn; lia. Qed.

Lemma total_bound a ty s cs : short_arrays s -> write_chunks a ty s = Ok cs -> total cs < 2 ^ 44.
Proof.
  intros (Hr & Hc & Hg & Hb). unfold write_chunks.
  destruct (negb _); [intros H; apply Ok_inj in H; subst; reflexivity|].
  destruct (sample_fields ty (at_sample_type a)) as [f| | | |]; cbn [obind]; try discriminate.
  unfold write_first. cbv zeta.
  assert (W2 : total (write_second f s) <= 24).
  { unfold write_second. rewrite !total_app, !total_when. cbn [total put64 ck_move].
    repeat match goal with |- context [if ?b then _ else 0] =>
      let v := fresh in set (v := if b then _ else 0);
      assert (v <= 8) by (unfold v; destruct b; cbn; lia); clearbody v end. lia. }
  assert (W3 : total (write_third f s) <= 32).
  { unfold write_third. rewrite !total_app, !total_when. cbn [total put64 ck_move].
    repeat match goal with |- context [if ?b then _ else 0] =>
      let v := fresh in set (v := if b then _ else 0);
      assert (v <= 8) by (unfold v; destruct b; cbn; lia); clearbody v end. lia. }
  destruct (if N.testbit f B_BRANCH_STACK then write_branch s else Ok []) as [br| | | |] eqn:Eb;
    cbn [obind]; try discriminate.
  assert (Wb : total br <= 8 * (2 + 3 * len (branches_of s))).
  { destruct (N.testbit f B_BRANCH_STACK); [|apply Ok_inj in Eb; subst; cbn [total]; lia].
    destruct (s_no_hw_idx s) as [no|] eqn:En; [|unfold write_branch in Eb; rewrite En in Eb; discriminate].
    rewrite (write_branch_eq s no En) in Eb. apply Ok_inj in Eb. subst br. rewrite total_branch.
    destruct no; cbn [negb]; lia. }
  set (first := when _ _ ++ _).
  assert (W1 : total first < 2 ^ 43).
  { unfold first. rewrite !total_app.
    assert (X1 := total_read_bound a s Hg). assert (X2 := total_callchain s).
    assert (X3 := sized_move (s_raw s) Hr).
    assert (Y : forall b v, total (when b [put64 v]) <= 8) by (intros [] v; cbn; lia).
    assert (Y' : forall b v v', total (when b [put32_32 v v']) <= 8) by (intros [] v v'; cbn; lia).
    assert (Z1 := total_when_le (N.testbit f B_READ) (write_read a s)).
    assert (Z2 := total_when_le (N.testbit f B_CALLCHAIN) (write_callchain s)).
    assert (Z3 := total_when_le (N.testbit f B_RAW) [put_sized (s_raw s)]).
    cbn [total] in Z3.
    repeat match goal with |- context [total (when ?b [put64 ?v])] =>
      let q := fresh "q" in let h := fresh "h" in
      assert (h := Y b v); set (q := total (when b [put64 v])) in *; clearbody q end.
    repeat match goal with |- context [total (when ?b [put32_32 ?v ?w])] =>
      let q := fresh "q" in let h := fresh "h" in
      assert (h := Y' b v w); set (q := total (when b [put32_32 v w])) in *; clearbody q end.
    lia. }
  clearbody first.
  destruct (N.testbit f B_REGS_USER || N.testbit f B_STACK_USER).
  { intros H. apply Ok_inj in H. subst. lia. }
  destruct (N.testbit f B_REGS_INTR); intros H; apply Ok_inj in H; subst; rewrite !total_app; lia.
Qed.

Lemma write_ok a s e off cs :
  raw_event e -> len e < two64 -> short_arrays s -> supported_type (ev_type e) = true ->
  event_data_size e = Ok off -> write_chunks a (ev_type e) s = Ok cs ->
  off + total cs <= len e ->
  exists pre old post, e = pre ++ old ++ post /\ len pre = off /\ len old = total cs /\
    write_sample_info a s e = Ok (pre ++ fill cs old ++ post, off + total cs =? ev_size e).
Proof.
  intros He Hl Hs Ht Hd Hc Hfit.
  assert (Hw := wf_chunks a (ev_type e) s cs (proj1 Hs) Hc).
  assert (Hb := total_bound a (ev_type e) s cs Hs Hc).
  destruct (data_size_total e He) as [Hx|(n & fixed & Hx & _ & Hf & Hn & H8)]; [congruence|].
  assert (n = off) by congruence. subst n.
  destruct (split_at e off) as (pre & r & E & Lp); [lia|].
  assert (Lr : len e = len pre + len r) by (rewrite E at 1; apply len_app).
  destruct (split_at r (total cs)) as (old & post & -> & Lo); [lia|].
  exists pre, old, post. repeat split; auto.
  unfold write_sample_info. rewrite Ht. cbn [negb]. rewrite Hd, Hc. cbn [obind].
  replace (8 * (off / 8)) with off by lia. rewrite E at 1. rewrite <- Lp at 1.
  rewrite store_fill by (auto; rewrite <- E; exact Hl).
  cbn [obind]. rewrite chunks_size_total by (unfold two64; lia).
  rewrite <- Lp. replace (sub64 (len pre + total cs) (len pre)) with (total cs).
  2:{ unfold sub64. replace (len pre + total cs + two64 - len pre) with (total cs + 1 * two64) by lia.
      rewrite N.mod_add by discriminate. symmetry. apply N.mod_small. unfold two64; lia. }
  rewrite N.eqb_refl. cbn [negb]. rewrite w64_small; [reflexivity|]. lia.
Qed.

Lemma write_true a s e e' :
  raw_event e -> len e < two64 -> short_arrays s ->
  write_sample_info a s e = Ok (e', true) ->
  supported_type (ev_type e) = true /\
  exists off cs pre old post,
    event_data_size e = Ok off /\ write_chunks a (ev_type e) s = Ok cs /\ Forall wfc cs /\
    off + total cs = ev_size e /\ total cs < 2 ^ 44 /\
    e = pre ++ old ++ post /\ len pre = off /\ len old = total cs /\ e' = pre ++ fill cs old ++ post.
Proof.
  intros He Hl Hs H. assert (H0 := H). unfold write_sample_info in H.
  destruct (supported_type (ev_type e)) eqn:Ht; cbn [negb] in H; [|discriminate].
  split; [reflexivity|].
  destruct (event_data_size e) as [off| | | |] eqn:Hd; try discriminate.
  destruct (write_chunks a (ev_type e) s) as [cs| | | |] eqn:Hc; cbn [obind] in H; try discriminate.
  destruct (store_chunks e (8 * (off / 8)) cs) as [[x pos]| | | |]; cbn [obind] in H; try discriminate.
  destruct (negb (sub64 pos (8 * (off / 8)) =? chunks_size cs)); [discriminate|].
  assert (Hb := total_bound a (ev_type e) s cs Hs Hc).
  assert (Hw := wf_chunks a (ev_type e) s cs (proj1 Hs) Hc).
  destruct (data_size_total e He) as [Hx|(n & fixed & Hx & _ & Hf & Hn & H8)]; [congruence|].
  assert (n = off) by congruence. subst n.
  assert (Hsz := ev_size_bound e (proj1 He)).
  apply Ok_inj in H.
  assert (Heq : (w64 (off + chunks_size cs) =? ev_size e) = true) by congruence.
  rewrite chunks_size_total in Heq by (unfold two64; lia).
  rewrite w64_small in Heq by (unfold two64, two16 in *; lia).
  apply N.eqb_eq in Heq.
  destruct (write_ok a s e off cs He Hl Hs Ht Hd Hc ltac:(destruct He as (_ & _ & ?); lia))
    as (pre & old & post & E & L1 & L2 & E2).
  rewrite H0 in E2. apply Ok_inj in E2. inversion E2 as [[E3 E4]].
  exists off, cs, pre, old, post.
  split; [reflexivity|]. split; [reflexivity|]. split; [exact Hw|]. split; [exact Heq|].
  split; [exact Hb|]. split; [exact E|]. split; [exact L1|]. split; [exact L2|]. reflexivity.
Qed.
