(** Where each field of a sample is in the event: the layout written down in
    include/uapi/linux/perf_event.h, bit numbers and all. Reading back what was
    written (C32) does not say that, as both could use the same wrong order. *)
From Verif Require Import Base BytesModel BytesProofs BytesMoreProofs BufferModel BufferSpec
  BufferProofs EventSizeModel EventSizeSpec EventSizeProofs SampleModel SampleSpec SampleProofs
  SampleReadProofs SampleSafeProofs SampleMainProofs.
Local Open Scope N_scope.

(** *** Specification *)

(** A 64-bit word, and two 32-bit numbers in one, of a little-endian machine. *)
Definition word (v : N) : list N := le_bytes 8 v.
Definition halves (x y : N) : list N := le_bytes 4 x ++ le_bytes 4 y.
Definition if_set (b : bool) (l : list N) : list N := if b then l else [].

(** struct read_format. *)
Definition read_layout (a : attr) (s : psample) : list N :=
  let fmt b := N.testbit (at_read_format a) b in
  let times := if_set (fmt 0) (word (s_time_enabled s)) ++ if_set (fmt 1) (word (s_time_running s)) in
  let id_lost v := if_set (fmt 2) (word (rv_id v)) ++ if_set (fmt 4) (word (rv_lost v)) in
  if fmt 3
  then word (len (group_of s)) ++ times
       ++ flat_map (fun v => word (rv_value v) ++ id_lost v) (group_of s)
  else word (rv_value (s_one s)) ++ times ++ id_lost (s_one s).

(** The fields of an event of type [ty] in order, [pad] being what follows the raw
    bytes up to the next word. Records other than samples (type 9) only have the
    fields of a sample id, with the identifier last and not first. *)
Definition layout (a : attr) (ty : N) (s : psample) (pad : list N) : list N :=
  let asked b := N.testbit (at_sample_type a) b in
  let smp := ty =? 9 in
  let both b := asked b && (smp || at_sample_id_all a) in
  let only b := asked b && smp in
  concat [
    if_set (only 16) (word (s_id s));
    if_set (only 0) (word (s_ip s));
    if_set (both 1) (halves (s_pid s) (s_tid s));
    if_set (both 2) (word (s_time s));
    if_set (only 3) (word (s_addr s));
    if_set (both 6) (word (s_id s));
    if_set (both 9) (word (s_stream_id s));
    if_set (both 7) (halves (s_cpu s) 0);
    if_set (negb smp && both 16) (word (s_id s));
    if_set (only 8) (word (s_period s));
    if_set (only 4) (read_layout a s);
    if_set (only 5) (word (len (chain_of s)) ++ flat_map word (chain_of s));
    if_set (only 10) (le_bytes 4 (len (s_raw s)) ++ s_raw s ++ pad);
    if_set (only 11) (word (len (branches_of s))
                      ++ if_set (N.testbit (at_branch_type a) 17) (word (hw_idx_of s))
                      ++ flat_map (fun b => word (be_from b) ++ word (be_to b) ++ word (be_flags b))
                           (branches_of s));
    if_set (only 14 || only 24) (word (s_weight s));
    if_set (only 15) (word (s_data_src s));
    if_set (only 17) (word (s_transaction s));
    if_set (only 19) (word (s_phys_addr s));
    if_set (only 21) (word (s_cgroup s));
    if_set (only 22) (word (s_data_page s));
    if_set (only 23) (word (s_code_page s)) ].

(** [pad] fills the raw bytes, with their length in front, up to a whole word. *)
Definition fills_word (s : psample) (pad : list N) : Prop :=
  len pad < 8 /\ (4 + len (s_raw s) + len pad) mod 8 = 0.

(** *** Proofs *)

Definition plain (c : chunk) : Prop := len (ck_bytes c) = ck_move c.

Lemma image_plain cs d : Forall plain cs -> image cs d -> d = flat_map ck_bytes cs.
Proof.
  intros Hp Hi. induction Hi as [|c cs d1 d2 (pad & E & L) _ IH]; [reflexivity|].
  inversion_clear Hp as [|? ? Hc Hp']. cbn [flat_map]. rewrite <- IH by exact Hp'. f_equal.
  subst d1. rewrite len_app in L. unfold plain in Hc. destruct pad; [apply app_nil_r|].
  rewrite len_cons in L. lia.
Qed.

Lemma plain64 v : plain (put64 v). Proof. apply len_le_bytes. Qed.
Lemma plain32 x y : plain (put32_32 x y).
Proof. unfold plain. cbn [put32_32 ck_bytes ck_move]. now rewrite len_app, !len_le_bytes. Qed.
Lemma plain1 v : Forall plain [put64 v]. Proof. constructor; [apply plain64|constructor]. Qed.
Lemma plain_when b l : Forall plain l -> Forall plain (when b l).
Proof. destruct b; [auto|constructor]. Qed.
Lemma plain_flat {A} (g : A -> list chunk) l : (forall x, Forall plain (g x)) -> Forall plain (flat_map g l).
Proof. intros H. induction l; cbn [flat_map]; [constructor|]. apply Forall_app; split; auto. Qed.

Lemma plain_read a s : Forall plain (write_read a s).
Proof.
  unfold write_read. cbv zeta. destruct (N.testbit (at_read_format a) F_GROUP);
    repeat (apply Forall_app; split); try (apply plain_when); try apply plain1.
  apply plain_flat. intros v. repeat (apply Forall_app; split); try (apply plain_when); apply plain1.
Qed.
Lemma plain_callchain s : Forall plain (write_callchain s).
Proof.
  unfold write_callchain. destruct (s_callchain s) as [l|]; [|apply plain1].
  constructor; [apply plain64|]. induction l; cbn [map]; constructor; auto using plain64.
Qed.
Lemma plain_branch hw s : Forall plain (branch_chunks hw s).
Proof.
  unfold branch_chunks. repeat (apply Forall_app; split); try (apply plain_when); try apply plain1.
  apply plain_flat. intros b. repeat (constructor; [apply plain64|]). constructor.
Qed.

Lemma bytes_app x y : flat_map ck_bytes (x ++ y) = flat_map ck_bytes x ++ flat_map ck_bytes y.
Proof. apply flat_map_app. Qed.
Lemma bytes_when b l : flat_map ck_bytes (when b l) = if_set b (flat_map ck_bytes l).
Proof. destruct b; reflexivity. Qed.
Lemma bytes_64 v : flat_map ck_bytes [put64 v] = word v.
Proof. cbn [flat_map put64 ck_bytes]. apply app_nil_r. Qed.
Lemma bytes_32 x y : flat_map ck_bytes [put32_32 x y] = halves x y.
Proof. cbn [flat_map put32_32 ck_bytes]. apply app_nil_r. Qed.
Lemma bytes_flat {A} (g : A -> list chunk) (h : A -> list N) l :
  (forall x, flat_map ck_bytes (g x) = h x) -> flat_map ck_bytes (flat_map g l) = flat_map h l.
Proof.
  intros H. induction l; cbn [flat_map]; [reflexivity|]. now rewrite bytes_app, H, IHl.
Qed.

Lemma bytes_read a s : flat_map ck_bytes (write_read a s) = read_layout a s.
Proof.
  unfold write_read, read_layout. cbv zeta. fold (group_of s).
  change F_GROUP with 3. change F_TIME_ENABLED with 0. change F_TIME_RUNNING with 1.
  change F_ID with 2. change F_LOST with 4.
  destruct (N.testbit (at_read_format a) 3).
  - rewrite !bytes_app, !bytes_when, !bytes_64, <- !app_assoc. do 3 f_equal.
    apply bytes_flat. intros v. now rewrite !bytes_app, !bytes_when, !bytes_64.
  - rewrite !bytes_app, !bytes_when, !bytes_64, <- !app_assoc. reflexivity.
Qed.
Lemma bytes_callchain s :
  flat_map ck_bytes (write_callchain s) = word (len (chain_of s)) ++ flat_map word (chain_of s).
Proof.
  unfold write_callchain, chain_of. destruct (s_callchain s) as [l|]; [|reflexivity].
  cbn [flat_map]. f_equal. induction l; cbn [map flat_map]; [reflexivity|]. now rewrite IHl.
Qed.
Lemma bytes_branch hw s :
  flat_map ck_bytes (branch_chunks hw s)
  = word (len (branches_of s)) ++ if_set hw (word (hw_idx_of s))
    ++ flat_map (fun b => word (be_from b) ++ word (be_to b) ++ word (be_flags b)) (branches_of s).
Proof.
  unfold branch_chunks. rewrite !bytes_app, !bytes_when, !bytes_64. do 2 f_equal.
  apply bytes_flat. intros b. cbn [flat_map put64 ck_bytes]. now rewrite app_nil_r.
Qed.

Lemma carries_both a ty b :
  existsb (N.eqb b) sample_id_bits = true ->
  carries a ty b = N.testbit (at_sample_type a) b && ((ty =? 9) || at_sample_id_all a).
Proof. intros H. unfold carries. rewrite H, andb_true_r. reflexivity. Qed.
Lemma carries_only a ty b :
  existsb (N.eqb b) sample_id_bits = false ->
  carries a ty b = N.testbit (at_sample_type a) b && (ty =? 9).
Proof. intros H. unfold carries. rewrite H, andb_false_r, orb_false_r. reflexivity. Qed.

Lemma image_layout a ty s d :
  len (s_raw s) < 2 ^ 30 -> image (all_chunks a ty s) d ->
  exists pad, fills_word s pad /\ d = layout a ty s pad.
Proof.
  intros Hr Hi. unfold all_chunks in Hi. cbv zeta in Hi.
  do 11 (rewrite app_assoc in Hi).
  match type of Hi with image (?x ++ when ?b [put_sized ?r] ++ ?y) _ =>
    set (first := x) in *; set (last := y) in * end.
  apply image_app in Hi as (d1 & d2 & -> & I1 & I2).
  apply image_app in I2 as (d3 & d4 & -> & I3 & I4).
  assert (P1 : Forall plain first).
  { unfold first. repeat (apply Forall_app; split); apply plain_when;
      auto using plain1, plain_read, plain_callchain; (constructor; [apply plain32|constructor]). }
  assert (P2 : Forall plain last).
  { unfold last. repeat (apply Forall_app; split); apply plain_when; auto using plain1, plain_branch. }
  apply image_plain in I1; [|exact P1]. apply image_plain in I4; [|exact P2].
  assert (I3' : exists pad, fills_word s pad /\
    d3 = if_set (carries a ty B_RAW) (le_bytes 4 (len (s_raw s)) ++ s_raw s ++ pad)).
  { destruct (carries a ty B_RAW); cbn [when if_set] in *.
    - apply image_one in I3 as (pad & -> & L). exists pad.
      rewrite sized_move in L by exact Hr. cbn [put_sized ck_bytes] in *.
      rewrite !len_app, len_le_bytes in L. change (N.of_nat 4) with 4 in L.
      split; [unfold fills_word; split; lia|]. unfold put_sized. cbn [ck_bytes].
      rewrite <- app_assoc. f_equal.
    - inversion I3. exists (repeat 0 (N.to_nat (8 * ((4 + len (s_raw s) + 7) / 8) - 4 - len (s_raw s)))).
      split; [|reflexivity]. unfold fills_word, len. rewrite repeat_length, N2Nat.id. fold (len (s_raw s)).
      split; lia. }
  clear I3. destruct I3' as (pad & Hf & ->). exists pad. split; [exact Hf|]. subst d1 d4.
  unfold first, last. rewrite !bytes_app, !bytes_when, bytes_read, bytes_callchain, bytes_branch, !bytes_64, !bytes_32.
  unfold layout. cbv zeta. cbn [concat]. rewrite app_nil_r, <- !app_assoc.
  rewrite !(carries_both a ty B_TID), !(carries_both a ty B_TIME), !(carries_both a ty B_ID),
    !(carries_both a ty B_STREAM_ID), !(carries_both a ty B_CPU), !(carries_both a ty B_IDENTIFIER) by reflexivity.
  rewrite !carries_only by reflexivity.
  replace ((ty =? R_SAMPLE) && (N.testbit (at_sample_type a) B_IDENTIFIER && ((ty =? 9) || at_sample_id_all a)))
    with (N.testbit (at_sample_type a) 16 && (ty =? 9)).
  2:{ change R_SAMPLE with 9. change B_IDENTIFIER with 16.
      destruct (ty =? 9), (N.testbit (at_sample_type a) 16); reflexivity. }
  reflexivity.
Qed.

(** *** C33: each field is written at its place *)
Theorem C33_layout : forall a s e off n,
  raw_event e -> len e < two64 -> sample_ok s -> supported_type (ev_type e) = true ->
  readable a (ev_type e) -> hw_idx_agrees a (ev_type e) s ->
  event_data_size e = Ok off -> sample_data_size a s (ev_type e) = Ok n -> off + n <= len e ->
  exists pre old post pad, e = pre ++ old ++ post /\ len pre = off /\ len old = n /\
    fills_word s pad /\
    write_sample_info a s e = Ok (pre ++ layout a (ev_type e) s pad ++ post, off + n =? ev_size e).
Proof.
  intros a s e off n He Hl Hs Ht Hr Hh Hd Hn Hfit. assert (Hc := write_chunks_eq a _ s Ht Hr Hh).
  assert (Hsh := sample_ok_short s Hs).
  assert (n = total (all_chunks a (ev_type e) s)).
  { rewrite (data_size a s _ Ht Hr Hh Hs) in Hn. apply Ok_inj in Hn. rewrite <- Hn. symmetry. apply total_all.
    apply Hsh. }
  subst n. destruct (write_ok a s e off _ He Hl Hsh Ht Hd Hc Hfit) as (pre & old & post & E & L1 & L2 & E2).
  assert (Hw := wf_chunks a (ev_type e) s _ (proj1 Hsh) Hc).
  destruct (image_layout a (ev_type e) s _ (proj1 Hsh) (fill_image _ old Hw L2)) as (pad & Hp & El).
  exists pre, old, post, pad. split; [exact E|]. split; [exact L1|]. split; [exact L2|].
  split; [exact Hp|]. rewrite <- El. exact E2.
Qed.
Print Assumptions C33_layout.

(** *** C34: each field is read from its place *)

(** Reading succeeds only if the rest of the event is laid out so, and gives the
    sample that is there (with the conditions of C32_write_back). *)
Theorem C34_layout : forall a e s,
  raw_event e -> at_sample_type a < two64 ->
  read_sample_info a false e fresh_sample = Ok s ->
  (carries a (ev_type e) B_ID && carries a (ev_type e) B_IDENTIFIER) = false ->
  (forall off, event_data_size e = Ok off -> carries a (ev_type e) B_CPU = true ->
   slice e (off + cpu_word a (ev_type e) + 4) 4 = [0; 0; 0; 0]) ->
  exists pre pad post, fills_word s pad /\ event_data_size e = Ok (len pre) /\
    e = pre ++ layout a (ev_type e) s pad ++ post /\
    len pre + len (layout a (ev_type e) s pad) = ev_size e.
Proof.
  intros a e s He Ha Hrd Hid Hcpu. assert (G := read_anything a false e He Ha). rewrite Hrd in G.
  destruct G as (Ht & off & pre & d & post & Hd & E & Lp & Hsz & Hfb & Hok & Hh & Hr & _ & _ & _ & _ & Him).
  assert (Im : image (all_chunks a (ev_type e) s) d).
  { apply Him; auto. intros C. specialize (Hcpu off Hd C).
    assert (X := cpu_word_inside a _ s C). rewrite <- Hcpu.
    rewrite <- (slice_inner pre d post) by lia. rewrite <- E, Lp. f_equal. lia. }
  destruct (image_layout a (ev_type e) s d (proj1 (sample_ok_short s Hok)) Im) as (pad & Hp & El).
  exists pre, pad, post. rewrite <- El, Lp. auto.
Qed.
Print Assumptions C34_layout.

(** *** The hypotheses are met *)

(** A sample with an address, a time, raw bytes and a weight, in words. *)
Definition ip_raw_attr : attr := mkAttr (1 + 2 + 4 + 8 + 1024 + 16384) 0 0 false.
Definition ip_raw_event : list N :=
  [9;0;0;0; 2;0; 64;0] ++ word 0x401234 ++ halves 10 11 ++ word 99 ++ word 0x7000
  ++ [5;0;0;0; 1;2;3;4;5; 0xaa;0xbb;0xcc;0xdd;0xee;0xff;0x99] ++ word 7.
Example C34_layout_hypotheses_met :
  raw_event ip_raw_event /\ event_data_size ip_raw_event = Ok 8 /\
  match read_sample_info ip_raw_attr false ip_raw_event fresh_sample with
  | Ok s => s_ip s = 0x401234 /\ s_pid s = 10 /\ s_tid s = 11 /\ s_time s = 99 /\ s_addr s = 0x7000 /\
      s_raw s = [1;2;3;4;5] /\ s_weight s = 7 /\
      fills_word s [0xaa;0xbb;0xcc;0xdd;0xee;0xff;0x99] /\
      ip_raw_event = [9;0;0;0; 2;0; 64;0] ++ layout ip_raw_attr 9 s [0xaa;0xbb;0xcc;0xdd;0xee;0xff;0x99] /\
      sample_data_size ip_raw_attr s 9 = Ok 56 /\
      write_sample_info ip_raw_attr s ip_raw_event = Ok (ip_raw_event, true)
  | _ => False
  end.
Proof.
  split; [split; [vm_compute; reflexivity|split; vm_compute; discriminate]|].
  split; [vm_compute; reflexivity|]. vm_compute. repeat split.
Qed.
