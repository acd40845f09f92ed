(** Sample fields of events: C32, C33, C34. *)
From Verif Require Import Base BytesModel EventSizeModel EventSizeSpec SampleModel SampleSpec
  SampleMainProofs.
Local Open Scope N_scope.

(** *** C32: sample fields survive being written and read back *)

(** Whatever event a sample was written into successfully, reading that event
    gives the sample back, as far as the event carries it. *)
Theorem C32_roundtrip : forall a s e e',
  raw_event e -> len e < two64 -> sample_ok s -> readable a (ev_type e) ->
  hw_idx_agrees a (ev_type e) s ->
  write_sample_info a s e = Ok (e', true) ->
  exists s', read_sample_info a false e' fresh_sample = Ok s' /\ recovered a (ev_type e) s s'.
Proof. exact roundtrip. Qed.
Print Assumptions C32_roundtrip.

(** Conversely, an event whose sample fields were read is left as it is when they
    are written back, if only one of ID and IDENTIFIER is recorded and the
    reserved half of the CPU word is zero. *)
Theorem C32_write_back : forall a e s,
  raw_event e -> len e < two64 -> at_sample_type a < two64 ->
  read_sample_info a false e fresh_sample = Ok s ->
  (carries a (ev_type e) B_ID && carries a (ev_type e) B_IDENTIFIER) = false ->
  (forall off, event_data_size e = Ok off -> carries a (ev_type e) B_CPU = true ->
   slice e (off + cpu_word a (ev_type e) + 4) 4 = [0; 0; 0; 0]) ->
  write_sample_info a s e = Ok (e, true).
Proof. exact rewrite_same. Qed.
Print Assumptions C32_write_back.

(** Both conditions are needed. *)
Definition both_ids : list N := [9;0;0;0; 0;0; 24;0;  1;0;0;0;0;0;0;0;  2;0;0;0;0;0;0;0].
Definition odd_cpu : list N := [9;0;0;0; 0;0; 16;0;  3;0;0;0; 7;0;0;0].
Theorem C32_write_back_refuted :
  (exists s e', read_sample_info (mkAttr (2 ^ B_ID + 2 ^ B_IDENTIFIER) 0 0 true) false both_ids fresh_sample = Ok s /\
     write_sample_info (mkAttr (2 ^ B_ID + 2 ^ B_IDENTIFIER) 0 0 true) s both_ids = Ok (e', true) /\ e' <> both_ids) /\
  (exists s e', read_sample_info (mkAttr (2 ^ B_CPU) 0 0 true) false odd_cpu fresh_sample = Ok s /\
     write_sample_info (mkAttr (2 ^ B_CPU) 0 0 true) s odd_cpu = Ok (e', true) /\ e' <> odd_cpu).
Proof.
  split; (eexists; eexists; split; [vm_compute; reflexivity|]; split; [vm_compute; reflexivity|]; discriminate).
Qed.
Print Assumptions C32_write_back_refuted.

(** *** C33: the announced size is the written size *)

Theorem C33_size : forall a s ty,
  supported_type ty = true -> readable a ty -> hw_idx_agrees a ty s -> sample_ok s ->
  sample_data_size a s ty = Ok (field_bytes a ty s).
Proof. exact data_size. Qed.
Print Assumptions C33_size.

(** Writing changes just that many bytes, behind the event's own data, and says
    whether they end where the event does. *)
Theorem C33_written : forall a s e off n,
  raw_event e -> len e < two64 -> sample_ok s -> supported_type (ev_type e) = true ->
  readable a (ev_type e) -> hw_idx_agrees a (ev_type e) s ->
  event_data_size e = Ok off -> sample_data_size a s (ev_type e) = Ok n -> off + n <= len e ->
  exists pre old new post, e = pre ++ old ++ post /\ len pre = off /\ len old = n /\ len new = n /\
    write_sample_info a s e = Ok (pre ++ new ++ post, off + n =? ev_size e).
Proof. exact written. Qed.
Print Assumptions C33_written.

(** An event of a type that has no sample fields, or whose own size cannot be
    told, is refused untouched. *)
Theorem C33_refused : forall a s e,
  supported_type (ev_type e) = false \/ event_data_size e = Fail ->
  write_sample_info a s e = Ok (e, false).
Proof.
  intros a s e H. unfold write_sample_info.
  destruct (supported_type (ev_type e)); cbn [negb]; [|reflexivity].
  destruct H as [H|H]; [discriminate|]. now rewrite H.
Qed.
Print Assumptions C33_refused.

(** Nothing keeps a larger sample inside the event: it is stored before the sizes
    are compared. *)
Definition bare_sample : list N := [9;0;0;0; 0;0; 8;0].
Theorem C33_overrun_refuted : exists a s e,
  raw_event e /\ sample_ok s /\ readable a (ev_type e) /\ hw_idx_agrees a (ev_type e) s /\
  write_sample_info a s e = UB.
Proof.
  exists (mkAttr (2 ^ B_IP) 0 0 true), fresh_sample, bare_sample.
  split; [repeat split; discriminate|].
  split; [repeat split; try reflexivity; repeat constructor|].
  split; [split; [reflexivity|intros _; repeat split; reflexivity]|].
  split; [intros H; vm_compute in H; discriminate|].
  vm_compute; reflexivity.
Qed.
Print Assumptions C33_overrun_refuted.

(** Asking for the size of a new sample with a branch stack reads a member nobody
    has set; asking for an event type without sample fields ends the program. *)
Theorem C33_uninitialised_refuted :
  sample_data_size (mkAttr (2 ^ B_BRANCH_STACK) 0 0 true) fresh_sample R_SAMPLE = UB /\
  sample_data_size (mkAttr (2 ^ B_TIME) 0 0 true) fresh_sample R_AUXTRACE = Abort.
Proof. split; vm_compute; reflexivity. Qed.
Print Assumptions C33_uninitialised_refuted.

(** *** C34: reading sample fields is safe and exact *)

(** On any event, in either byte order, reading into a new sample ends normally;
    if it succeeds, the sample accounts for every byte between the event's own
    data and its end, and its arrays are no longer than the event. *)
Theorem C34_safe_and_exact : forall a swap e,
  raw_event e -> at_sample_type a < two64 ->
  match read_sample_info a swap e fresh_sample with
  | Ok s => supported_type (ev_type e) = true /\ readable a (ev_type e) /\
      (exists off, event_data_size e = Ok off /\ off + field_bytes a (ev_type e) s = ev_size e) /\
      sample_ok s /\ hw_idx_agrees a (ev_type e) s /\
      len (s_raw s) <= ev_size e /\ len (chain_of s) <= ev_size e /\
      len (group_of s) <= ev_size e /\ len (branches_of s) <= ev_size e
  | Fail => True
  | Abort | UB | Hang => False
  end.
Proof.
  intros a swap e He Ha. assert (G := read_anything a swap e He Ha).
  destruct (read_sample_info a swap e fresh_sample) as [s| | | |]; auto.
  destruct G as (Ht & off & pre & d & post & Hd & E & Lp & Hsz & Hfb & Hok & Hh & Hr & A1 & A2 & A3 & A4 & _).
  split; [exact Ht|]. split; [exact Hr|]. split; [exists off; split; [exact Hd|]; now rewrite <- Hfb|]. auto 10.
Qed.
Print Assumptions C34_safe_and_exact.

(** Every number a native-order read returns is the bytes of the event at its
    place; the sample fields of the event are the image of the sample. *)
Theorem C34_no_invention : forall a e s,
  raw_event e -> len e < two64 -> at_sample_type a < two64 ->
  read_sample_info a false e fresh_sample = Ok s ->
  (carries a (ev_type e) B_ID && carries a (ev_type e) B_IDENTIFIER) = false ->
  carries a (ev_type e) B_CPU = false ->
  write_sample_info a s e = Ok (e, true).
Proof.
  intros a e s He Hl Ha Hr Hid Hc. apply rewrite_same; auto.
  intros off _ X. rewrite Hc in X. discriminate.
Qed.
Print Assumptions C34_no_invention.

(** A sample that already holds a call chain ends the program. *)
Theorem C34_used_sample_refuted : exists a e s,
  raw_event e /\ read_sample_info a false e fresh_sample = Ok s /\ read_sample_info a false e s = Abort.
Proof.
  exists (mkAttr (2 ^ B_CALLCHAIN) 0 0 true), [9;0;0;0; 0;0; 16;0; 0;0;0;0;0;0;0;0].
  eexists. split; [repeat split; discriminate|]. split; vm_compute; reflexivity.
Qed.
Print Assumptions C34_used_sample_refuted.

(** *** The hypotheses are met *)
Definition full_attr : attr :=
  mkAttr (2 ^ B_IP + 2 ^ B_TID + 2 ^ B_TIME + 2 ^ B_CPU + 2 ^ B_PERIOD + 2 ^ B_READ + 2 ^ B_CALLCHAIN
          + 2 ^ B_RAW + 2 ^ B_BRANCH_STACK + 2 ^ B_WEIGHT_STRUCT + 2 ^ B_IDENTIFIER)
         (2 ^ F_GROUP + 2 ^ F_ID + 2 ^ F_TIME_ENABLED) (2 ^ BR_HW_INDEX) true.
Definition full_sample : psample :=
  mkSample 0x401234 10 11 99 0 5 0 1000 0x123456789 0 3 0 (Some false) [1;2;3]
    (Some [0x401234; 0x400000]) (Some (mkBs 7 [mkBe 16 32 1])) 44 0
    (Some [mkRv 8 9 0; mkRv 10 11 0]) (mkRv 0 0 0) 0 0 0 0.
Definition blank_event : list N :=
  [9;0;0;0; 2;0; 184;0] ++ repeat 0 176.

Example C32_hypotheses_met :
  raw_event blank_event /\ sample_ok full_sample /\ readable full_attr (ev_type blank_event) /\
  hw_idx_agrees full_attr (ev_type blank_event) full_sample /\
  match write_sample_info full_attr full_sample blank_event with
  | Ok (e', b) => b = true /\ read_sample_info full_attr false e' fresh_sample = Ok full_sample /\
      write_sample_info full_attr full_sample e' = Ok (e', true) /\ e' <> blank_event
  | _ => False
  end.
Proof.
  split; [split; [vm_compute; reflexivity|split; vm_compute; discriminate]|].
  split; [repeat split; try reflexivity; repeat constructor|].
  split; [split; [reflexivity|intros _; repeat split; reflexivity]|].
  split; [intros _; reflexivity|].
  vm_compute. repeat split. discriminate.
Qed.

Example C33_hypotheses_met :
  event_data_size blank_event = Ok 8 /\ supported_type (ev_type blank_event) = true /\
  sample_data_size full_attr full_sample (ev_type blank_event) = Ok 176 /\
  field_bytes full_attr R_SAMPLE full_sample = 176.
Proof. repeat split; vm_compute; reflexivity. Qed.

(** A cross-endian MMAP with a sample id. *)
Definition swapped_mmap : list N :=
  [1;0;0;0; 0;0; 64;0] ++ repeat 0 32 ++ [97;0;0;0;0;0;0;0]
  ++ [0;0;0;5; 0;0;0;6] ++ [0;0;0;0;0;0;0;9].
Example C34_hypotheses_met :
  raw_event swapped_mmap /\
  match read_sample_info (mkAttr (2 ^ B_TID + 2 ^ B_TIME + 2 ^ B_IP) 0 0 true) true swapped_mmap fresh_sample with
  | Ok s => s_pid s = 5 /\ s_tid s = 6 /\ s_time s = 9
  | _ => False
  end.
Proof. split; [split; [vm_compute; reflexivity|split; vm_compute; discriminate]|vm_compute; auto]. Qed.
