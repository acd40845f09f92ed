(** What a struct perf_event_attr of the kernel and a message about it have in
    common (kernel/perf_event.h:300-407): the offsets and widths of its members. *)
From Verif Require Import Base BytesModel SampleModel AttrModel.
Local Open Scope N_scope.

(** The number of [n] bytes at [off]. *)
Definition member (a : list N) (off n : N) : N := of_le (slice a off n).
Definition bit_field (a : list N) (i : N) : bool := N.testbit (member a 40 8) i.

(** A struct: 96 bytes. *)
Definition is_attr (a : list N) : Prop := length a = 96%nat /\ bytes_ok a = true.

(** The bits that a message keeps: all known ones but bpf_event (30), aux_output
    (31) and task_poke (33). *)
Definition kept_bit (i : N) : Prop := i < 30 \/ i = 32.

(** The message says what the struct says. The period or frequency is in
    sample_period whatever freq says; the wake-up value is in the field that
    watermark (bit 14) selects. *)
Record describes (a : list N) (m : x_attr) : Prop := mkDescribes {
  ds_type : ea_type m = member a 0 4;
  ds_size : ea_size m = member a 4 4;
  ds_config : ea_config m = member a 8 8;
  ds_period : ea_sample_period m = member a 16 8;
  ds_freq : ea_sample_freq m = 0;
  ds_sample_type : ea_sample_type m = member a 24 8;
  ds_read_format : ea_read_format m = member a 32 8;
  ds_flags : forall i, i <> 15 -> i <> 16 ->
    (N.testbit (ea_flags m) i = true <-> kept_bit i /\ bit_field a i = true);
  ds_flags_precise : N.testbit (ea_flags m) 15 = false /\ N.testbit (ea_flags m) 16 = false;
  ds_precise_ip : ea_precise_ip m = N.b2n (bit_field a 15) + 2 * N.b2n (bit_field a 16);
  ds_events : ea_wakeup_events m = if bit_field a 14 then 0 else member a 48 4;
  ds_watermark : ea_wakeup_watermark m = if bit_field a 14 then member a 48 4 else 0;
  ds_bp_type : ea_bp_type m = member a 52 4;
  ds_bp_addr : ea_bp_addr m = member a 56 8;
  ds_bp_len : ea_bp_len m = member a 64 8;
  ds_branch : ea_branch m = member a 72 8;
  ds_regs : ea_regs_user m = member a 80 8;
  ds_stack : ea_stack_user m = member a 88 4 }.

(** The same struct but for the bits and the padding that a message does not have. *)
Record kept_attr (a b : list N) : Prop := mkKept {
  kp_length : length b = 96%nat;
  kp_before : firstn 40 b = firstn 40 a;
  kp_bits : forall i, bit_field b i = true <-> kept_bit i /\ bit_field a i = true;
  kp_behind : slice b 48 44 = slice a 48 44;
  kp_padding : member b 92 4 = 0 }.

(** Nothing is in the bits and in the padding that a message does not have. *)
Definition covered (a : list N) : Prop :=
  (forall i, bit_field a i = true -> kept_bit i) /\ member a 92 4 = 0.

(** A message whose values are those of some struct: numbers in range, no boolean
    that does not exist, no frequency, and of the two wake-up values only the one
    that watermark selects. *)
Record message_ok (m : x_attr) : Prop := mkMessageOk {
  mo_words : ea_type m < 2 ^ 32 /\ ea_size m < 2 ^ 32 /\ ea_wakeup_events m < 2 ^ 32 /\
             ea_wakeup_watermark m < 2 ^ 32 /\ ea_bp_type m < 2 ^ 32 /\ ea_stack_user m < 2 ^ 32;
  mo_longs : ea_config m < 2 ^ 64 /\ ea_sample_period m < 2 ^ 64 /\ ea_sample_type m < 2 ^ 64 /\
             ea_read_format m < 2 ^ 64 /\ ea_bp_addr m < 2 ^ 64 /\ ea_bp_len m < 2 ^ 64 /\
             ea_branch m < 2 ^ 64 /\ ea_regs_user m < 2 ^ 64;
  mo_flags : forall i, N.testbit (ea_flags m) i = true -> kept_bit i /\ i <> 15 /\ i <> 16;
  mo_precise : ea_precise_ip m < 4;
  mo_freq : ea_sample_freq m = 0;
  mo_wakeup : if N.testbit (ea_flags m) 14 then ea_wakeup_events m = 0 else ea_wakeup_watermark m = 0 }.
