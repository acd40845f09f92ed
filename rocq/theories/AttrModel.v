(** Event attributes as messages (src/quipper/perf_serializer.cc). *)
From Verif Require Import Base BytesModel SampleModel.
Local Open Scope N_scope.

(** perf_data.proto:22-177, PerfEventAttr. Its booleans are kept as one number:
    bit [i] is the field named like bit [i] of the kernel's bit field
    (kernel/perf_event.h:325-369). An unset field reads as 0. *)
Record x_attr := XAttr {
  ea_type : N; ea_size : N; ea_config : N; ea_sample_period : N; ea_sample_freq : N;
  ea_sample_type : N; ea_read_format : N; ea_flags : N; ea_precise_ip : N;
  ea_wakeup_events : N; ea_wakeup_watermark : N; ea_bp_type : N; ea_bp_addr : N; ea_bp_len : N;
  ea_branch : N; ea_regs_user : N; ea_stack_user : N }.

(** The bits with a boolean: 0 to 14, 17 to 29 and 32 (cgroup). bpf_event (30),
    aux_output (31) and task_poke (33) have none. *)
Definition flag_mask : N := (2 ^ 15 - 1) + (2 ^ 30 - 2 ^ 17) + 2 ^ 32.
Definition F_FREQ : N := 10.
Definition F_WATERMARK : N := 14.

Definition attr_num (a : list N) (off n : N) : N := of_le (slice a off n).

(** perf_serializer.cc:180-235, SerializePerfEventAttr of a struct
    perf_event_attr of 96 bytes. The message's freq is tested before it is set,
    its watermark after. *)
Definition ser_attr (a : list N) : x_attr :=
  let unset_freq := false in
  let bits := attr_num a 40 8 in
  let flags := N.land bits flag_mask in
  XAttr (attr_num a 0 4) (attr_num a 4 4) (attr_num a 8 8)
    (if unset_freq then 0 else attr_num a 16 8) (if unset_freq then attr_num a 16 8 else 0)
    (attr_num a 24 8) (attr_num a 32 8) flags (N.shiftr bits 15 mod 4)
    (if N.testbit flags F_WATERMARK then 0 else attr_num a 48 4)
    (if N.testbit flags F_WATERMARK then attr_num a 48 4 else 0)
    (attr_num a 52 4) (attr_num a 56 8) (attr_num a 64 8) (attr_num a 72 8) (attr_num a 80 8)
    (attr_num a 88 4).

(** perf_serializer.cc:237-292, DeserializePerfEventAttr: the struct is zeroed;
    its freq is tested before it is set, its watermark after. *)
Definition des_attr (m : x_attr) : list N :=
  let zeroed_freq := false in
  let bits := N.lor (N.land (ea_flags m) flag_mask) (N.shiftl (ea_precise_ip m mod 4) 15) in
  le_bytes 4 (ea_type m) ++ le_bytes 4 (ea_size m) ++ le_bytes 8 (ea_config m) ++
  le_bytes 8 (if zeroed_freq then ea_sample_freq m else ea_sample_period m) ++
  le_bytes 8 (ea_sample_type m) ++ le_bytes 8 (ea_read_format m) ++ le_bytes 8 bits ++
  le_bytes 4 (if N.testbit bits F_WATERMARK then ea_wakeup_watermark m else ea_wakeup_events m) ++
  le_bytes 4 (ea_bp_type m) ++ le_bytes 8 (ea_bp_addr m) ++ le_bytes 8 (ea_bp_len m) ++
  le_bytes 8 (ea_branch m) ++ le_bytes 8 (ea_regs_user m) ++ le_bytes 4 (ea_stack_user m) ++
  le_bytes 4 0.

(** perf_data.proto:181-186, PerfFileAttr. *)
Record x_fattr := XFAttr { fx_attr : x_attr; fx_ids : list N }.

(** What a SampleInfoReader uses of an attribute: sample_type at 24, read_format
    at 32, branch_sample_type at 72, sample_id_all (bit 18 of the bit field). *)
Definition raw_attr (a : list N) : attr :=
  mkAttr (attr_num a 24 8) (attr_num a 32 8) (attr_num a 72 8) (N.testbit (attr_num a 40 8) 18).
