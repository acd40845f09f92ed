(** Model of the size of the data part of a raw perf event
    (src/quipper/perf_data_utils.cc, GetEventDataSize). A raw event is the
    memory block it was allocated in; its header tells how many of the bytes
    belong to it. *)
From Verif Require Import Base BytesModel.
Local Open Scope N_scope.

(** kernel/perf_event.h, enum perf_event_type, and kernel/perf_internals.h,
    enum perf_user_event_type. *)
Definition R_MMAP : N := 1.
Definition R_LOST : N := 2.
Definition R_COMM : N := 3.
Definition R_EXIT : N := 4.
Definition R_THROTTLE : N := 5.
Definition R_UNTHROTTLE : N := 6.
Definition R_FORK : N := 7.
Definition R_SAMPLE : N := 9.
Definition R_MMAP2 : N := 10.
Definition R_AUX : N := 11.
Definition R_ITRACE_START : N := 12.
Definition R_LOST_SAMPLES : N := 13.
Definition R_SWITCH : N := 14.
Definition R_SWITCH_CPU_WIDE : N := 15.
Definition R_NAMESPACES : N := 16.
Definition R_KSYMBOL : N := 17.
Definition R_CGROUP : N := 19.
Definition R_FINISHED_ROUND : N := 68.
Definition R_ID_INDEX : N := 69.
Definition R_AUXTRACE_INFO : N := 70.
Definition R_AUXTRACE : N := 71.
Definition R_AUXTRACE_ERROR : N := 72.
Definition R_THREAD_MAP : N := 73.
Definition R_STAT_CONFIG : N := 75.
Definition R_STAT : N := 76.
Definition R_STAT_ROUND : N := 77.
Definition R_TIME_CONV : N := 79.
Definition R_BPF_METADATA : N := 84.

(** kernel/perf_event.h, struct perf_event_header: u32 type, u16 misc, u16 size
    at the start of the block. The accesses are plain: every block is at least
    as long as a header (CallocMemoryForEvent callers). *)
Definition ev_type (e : list N) : N := of_le (slice e 0 4).
Definition ev_misc (e : list N) : N := of_le (slice e 4 2).
Definition ev_size (e : list N) : N := of_le (slice e 6 2).

(** A 64-bit member of the event at a fixed offset. *)
Definition ev_u64 (e : list N) (off : N) : outcome N :=
  let! d := mem_read e off 8 in Ok (of_le d).

(** strnlen(event + off, max): bytes are read up to the first NUL or the limit,
    and reading past the block is undefined. *)
Definition ev_strnlen (e : list N) (off max : N) : outcome N :=
  let d := slice e off max in
  let n := strnlen d in
  if (n <? max) && (len d <=? n) then UB else Ok n.

(** perf_data_utils.cc:76-86, GetStringLength, and :27-48,
    GetUint64AlignedStringLength. *)
Definition ev_text (e : list N) (off max : N) : outcome N :=
  let! n := ev_strnlen e off max in
  if n =? max then Fail
  else
    let size := aligned_string_length n in
    if max <? size then Fail else Ok size.

(** perf_data_utils.cc:295-381, GetEventDataFixedPayloadSize. *)
Definition fixed_payload (ty : N) : option N :=
  if ty =? R_MMAP then Some 40
  else if ty =? R_LOST then Some 24
  else if ty =? R_COMM then Some 16
  else if (ty =? R_EXIT) || (ty =? R_FORK) then Some 32
  else if (ty =? R_THROTTLE) || (ty =? R_UNTHROTTLE) then Some 32
  else if ty =? R_SAMPLE then Some 8
  else if ty =? R_MMAP2 then Some 72
  else if ty =? R_AUX then Some 32
  else if ty =? R_ITRACE_START then Some 16
  else if ty =? R_LOST_SAMPLES then Some 16
  else if ty =? R_SWITCH then Some 8
  else if ty =? R_SWITCH_CPU_WIDE then Some 16
  else if ty =? R_NAMESPACES then Some 24
  else if ty =? R_FINISHED_ROUND then Some 8
  else if ty =? R_AUXTRACE_INFO then Some 16
  else if ty =? R_AUXTRACE then Some 48
  else if ty =? R_AUXTRACE_ERROR then Some 40
  else if ty =? R_ID_INDEX then Some 16
  else if ty =? R_THREAD_MAP then Some 16
  else if ty =? R_STAT_CONFIG then Some 16
  else if ty =? R_STAT then Some 48
  else if ty =? R_STAT_ROUND then Some 24
  else if ty =? R_TIME_CONV then Some 32
  else if ty =? R_CGROUP then Some 16
  else if ty =? R_KSYMBOL then Some 24
  else if ty =? R_BPF_METADATA then Some 528
  else None.

(** Entries that have to fill the rest of the event exactly
    (perf_data_utils.cc:485-502, 503-518, 533-550). *)
Definition exact_entries (e : list N) (count_at entry rem : N) : outcome N :=
  let! nr := ev_u64 e count_at in
  if negb (nr =? rem / entry) then Fail
  else
    let size := w64 (nr * entry) in
    if negb (size =? rem) then Fail else Ok size.

(** perf_data_utils.cc:520-531, the command names of a thread map: entry [i] is
    at 16 + 24 i, its name 8 bytes into it. *)
Fixpoint thread_names (e : list N) (i : N) (count : nat) : outcome unit :=
  match count with
  | O => Ok tt
  | S c =>
      let! _ := ev_text e (16 + 24 * i + 8) 16 in thread_names e (i + 1) c
  end.

(** perf_data_utils.cc:383-594, GetEventDataVariablePayloadSize before its
    final check. *)
Definition variable_payload_of (e : list N) (rem : N) : outcome N :=
  let ty := ev_type e in
  if ty =? R_MMAP then ev_text e 40 (N.min rem 4096)
  else if ty =? R_COMM then ev_text e 16 (N.min rem 4096)
  else if ty =? R_MMAP2 then ev_text e 72 (N.min rem 4096)
  else if ty =? R_NAMESPACES then
    let! nr := ev_u64 e 16 in
    if rem / 16 <? nr then Fail else Ok (w64 (nr * 16))
  else if ty =? R_CGROUP then ev_text e 16 (N.min rem 4096)
  else if ty =? R_KSYMBOL then ev_text e 24 (N.min rem 512)
  else if (ty =? R_LOST) || (ty =? R_EXIT) || (ty =? R_FORK)
       || (ty =? R_THROTTLE) || (ty =? R_UNTHROTTLE) || (ty =? R_SAMPLE)
       || (ty =? R_AUX) || (ty =? R_ITRACE_START) || (ty =? R_LOST_SAMPLES)
       || (ty =? R_SWITCH) || (ty =? R_SWITCH_CPU_WIDE) then Ok 0
  else if ty =? R_AUXTRACE_INFO then Ok rem
  else if ty =? R_AUXTRACE_ERROR then
    let! msg := ev_text e 40 (N.min rem 64) in
    if negb (msg =? rem) then Fail else Ok msg
  else if ty =? R_ID_INDEX then exact_entries e 8 32 rem
  else if ty =? R_THREAD_MAP then
    let! size := exact_entries e 8 24 rem in
    let! nr := ev_u64 e 8 in
    let! _ := thread_names e 0 (N.to_nat nr) in
    Ok size
  else if ty =? R_STAT_CONFIG then exact_entries e 8 16 rem
  else if ty =? R_BPF_METADATA then
    let! nr := ev_u64 e 520 in
    if rem <? w64 (nr * 320) then Fail else Ok (w64 (nr * 320))
  else if ty =? R_TIME_CONV then
    if (rem =? 0) || (rem =? 24) then Ok rem else Fail
  else if (ty =? R_FINISHED_ROUND) || (ty =? R_AUXTRACE) || (ty =? R_STAT)
       || (ty =? R_STAT_ROUND) then
    if negb (rem =? 0) then Fail else Ok 0
  else Fail.

(** perf_data_utils.cc:595-602: the size has to be a multiple of 8. *)
Definition variable_payload (e : list N) (rem : N) : outcome N :=
  let! size := variable_payload_of e rem in
  if negb (size mod 8 =? 0) then Fail else Ok size.

(** perf_data_utils.cc:693-720, GetEventDataSize(const event_t&). The C++
    function reports failure by returning 0, which is [Fail] here (a success
    is never 0: the fixed part alone is at least the header). *)
Definition event_data_size (e : list N) : outcome N :=
  match fixed_payload (ev_type e) with
  | None => Fail
  | Some fixed =>
      if ev_size e <? fixed then Fail
      else
        let! var := variable_payload e (ev_size e - fixed) in
        Ok (w64 (fixed + var))
  end.
