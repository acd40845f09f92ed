(** What the size of the data part of a raw perf event is. *)
From Verif Require Import Base BytesModel EventSizeModel.
Local Open Scope N_scope.

(** A memory block holding a raw event: bytes, at least a header, and at least
    as many as the header claims. *)
Definition raw_event (e : list N) : Prop :=
  bytes_ok e = true /\ 8 <= len e /\ ev_size e <= len e.

(** Number stored in the 8 bytes at [off]. *)
Definition number_at (e : list N) (off : N) : N := of_le (slice e off 8).

(** At [off] there is a NUL-terminated text which, padded to a multiple of 8
    bytes, takes [n] bytes and no more than [room]. *)
Definition text_at (e : list N) (off room n : N) : Prop :=
  exists s, ~ In 0 s /\ slice e off (len s + 1) = s ++ [0] /\
    n = 8 * (len s / 8 + 1) /\ n <= room.

(** Events with a text after a fixed part: type, size of the fixed part, limit
    of the text. After the text there may be a sample id. *)
Definition text_events : list (N * N * N) :=
  [ (R_MMAP, 40, 4096); (R_COMM, 16, 4096); (R_MMAP2, 72, 4096);
    (R_CGROUP, 16, 4096); (R_KSYMBOL, 24, 512) ].

(** Events of a fixed size, which a sample id may follow. *)
Definition plain_events : list (N * N) :=
  [ (R_LOST, 24); (R_EXIT, 32); (R_FORK, 32); (R_THROTTLE, 32); (R_UNTHROTTLE, 32);
    (R_SAMPLE, 8); (R_AUX, 32); (R_ITRACE_START, 16); (R_LOST_SAMPLES, 16);
    (R_SWITCH, 8); (R_SWITCH_CPU_WIDE, 16) ].

(** Events that are exactly a fixed size. *)
Definition closed_events : list (N * N) :=
  [ (R_FINISHED_ROUND, 8); (R_AUXTRACE, 48); (R_STAT, 48); (R_STAT_ROUND, 24) ].

(** Events that are a fixed part and a counted array and nothing else: type,
    offset of the count, size of the fixed part, size of an entry. *)
Definition array_events : list (N * N * N * N) :=
  [ (R_ID_INDEX, 8, 16, 32); (R_STAT_CONFIG, 8, 16, 16); (R_THREAD_MAP, 8, 16, 24) ].

(** Every entry of a thread map has a terminated name (16 bytes, 8 bytes into
    the entry). *)
Definition names_terminated (e : list N) : Prop :=
  forall i, i < number_at e 8 -> In 0 (slice e (16 + 24 * i + 8) 16).

(** Types of which the size is known at all, with the size of the fixed part. *)
Definition known_events : list (N * N) :=
  map fst text_events ++ plain_events ++ closed_events ++
  [ (R_ID_INDEX, 16); (R_STAT_CONFIG, 16); (R_THREAD_MAP, 16); (R_NAMESPACES, 24);
    (R_AUXTRACE_INFO, 16); (R_AUXTRACE_ERROR, 40); (R_TIME_CONV, 32);
    (R_BPF_METADATA, 528) ].
