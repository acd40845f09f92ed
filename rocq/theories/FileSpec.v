(** What it means for a byte string to be perf data: where numbers, headers and
    records are. Independent of the way the reader is written; only the records
    of FileModel (headers, sections, events) are used. *)
From Verif Require Import Base BytesModel EventSizeModel FileModel.
Local Open Scope N_scope.

(** The number stored in the [n] bytes at [o]: least significant byte first, or
    last when the data come from a machine of the other byte order. *)
Definition int_at (sw : bool) (b : list N) (o : N) (n : nat) : N :=
  let d := slice b o (N.of_nat n) in of_le (if sw then rev d else d).

(** The record header at [o]: type (4 bytes), misc (2), size (2). *)
Definition header_at (sw : bool) (b : list N) (o : N) : ehdr :=
  mkHdr (int_at sw b o 4) (int_at sw b (o + 4) 2) (int_at sw b (o + 6) 2).
(** The section at [o]: offset (8 bytes), size (8). *)
Definition section_at (sw : bool) (b : list N) (o : N) : section :=
  mkSection (int_at sw b o 8) (int_at sw b (o + 8) 8).
Definition section_inside (b : list N) (s : section) : Prop :=
  sc_offset s + sc_size s <= len b.

(** ** Headers *)

(** "PERFILE2" as written by a machine of this byte order, and of the other. *)
Definition magic_bytes (sw : bool) : list N :=
  let m := [80; 69; 82; 70; 73; 76; 69; 50] in if sw then rev m else m.

(** A header with the three sections at 24, 40 and 56 inside the data. *)
Definition file_header (sw : bool) (b : list N) : Prop :=
  104 <= len b /\ slice b 0 8 = magic_bytes sw /\ int_at sw b 8 8 = 104 /\
  section_inside b (section_at sw b 24) /\ section_inside b (section_at sw b 40) /\
  section_inside b (section_at sw b 56).
(** A header of piped data. *)
Definition pipe_header (sw : bool) (b : list N) : Prop :=
  16 <= len b /\ slice b 0 8 = magic_bytes sw /\ int_at sw b 8 8 = 16.

(** ** Byte order of the numbers of an event *)

(** [e] with the [n] bytes at [off] in reverse order; and for several members. *)
Definition flip (off : N) (n : nat) (e : list N) : list N :=
  firstn (N.to_nat off) e ++ rev (slice e off (N.of_nat n)) ++ skipn (N.to_nat (off + N.of_nat n)) e.
Definition flips (fs : list (N * nat)) (e : list N) : list N :=
  fold_left (fun e f => flip (fst f) (snd f) e) fs e.

(** The numbers in the fixed part of an event, by offset and width, ascending, as
    the structures of kernel/perf_internals.h lay them out (type, misc and size of
    the header first). Sample data are left in the byte order of the file. *)
Definition header_members : list (N * nat) := [(0, 4%nat); (4, 2%nat); (6, 2%nat)].
Definition fixed_members (ty misc : N) : list (N * nat) :=
  match ty with
  | 1 => (* mmap: pid, tid, start, len, pgoff *)
      [(8, 4%nat); (12, 4%nat); (16, 8%nat); (24, 8%nat); (32, 8%nat)]
  | 2 => (* lost: id, lost *) [(8, 8%nat); (16, 8%nat)]
  | 3 => (* comm: pid, tid *) [(8, 4%nat); (12, 4%nat)]
  | 4 | 7 => (* exit, fork: pid, ppid, tid, ptid, time *)
      [(8, 4%nat); (12, 4%nat); (16, 4%nat); (20, 4%nat); (24, 8%nat)]
  | 5 | 6 => (* throttle, unthrottle: time, id, stream id *)
      [(8, 8%nat); (16, 8%nat); (24, 8%nat)]
  | 10 => (* mmap2: as mmap, maj, min, ino, ino generation or (misc bit 14) the
             bytes of a build id, prot, flags *)
      [(8, 4%nat); (12, 4%nat); (16, 8%nat); (24, 8%nat); (32, 8%nat)] ++
      (if N.testbit misc 14 then [] else [(40, 4%nat); (44, 4%nat); (48, 8%nat); (56, 8%nat)]) ++
      [(64, 4%nat); (68, 4%nat)]
  | 11 => (* aux: offset, size, flags *) [(8, 8%nat); (16, 8%nat); (24, 8%nat)]
  | 12 => (* itrace start: pid, tid *) [(8, 4%nat); (12, 4%nat)]
  | 13 => (* lost samples *) [(8, 8%nat)]
  | 15 => (* switch cpu wide: pid, tid *) [(8, 4%nat); (12, 4%nat)]
  | 16 => (* namespaces: pid, tid, number of entries *) [(8, 4%nat); (12, 4%nat); (16, 8%nat)]
  | 17 => (* ksymbol: addr, len, type, flags *) [(8, 8%nat); (16, 4%nat); (20, 2%nat); (22, 2%nat)]
  | 19 => (* cgroup: id *) [(8, 8%nat)]
  | 69 | 73 | 75 => (* id index, thread map, stat config: number of entries *) [(8, 8%nat)]
  | 70 => (* auxtrace info: type *) [(8, 4%nat)]
  | 71 => (* auxtrace: size, offset, reference, idx, tid, cpu *)
      [(8, 8%nat); (16, 8%nat); (24, 8%nat); (32, 4%nat); (36, 4%nat); (40, 4%nat)]
  | 72 => (* auxtrace error: type, code, cpu, pid, tid, ip *)
      [(8, 4%nat); (12, 4%nat); (16, 4%nat); (20, 4%nat); (24, 4%nat); (32, 8%nat)]
  | 76 => (* stat: id, cpu, thread, val, ena, run *)
      [(8, 8%nat); (16, 4%nat); (20, 4%nat); (24, 8%nat); (32, 8%nat); (40, 8%nat)]
  | 77 => (* stat round: type, time *) [(8, 8%nat); (16, 8%nat)]
  | 79 => (* time conv: shift, mult, zero *) [(8, 8%nat); (16, 8%nat); (24, 8%nat)]
  | 84 => (* BPF metadata: number of entries *) [(520, 8%nat)]
  | _ => []
  end.
(** The numbers behind it: [n] entries of [size] bytes from [base] with members
    [fs] each. *)
Definition array_members (base size n : N) (fs : list (N * nat)) : list (N * nat) :=
  flat_map (fun i => map (fun f => (base + size * N.of_nat i + fst f, snd f)) fs) (List.seq 0 (N.to_nat n)).
Definition variable_members (e : list N) : list (N * nat) :=
  match h_type (header_at false e 0) with
  | 16 => (* dev, ino *) array_members 24 16 (int_at false e 16 8) [(0, 8%nat); (8, 8%nat)]
  | 69 => (* id, idx, cpu, tid *)
      array_members 16 32 (int_at false e 8 8) [(0, 8%nat); (8, 8%nat); (16, 8%nat); (24, 8%nat)]
  | 70 => (* private words up to the end of the event *)
      array_members 16 8 ((h_size (header_at false e 0) - 16) / 8) [(0, 8%nat)]
  | 73 => (* pid, 16 bytes of text *) array_members 16 24 (int_at false e 8 8) [(0, 8%nat)]
  | 75 => (* tag, value *) array_members 16 16 (int_at false e 8 8) [(0, 8%nat); (8, 8%nat)]
  | 79 => (* cycles, mask, in the longer form *)
      if h_size (header_at false e 0) =? 56 then [(32, 8%nat); (40, 8%nat)] else []
  | _ => []
  end.

(** All numbers of an event, and the event as a machine of the other byte order
    writes it. *)
Definition all_members (e : list N) : list (N * nat) :=
  let h := header_at false e 0 in
  header_members ++ fixed_members (h_type h) (h_misc h) ++ variable_members e.
Definition other_order (e : list N) : list N := flips (all_members e) e.

(** ** Records *)

(** Types of records that are kept: mmap, lost, comm, exit, throttle, unthrottle,
    fork, sample, mmap2, aux, itrace_start, lost_samples, switch, switch_cpu_wide,
    namespaces, ksymbol, cgroup; finished_round, id_index, auxtrace_info, auxtrace,
    auxtrace_error, thread_map, stat_config, stat, stat_round, time_conv and BPF
    metadata. *)
Definition kept_types : list N :=
  [1; 2; 3; 4; 5; 6; 7; 9; 10; 11; 12; 13; 14; 15; 16; 17; 19;
   68; 69; 70; 71; 72; 73; 75; 76; 77; 79; 84].

(** Which records end up as events: those of a kept type that the user did not
    ask to leave out, except memory mappings whose reading timed out (misc bit
    12) and, when the first attribute excludes the kernel, kernel mappings (misc
    bit 0) of length 0. *)
Definition becomes_event (skip : N -> bool) (no_kernel : bool) (sw : bool) (b : list N) (o : N) : bool :=
  let h := header_at sw b o in
  let mapping := (h_type h =? 1) || (h_type h =? 10) in
  existsb (N.eqb (h_type h)) kept_types && negb (skip (h_type h)) &&
  negb (mapping && N.testbit (h_misc h) 12) &&
  negb (mapping && no_kernel && N.testbit (h_misc h) 0 && (int_at sw b (o + 24) 8 =? 0)).

(** The bytes of trace data behind the record at [o]: an auxtrace event (71) has
    as many as the 8-byte number behind its header says. *)
Definition trace_length (skip : N -> bool) (no_kernel : bool) (sw : bool) (b : list N) (o : N) : N :=
  if becomes_event skip no_kernel sw b o && (h_type (header_at sw b o) =? 71)
  then int_at sw b (o + 8) 8 else 0.

(** The record at [o] as an event in the byte order of this machine: what is in
    the data is the event as a machine of the data's byte order writes it. (Ksymbol
    events, type 17, of the other byte order are excepted: see C55.) *)
Definition event_of (sw : bool) (b : list N) (o : N) (e : list N) : Prop :=
  let h := header_at sw b o in
  len e = h_size h /\ header_at false e 0 = h /\
  (sw = false -> slice b o (h_size h) = e) /\
  (sw = true -> h_type h <> 17 ->
     Forall (fun m => fst m + N.of_nat (snd m) <= len e) (all_members e) /\
     slice b o (h_size h) = other_order e).

(** [records skip no_kernel sw b o o' l]: the bytes from [o] up to [o'] are
    records one behind the other, each with a size of at least its header and
    inside the data; [l] are the events made of them, in order. *)
Inductive records (skip : N -> bool) (no_kernel sw : bool) (b : list N) :
    N -> N -> list fevent -> Prop :=
| records_end o : records skip no_kernel sw b o o []
| records_dropped o o' l :
    8 <= h_size (header_at sw b o) -> o + h_size (header_at sw b o) <= len b ->
    becomes_event skip no_kernel sw b o = false ->
    records skip no_kernel sw b (o + h_size (header_at sw b o)) o' l ->
    records skip no_kernel sw b o o' l
| records_kept o o' l e t :
    8 <= h_size (header_at sw b o) ->
    o + h_size (header_at sw b o) + len t <= len b ->
    becomes_event skip no_kernel sw b o = true ->
    event_of sw b o e ->
    len t = trace_length skip no_kernel sw b o ->
    t = slice b (o + h_size (header_at sw b o)) (len t) ->
    records skip no_kernel sw b (o + h_size (header_at sw b o) + len t) o' l ->
    records skip no_kernel sw b o o' (mkFEvent e t :: l).

(** Piped data, from [o] to the end: records as above mixed with records about
    the data: attributes (64; the last 7 bytes at most may be left over and are
    taken for the beginning of the next record), event types (65), build ids (67),
    header features (80), and tracing data (66: as many bytes behind the record's
    first number as it says, whatever the size of the record). [nk] tells whether
    the attributes read so far exclude the kernel. *)
Inductive stream (skip : N -> bool) (sw : bool) (b : list N) : N -> list fevent -> Prop :=
| stream_end : stream skip sw b (len b) []
| stream_attr o o' l :
    h_type (header_at sw b o) = 64 -> o + 8 < o' ->
    o' <= o + h_size (header_at sw b o) < o' + 8 -> stream skip sw b o' l -> stream skip sw b o l
| stream_about o l :
    In (h_type (header_at sw b o)) [65; 67; 80] -> 8 <= h_size (header_at sw b o) ->
    stream skip sw b (o + h_size (header_at sw b o)) l -> stream skip sw b o l
| stream_tracing o l :
    h_type (header_at sw b o) = 66 -> 8 <= h_size (header_at sw b o) ->
    stream skip sw b (o + 12 + int_at sw b (o + 8) 4) l -> stream skip sw b o l
| stream_record o o' nk l l' :
    ~ In (h_type (header_at sw b o)) [64; 65; 66; 67; 80] ->
    o < o' -> records skip nk sw b o o' l -> (length l <= 1)%nat ->
    stream skip sw b o' l' -> stream skip sw b o (l ++ l').
