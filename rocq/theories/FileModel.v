(** Model of the reading of perf.data files and piped perf data
    (src/quipper/perf_reader.cc, ReadFromData and everything below it). *)
From Verif Require Import Base BytesModel BufferModel TextModel Assoc EventSizeModel SampleModel
  ReaderOpsModel.
Local Open Scope N_scope.

(** ** Small pieces of the C++ control flow *)

(** if (!b) return false; *)
Definition rguard (b : bool) : rcall unit := fun r => if b then (Ok tt, r) else (Fail, r).
(** A look at the reader: Tell(), size(), is_cross_endian(). *)
Definition rask {A} (f : reader -> A) : rcall A := fun r => (Ok (f r), r).
(** A computation that does not use the reader. *)
Definition rlift {A} (o : outcome A) : rcall A := fun r => (o, r).
(** CHECK(b) *)
Definition rcheck (b : bool) : rcall unit := fun r => if b then (Ok tt, r) else (Abort, r).
Definition rhang {A} : rcall A := fun r => (Hang, r).
(** One more than the number of bytes of input: enough steps for any loop that
    reads something in every round. *)
Definition loop_fuel (r : reader) : nat := S (length (rbuf r)).

(** if (data->is_cross_endian()) ByteSwap(&x); *)
Definition sw16 (sw : bool) (x : N) : N := if sw then bswap16 x else x.
Definition sw32 (sw : bool) (x : N) : N := if sw then bswap32 x else x.
Definition sw64 (sw : bool) (x : N) : N := if sw then bswap64 x else x.

(** ByteSwap(&event->member) for a member of [n] bytes at [off]; and several. *)
Definition swap_at (off : N) (n : nat) (e : list N) : outcome (list N) :=
  let! d := mem_read e off (N.of_nat n) in
  let! v := byte_swap n (of_le d) in
  mem_write e off (le_bytes n v).
Fixpoint swap_fields (fs : list (N * nat)) (e : list N) : outcome (list N) :=
  match fs with
  | [] => Ok e
  | (off, n) :: r => let! e' := swap_at off n e in swap_fields r e'
  end.

(** ** Data *)

(** kernel/perf_internals.h, struct perf_file_section. *)
Record section := mkSection { sc_offset : N; sc_size : N }.

(** struct perf_event_header. *)
Record ehdr := mkHdr { h_type : N; h_misc : N; h_size : N }.

(** struct perf_file_header behind magic and size. *)
Record fheader := mkFHeader {
  fh_attr_size : N; fh_attrs : section; fh_data : section; fh_types : section;
  fh_features : list N }.

(** struct PerfFileAttr (perf_data_structures.h): the 96 bytes of the
    perf_event_attr and the ids. *)
Record fattr := mkFAttr { fa_attr : list N; fa_ids : list N }.

(** kernel/perf_event.h:227-413, struct perf_event_attr: config at 8,
    sample_type at 24, the bit field at 40 (exclude_kernel bit 5, sample_id_all
    bit 18). *)
Definition attr_config (a : list N) : N := of_le (slice a 8 8).
Definition attr_sample_type (a : list N) : N := of_le (slice a 24 8).
Definition attr_bits (a : list N) : N := of_le (slice a 40 8).
Definition attr_exclude_kernel (a : list N) : bool := N.testbit (attr_bits a) 5.
Definition attr_sample_id_all (a : list N) : bool := N.testbit (attr_bits a) 18.

(** An event of the proto: the raw event it was made from and, for an auxtrace
    event, the trace data behind it. *)
Record fevent := mkFEvent { fe_raw : list N; fe_trace : list N }.

(** The metadata of the proto: strings by feature number, command line (tokens
    and whole), numbers, topologies, mappings, groups, tracing data. *)
Record fmeta := mkFMeta {
  fm_strings : list (N * list N);
  fm_cmdline : list (list N); fm_cmdwhole : list N;
  fm_u32 : list (N * list N); fm_u64 : list (N * list N);
  fm_cores : list (list N); fm_threads : list (list N); fm_cpus : list (N * N);
  fm_numa : list (N * N * N * list N);
  fm_pmu : list (N * list N);
  fm_group : list (list N * N * N);
  fm_hybrid : list (list N * list N);
  fm_tracing : list N }.

(** What the PerfReader holds while reading: the proto (metadata mask, file
    attributes, event types, events, build ids, metadata), the serializer
    (sample info readers by id with their attributes; position of the event id
    in samples and other events: unset, or [None] for absent), the ids and
    configs of attributes seen, the files with a build id, and the samples the
    callback was given. *)
Record fstate := mkFState {
  fs_mask : N; fs_attrs : list fattr; fs_types : list (N * list N);
  fs_events : list fevent; fs_builds : list rbuild; fs_meta : fmeta;
  fs_readers : list (N * list N);
  fs_sample_pos : option (option N); fs_other_pos : option (option N);
  fs_ids_seen : list N; fs_configs_seen : list N; fs_files : list (list N);
  fs_called : list (list N) }.

(** Configuration: the event types left out of the proto (SetEventTypesTo...),
    whether a sample callback is set, and whether PerfSerializer::SerializeEvent
    accepts a raw event in a given state (left open: the theorems hold for every
    such function). *)
Record fconfig := mkFConfig {
  cf_skip : N -> bool; cf_callback : bool; cf_accept : fstate -> list N -> bool }.

Definition fm_empty : fmeta := mkFMeta [] [] [] [] [] [] [] [] [] [] [] [] [].
(** perf_reader.cc:453-457: a new PerfReader. *)
Definition fs_new : fstate := mkFState 0 [] [] [] [] fm_empty [] None None [] [] [] [].

Definition put_mask v s := let 'mkFState a b c d e f g h i j k l m := s in mkFState v b c d e f g h i j k l m.
Definition put_attrs v s := let 'mkFState a b c d e f g h i j k l m := s in mkFState a v c d e f g h i j k l m.
Definition put_types v s := let 'mkFState a b c d e f g h i j k l m := s in mkFState a b v d e f g h i j k l m.
Definition put_events v s := let 'mkFState a b c d e f g h i j k l m := s in mkFState a b c v e f g h i j k l m.
Definition put_builds v s := let 'mkFState a b c d e f g h i j k l m := s in mkFState a b c d v f g h i j k l m.
Definition put_meta v s := let 'mkFState a b c d e f g h i j k l m := s in mkFState a b c d e v g h i j k l m.
Definition put_readers v s := let 'mkFState a b c d e f g h i j k l m := s in mkFState a b c d e f v h i j k l m.
Definition put_sample_pos v s := let 'mkFState a b c d e f g h i j k l m := s in mkFState a b c d e f g v i j k l m.
Definition put_other_pos v s := let 'mkFState a b c d e f g h i j k l m := s in mkFState a b c d e f g h v j k l m.
Definition put_ids_seen v s := let 'mkFState a b c d e f g h i j k l m := s in mkFState a b c d e f g h i v k l m.
Definition put_configs_seen v s := let 'mkFState a b c d e f g h i j k l m := s in mkFState a b c d e f g h i j v l m.
Definition put_files v s := let 'mkFState a b c d e f g h i j k l m := s in mkFState a b c d e f g h i j k v m.
Definition put_called v s := let 'mkFState a b c d e f g h i j k l m := s in mkFState a b c d e f g h i j k l v.

Definition put_strings v s := let 'mkFMeta a b c d e f g h i j k l m := s in mkFMeta v b c d e f g h i j k l m.
Definition put_cmdline v s := let 'mkFMeta a b c d e f g h i j k l m := s in mkFMeta a v c d e f g h i j k l m.
Definition put_cmdwhole v s := let 'mkFMeta a b c d e f g h i j k l m := s in mkFMeta a b v d e f g h i j k l m.
Definition put_u32 v s := let 'mkFMeta a b c d e f g h i j k l m := s in mkFMeta a b c v e f g h i j k l m.
Definition put_u64 v s := let 'mkFMeta a b c d e f g h i j k l m := s in mkFMeta a b c d v f g h i j k l m.
Definition put_cores v s := let 'mkFMeta a b c d e f g h i j k l m := s in mkFMeta a b c d e v g h i j k l m.
Definition put_threads v s := let 'mkFMeta a b c d e f g h i j k l m := s in mkFMeta a b c d e f v h i j k l m.
Definition put_cpus v s := let 'mkFMeta a b c d e f g h i j k l m := s in mkFMeta a b c d e f g v i j k l m.
Definition put_numa v s := let 'mkFMeta a b c d e f g h i j k l m := s in mkFMeta a b c d e f g h v j k l m.
Definition put_pmu v s := let 'mkFMeta a b c d e f g h i j k l m := s in mkFMeta a b c d e f g h i v k l m.
Definition put_group v s := let 'mkFMeta a b c d e f g h i j k l m := s in mkFMeta a b c d e f g h i j v l m.
Definition put_hybrid v s := let 'mkFMeta a b c d e f g h i j k l m := s in mkFMeta a b c d e f g h i j k v m.
Definition put_tracing v s := let 'mkFMeta a b c d e f g h i j k l m := s in mkFMeta a b c d e f g h i j k l v.

(** perf_reader.h:321-326, the metadata mask; only bits 1..30 are asked for, so
    [1 << bit] does not leave int. *)
Definition has_feature (s : fstate) (bit : N) : bool := N.testbit (fs_mask s) bit.
Definition add_feature (bit : N) (s : fstate) : fstate := put_mask (N.setbit (fs_mask s) bit) s.

(** ** Headers and sections *)

(** perf_reader.cc:163-188, ReadPerfEventHeader. *)
Definition read_event_header : rcall ehdr :=
  rlet d := read_data 8 in
  rlet sw := rask rswap in
  let ty := sw32 sw (of_le (slice d 0 4)) in
  let misc := sw16 sw (of_le (slice d 4 2)) in
  let size := sw16 sw (of_le (slice d 6 2)) in
  rlet _ := rguard (8 <=? size) in
  rlet avail := rask remaining in
  rlet _ := rguard (size - 8 <=? avail) in
  rret (mkHdr ty misc size).

(** perf_reader.cc:192-215, ReadPerfFileSection. *)
Definition read_section : rcall section :=
  rlet d := read_data 16 in
  rlet sw := rask rswap in
  let offset := sw64 sw (of_le (slice d 0 8)) in
  let size := sw64 sw (of_le (slice d 8 8)) in
  rlet total := rask (fun r => len (rbuf r)) in
  rlet _ := rguard (offset <=? total) in
  rlet _ := rguard (size <=? total - offset) in
  rret (mkSection offset size).

(** perf_internals.h, kPerfMagic: "PERFILE2". *)
Definition perf_magic : N := 0x32454c4946524550.

(** perf_reader.cc:862-895: the feature words of a cross-endian file, swapped as
    64-bit words if the hostname bit is then set, as 32-bit words otherwise. The
    four (eight) words are swapped in place; the host has 64-bit longs. *)
Fixpoint swap_words (n : nat) (count : nat) (d : list N) : list N :=
  match count with
  | O => []
  | S c => rev (firstn n d) ++ swap_words n c (skipn n d)
  end.
Definition swap_features (d : list N) : list N :=
  if N.testbit (bswap64 (of_le (slice d 0 8))) 3 then swap_words 8 4 d else swap_words 4 8 d.

(** perf_reader.cc:808-900, ReadHeader. The result is the size field and, unless
    the header is a piped one, the rest of the header. piped_header_ and header_
    are a union, so both sizes are the field read here. *)
Definition read_header (s : fstate) : rcall (fstate * N * option fheader) :=
  rlet start := rask tell in
  rlet _ := rcheck (start =? 0) in
  rlet magic := read_u64 in
  rlet _ := rguard ((magic =? perf_magic) || (magic =? bswap64 perf_magic)) in
  let sw := negb (magic =? perf_magic) in
  rlet _ := (fun r => (Ok tt, mkReader (rbuf r) (roff r) sw)) in
  rlet size := read_u64 in
  rlet pos := rask tell in
  rlet _ := rcheck (pos =? 16) in
  if size =? 16 then rret (s, size, None)
  else
    rlet attr_size := read_u64 in
    rlet attrs := read_section in
    rlet data := read_section in
    rlet types := read_section in
    rlet pos := rask tell in
    rlet _ := rcheck (pos =? 72) in
    rlet features := read_data 32 in
    let s := put_mask (of_le (slice features 0 8)) s in
    let features := if sw then swap_features features else features in
    rret (s, size, Some (mkFHeader attr_size attrs data types features)).

(** ** Attributes *)

(** perf_reader.cc:88-112, ReverseByte and SwapBitfieldOfBits. *)
Definition reverse_byte (x : N) : N :=
  let x := N.lor (N.shiftr (N.land x 0xf0) 4) (N.shiftl (N.land x 0x0f) 4) in
  let x := N.lor (N.shiftr (N.land x 0xcc) 2) (N.shiftl (N.land x 0x33) 2) in
  N.lor (N.shiftr (N.land x 0xaa) 1) (N.shiftl (N.land x 0x55) 1).

(** perf_reader.cc:975-977: exchange the two bits of precise_ip (bits 15 and 16
    of the bit field). *)
Definition exchange_precise_ip (bits : N) : N :=
  let b15 := N.testbit bits 15 in
  let b16 := N.testbit bits 16 in
  let z := N.clearbit (N.clearbit bits 15) 16 in
  let z := if b16 then N.setbit z 15 else z in
  if b15 then N.setbit z 16 else z.

(** perf_reader.cc:962-986: a cross-endian attribute. type and size have
    already been swapped by ReadUint32 and are swapped again here. *)
Definition swap_attr (a : list N) : outcome (list N) :=
  let! a := swap_fields [(0, 4%nat); (4, 4%nat); (8, 8%nat); (16, 8%nat); (24, 8%nat); (32, 8%nat)] a in
  let! bits := mem_read a 40 8 in
  let bits := exchange_precise_ip (of_le (map reverse_byte bits)) in
  let! a := mem_write a 40 (le_bytes 8 bits) in
  swap_fields [(48, 4%nat); (52, 4%nat); (56, 8%nat); (64, 8%nat); (72, 8%nat); (80, 8%nat); (88, 4%nat)] a.

(** perf_reader.cc:937-993, ReadEventAttr; sizeof(perf_event_attr) = 96. *)
Definition read_event_attr : rcall (list N) :=
  rlet ty := read_u32 in
  rlet size := read_u32 in
  let readable := N.min size 96 in
  let attr := le_bytes 4 ty ++ le_bytes 4 size ++ repeat 0 88 in
  rlet d := read_data (sub64 readable 8) in
  rlet attr := rlift (mem_write attr 8 d) in
  rlet pos := rask tell in
  rlet _ := seek_set (sub64 (w64 (pos + size)) readable) in
  rlet sw := rask rswap in
  rlet attr := rlift (if sw then swap_attr attr else Ok attr) in
  rlift (mem_write attr 4 (le_bytes 4 96)).

(** perf_serializer.cc:1621-1664, UpdateEventIdPositions: where the event id is
    in a sample (counted from the front) and in other events (from the end). *)
Definition count_bits (x : N) (l : list N) : N := len (filter (N.testbit x) l).
Definition id_positions (st : N) : option N * option N :=
  if N.testbit st 16 then (Some 0, Some 1)
  else if N.testbit st 6 then
    (Some (count_bits st [0; 1; 2; 3]), Some (1 + count_bits st [7; 9]))
  else (None, None).
Definition pos_eqb (a b : option N) : bool :=
  match a, b with
  | Some x, Some y => x =? y
  | None, None => true
  | _, _ => false
  end.
Definition update_positions (st : N) (s : fstate) : outcome fstate :=
  let '(sp, op) := id_positions st in
  let ok old new := match old with None => true | Some o => pos_eqb o new end in
  if ok (fs_sample_pos s) sp && ok (fs_other_pos s) op
  then Ok (put_sample_pos (Some sp) (put_other_pos (Some op) s))
  else Fail.

(** perf_reader.cc:2602-2614, AddPerfFileAttr, with perf_serializer.cc:1610-1619,
    CreateSampleInfoReader: the map from ids to readers is ordered. *)
Definition add_file_attr (a : fattr) (s : fstate) : outcome fstate :=
  let s := put_attrs (fs_attrs s ++ [a]) s in
  let ids := match fa_ids a with [] => [0] | ids => ids end in
  let s := put_readers (fold_left (fun m id => omset id (fa_attr a) m) ids (fs_readers s)) s in
  let! s := update_positions (attr_sample_type (fa_attr a)) s in
  let s := match fa_ids a with
           | [] => s
           | id :: _ => put_ids_seen (id :: fs_ids_seen s) s
           end in
  Ok (put_configs_seen (attr_config (fa_attr a) :: fs_configs_seen s) s).

(** perf_reader.cc:995-1005, ReadUniqueIDs. *)
Definition read_ids (n : N) : rcall (list N) := read_n (N.to_nat n) read_u64.

(** perf_reader.cc:919-935, ReadAttr. *)
Definition read_attr (s : fstate) : rcall fstate :=
  rlet a := read_event_attr in
  rlet ids := read_section in
  rlet saved := rask tell in
  rlet _ := seek_set (sc_offset ids) in
  rlet l := read_ids (sc_size ids / 8) in
  rlet _ := seek_set saved in
  rlift (add_file_attr (mkFAttr a l) s).

(** for (i = 0; i < n; i++) if (!f()) return false; *)
Fixpoint repeat_read (n : nat) (f : fstate -> rcall fstate) (s : fstate) : rcall fstate :=
  match n with
  | O => rret s
  | S n' => rlet s' := f s in repeat_read n' f s'
  end.

(** perf_reader.cc:902-917, ReadAttrsSection; a size that is no multiple of the
    attribute size is only logged. *)
Definition read_attrs_section (h : fheader) (s : fstate) : rcall fstate :=
  rlet _ := rguard (negb (fh_attr_size h =? 0)) in
  rlet _ := seek_set (sc_offset (fh_attrs h)) in
  repeat_read (N.to_nat (sc_size (fh_attrs h) / fh_attr_size h)) read_attr s.

(** perf_reader.cc:1035-1072, ReadEventType: [event_size] 0 means not in an
    event; sizeof(perf_trace_event_type::name) = 64. *)
Definition read_event_type (idx : N) (event_size : N) (s : fstate) : rcall fstate :=
  rlet id := read_u64 in
  let name_len := if event_size =? 0 then 64 else sub64 event_size 16 in
  rlet name := read_string name_len in
  match nth_error (fs_attrs s) (N.to_nat idx) with
  | None => rfail
  | Some a =>
      rlet _ := rguard (id =? attr_config (fa_attr a)) in
      rret (put_types (fs_types s ++ [(attr_config (fa_attr a), name)]) s)
  end.

Fixpoint read_event_types (n : nat) (idx : N) (s : fstate) : rcall fstate :=
  match n with
  | O => rret s
  | S n' => rlet s' := read_event_type idx 0 s in read_event_types n' (idx + 1) s'
  end.

(** perf_reader.cc:1007-1033, ReadEventTypesSection. The count is an int: the
    quotient wraps to 32 bits, which is taken as unsigned here because a negative
    count never equals the number of attributes and no loop runs for it. *)
Definition read_event_types_section (h : fheader) (s : fstate) : rcall fstate :=
  let n := w32 (sc_size (fh_types h) / 72) in
  if n =? 0 then rret s
  else
    rlet _ := rguard (len (fs_attrs s) =? n) in
    rlet _ := rguard (72 * n =? sc_size (fh_types h)) in
    rlet _ := seek_set (sc_offset (fh_types h)) in
    read_event_types (N.to_nat n) 0 s.

(** ** Events *)

(** perf_serializer.cc:43-95. *)
Definition supported_event (ty : N) : bool :=
  existsb (N.eqb ty)
    [R_MMAP; R_LOST; R_COMM; R_EXIT; R_THROTTLE; R_UNTHROTTLE; R_FORK; R_SAMPLE; R_MMAP2;
     R_AUX; R_ITRACE_START; R_LOST_SAMPLES; R_SWITCH; R_SWITCH_CPU_WIDE; R_NAMESPACES;
     R_CGROUP; R_KSYMBOL;
     R_FINISHED_ROUND; R_AUXTRACE_INFO; R_AUXTRACE; R_AUXTRACE_ERROR; R_ID_INDEX;
     R_THREAD_MAP; R_STAT_CONFIG; R_STAT; R_STAT_ROUND; R_TIME_CONV; R_BPF_METADATA].

(** perf_serializer.cc:97-109, ContainsSampleInfo: the reader with the smallest
    id decides for events other than samples. *)
Definition contains_sample_info (ty : N) (s : fstate) : bool :=
  if ty =? R_SAMPLE then true
  else supported_type ty &&
       match fs_readers s with
       | [] => false
       | (_, a) :: _ => attr_sample_id_all a
       end.

(** perf_reader.cc:222-231, IsProcMapTimeoutMmap;
    PERF_RECORD_MISC_PROC_MAP_PARSE_TIMEOUT = 1 << 12. *)
Definition is_timeout_mmap (h : ehdr) : bool :=
  ((h_type h =? R_MMAP) || (h_type h =? R_MMAP2)) && N.testbit (h_misc h) 12.

(** perf_reader.cc:233-367, ByteSwapEventDataFixedPayloadFields: the members
    swapped, by offset and size; PERF_RECORD_MISC_MMAP_BUILD_ID = 1 << 14. A
    cgroup event is missing. *)
Definition fixed_swaps (ty misc : N) : option (list (N * nat)) :=
  if ty =? R_MMAP then Some [(8, 4%nat); (12, 4%nat); (16, 8%nat); (24, 8%nat); (32, 8%nat)]
  else if ty =? R_MMAP2 then
    Some ([(8, 4%nat); (12, 4%nat); (16, 8%nat); (24, 8%nat); (32, 8%nat)]
          ++ (if N.testbit misc 14 then [] else [(40, 4%nat); (44, 4%nat); (48, 8%nat); (56, 8%nat)])
          ++ [(64, 4%nat); (68, 4%nat)])
  else if ty =? R_KSYMBOL then Some [(8, 8%nat); (16, 4%nat); (22, 2%nat)]
  else if ty =? R_BPF_METADATA then Some [(520, 8%nat)]
  else if (ty =? R_FORK) || (ty =? R_EXIT) then
    Some [(8, 4%nat); (16, 4%nat); (12, 4%nat); (20, 4%nat); (24, 8%nat)]
  else if ty =? R_COMM then Some [(8, 4%nat); (12, 4%nat)]
  else if ty =? R_LOST then Some [(8, 8%nat); (16, 8%nat)]
  else if (ty =? R_THROTTLE) || (ty =? R_UNTHROTTLE) then
    Some [(8, 8%nat); (16, 8%nat); (24, 8%nat)]
  else if ty =? R_AUX then Some [(8, 8%nat); (16, 8%nat); (24, 8%nat)]
  else if ty =? R_ITRACE_START then Some [(8, 4%nat); (12, 4%nat)]
  else if ty =? R_LOST_SAMPLES then Some [(8, 8%nat)]
  else if ty =? R_SWITCH_CPU_WIDE then Some [(8, 4%nat); (12, 4%nat)]
  else if ty =? R_NAMESPACES then Some [(8, 4%nat); (12, 4%nat); (16, 8%nat)]
  else if ty =? R_AUXTRACE_INFO then Some [(8, 4%nat)]
  else if ty =? R_AUXTRACE then
    Some [(8, 8%nat); (16, 8%nat); (24, 8%nat); (32, 4%nat); (36, 4%nat); (40, 4%nat)]
  else if ty =? R_ID_INDEX then Some [(8, 8%nat)]
  else if ty =? R_THREAD_MAP then Some [(8, 8%nat)]
  else if ty =? R_STAT_CONFIG then Some [(8, 8%nat)]
  else if ty =? R_STAT then
    Some [(8, 8%nat); (16, 4%nat); (20, 4%nat); (24, 8%nat); (32, 8%nat); (40, 8%nat)]
  else if ty =? R_STAT_ROUND then Some [(8, 8%nat); (16, 8%nat)]
  else if ty =? R_AUXTRACE_ERROR then
    Some [(8, 4%nat); (12, 4%nat); (16, 4%nat); (20, 4%nat); (24, 4%nat); (32, 8%nat)]
  else if ty =? R_TIME_CONV then Some [(8, 8%nat); (16, 8%nat); (24, 8%nat)]
  else if (ty =? R_SAMPLE) || (ty =? R_SWITCH) || (ty =? R_FINISHED_ROUND) then Some []
  else None.

(** [n] entries of [entry] bytes from [base], each with members [fs]. *)
Definition entries_swaps (base entry : N) (fs : list (N * nat)) (n : N) : list (N * nat) :=
  flat_map (fun i => map (fun f => (base + entry * N.of_nat i + fst f, snd f)) fs)
           (List.seq 0 (N.to_nat n)).

(** perf_reader.cc:369-449, ByteSwapEventDataVariablePayloadFields. *)
Definition variable_swaps (e : list N) : outcome (list (N * nat)) :=
  let ty := ev_type e in
  if ty =? R_NAMESPACES then
    let! nr := ev_u64 e 16 in Ok (entries_swaps 24 16 [(0, 8%nat); (8, 8%nat)] nr)
  else if ty =? R_AUXTRACE_INFO then
    Ok (entries_swaps 16 8 [(0, 8%nat)] (sub64 (ev_size e) 16 / 8))
  else if ty =? R_ID_INDEX then
    let! nr := ev_u64 e 8 in
    Ok (entries_swaps 16 32 [(0, 8%nat); (8, 8%nat); (16, 8%nat); (24, 8%nat)] nr)
  else if ty =? R_THREAD_MAP then
    let! nr := ev_u64 e 8 in Ok (entries_swaps 16 24 [(0, 8%nat)] nr)
  else if ty =? R_STAT_CONFIG then
    let! nr := ev_u64 e 8 in Ok (entries_swaps 16 16 [(0, 8%nat); (8, 8%nat)] nr)
  else if ty =? R_CGROUP then Ok [(8, 8%nat)]
  else if ty =? R_TIME_CONV then
    if ev_size e =? 56 then Ok [(32, 8%nat); (40, 8%nat)] else Ok []
  else if existsb (N.eqb ty)
            [R_MMAP; R_MMAP2; R_KSYMBOL; R_BPF_METADATA; R_FORK; R_EXIT; R_COMM; R_LOST;
             R_THROTTLE; R_UNTHROTTLE; R_SAMPLE; R_AUX; R_ITRACE_START; R_LOST_SAMPLES;
             R_SWITCH; R_SWITCH_CPU_WIDE; R_FINISHED_ROUND; R_AUXTRACE; R_STAT;
             R_STAT_ROUND; R_AUXTRACE_ERROR] then Ok []
  else Fail.

(** perf_reader.cc:1148-1168: the event in host byte order and the size of its
    variable part. [e] is the block of header.size bytes with the header in host
    order. *)
Definition localise_event (sw : bool) (fixed : N) (e : list N) : outcome (list N * N) :=
  let! e := (if sw then match fixed_swaps (ev_type e) (ev_misc e) with
                        | None => Fail
                        | Some fs => swap_fields fs e
                        end
             else Ok e) in
  let! var := variable_payload e (ev_size e - fixed) in
  let! e := (if sw then let! fs := variable_swaps e in swap_fields fs e else Ok e) in
  Ok (e, var).

(** A string of the event, up to its NUL; undefined when there is none in the
    block. *)
Definition ev_c_str (e : list N) (off : N) : outcome (list N) :=
  let d := skipn (N.to_nat off) e in
  if strnlen d <? len d then Ok (c_str d) else UB.

(** perf_reader.cc:1195-1223: the build id in a MMAP2 event (size byte at 40, id
    at 44, filename at 72); kMaxBuildIdSize = 20. *)
Definition mmap2_build_id (e : list N) (s : fstate) : outcome fstate :=
  let! filename := ev_c_str e 72 in
  if mem_by list_eqb filename (fs_files s) then Ok s
  else
    let! size := mem_read e 40 1 in
    if 20 <? of_le size then Fail
    else
      let! id := mem_read e 44 (of_le size) in
      let '(ok, b) := serialize_build_id_event
                        (create_build_id_event (raw_to_hex id) filename (ev_misc e)) in
      if ok
      then Ok (put_files (filename :: fs_files s) (put_builds (fs_builds s ++ [b]) s))
      else Fail.

(** perf_reader.cc:1895-1925, ReadAuxtraceTraceData; the size is the member at 8. *)
Definition read_trace (e : list N) : rcall (list N) :=
  rlet size := rlift (ev_u64 e 8) in
  rlet avail := rask remaining in
  rlet _ := rguard (size <=? avail) in
  read_data size.

(** perf_reader.cc:1098-1251, ReadNonHeaderEventDataWithoutHeader: the new state
    and *read_size. PERF_RECORD_MISC_KERNEL = 1. *)
Definition read_event (cf : fconfig) (h : ehdr) (s : fstate) : rcall (fstate * N) :=
  let size := h_size h - 8 in
  let skip := rlet pos := rask tell in
              rlet _ := seek_set (w64 (pos + size)) in rret (s, size) in
  if negb (supported_event (h_type h)) then skip
  else
    rlet _ := rguard (match fs_readers s with [] => false | _ => true end) in
    match fixed_payload (h_type h) with
    | None => rfail
    | Some fixed =>
        rlet _ := rguard (fixed <=? h_size h) in
        if is_timeout_mmap h then skip
        else
          rlet payload := read_data size in
          let e := le_bytes 4 (h_type h) ++ le_bytes 2 (h_misc h) ++ le_bytes 2 (h_size h)
                   ++ payload in
          rlet sw := rask rswap in
          rlet ev := rlift (localise_event sw fixed e) in
          let '(e, var) := ev in
          rlet _ := rguard (contains_sample_info (h_type h) s
                            || (h_size h =? w64 (fixed + var))) in
          let mapping := (h_type h =? R_MMAP) || (h_type h =? R_MMAP2) in
          rlet zero := rlift (if mapping then let! l := ev_u64 e 24 in Ok (l =? 0) else Ok false) in
          let excluded := match fs_attrs s with
                          | a :: _ => attr_exclude_kernel (fa_attr a)
                          | [] => false
                          end in
          let kernel := negb (N.land (h_misc h) 1 =? 0) in
          if mapping && excluded && kernel && zero then rret (s, size)
          else
            rlet s := rlift (if (h_type h =? R_MMAP2) && N.testbit (h_misc h) 14
                             then mmap2_build_id e s else Ok s) in
            if cf_skip cf (h_type h) then
              if (h_type h =? R_SAMPLE) && cf_callback cf then
                rlet _ := rguard (cf_accept cf s e) in
                rret (put_called (fs_called s ++ [e]) s, size)
              else rret (s, size)
            else
              rlet _ := rguard (cf_accept cf s e) in
              if h_type h =? R_AUXTRACE then
                rlet t := read_trace e in
                rret (put_events (fs_events s ++ [mkFEvent e t]) s, w64 (size + len t))
              else
                let s := put_events (fs_events s ++ [mkFEvent e []]) s in
                if (h_type h =? R_SAMPLE) && cf_callback cf
                then rret (put_called (fs_called s ++ [e]) s, size)
                else rret (s, size)
    end.

(** perf_reader.cc:1074-1096, ReadDataSection. *)
Fixpoint data_loop (fuel : nat) (cf : fconfig) (left : N) (s : fstate) : rcall fstate :=
  if left =? 0 then rret s
  else
    match fuel with
    | O => rhang
    | S f =>
        rlet h := read_event_header in
        rlet r := read_event cf h s in
        let '(s, n) := r in
        data_loop f cf (sub64 left (w64 (8 + n))) s
    end.
Definition read_data_section (cf : fconfig) (h : fheader) (s : fstate) : rcall fstate :=
  rlet _ := seek_set (sc_offset (fh_data h)) in
  rlet fuel := rask loop_fuel in
  data_loop fuel cf (sc_size (fh_data h)) s.

(** ** Metadata *)

(** perf_reader.cc:1388-1437, ReadBuildIDMetadataWithoutHeader: pid at 8, the id
    at 12, its size at 32, the filename at 36; PATH_MAX = 4096. *)
Definition read_build_id (h : ehdr) (s : fstate) : rcall fstate :=
  rlet _ := rguard (36 <=? h_size h) in
  rlet payload := read_data (h_size h - 8) in
  rlet sw := rask rswap in
  let e := le_bytes 4 (h_type h) ++ le_bytes 2 (h_misc h) ++ le_bytes 2 (h_size h) ++ payload in
  rlet e := rlift (if sw then swap_at 8 4 e else Ok e) in
  let max := N.min (h_size h - 36) 4096 in
  rlet n := rlift (ev_strnlen e 36 max) in
  rlet _ := rguard (negb (n =? max)) in
  rlet _ := rguard (36 + aligned_string_length n <=? h_size h) in
  rlet pid := rlift (let! d := mem_read e 8 4 in Ok (of_le d)) in
  rlet id := rlift (mem_read e 12 20) in
  rlet isize := rlift (let! d := mem_read e 32 1 in Ok (of_le d)) in
  let '(ok, b) := serialize_build_id_event
                    (mkBIE (h_misc h) pid isize id (slice e 36 n)) in
  if ok then rret (put_builds (fs_builds s ++ [b]) s) else rfail.

(** perf_reader.cc:1365-1386, ReadBuildIDMetadata. *)
Fixpoint build_id_loop (fuel : nat) (left : N) (s : fstate) : rcall fstate :=
  if left =? 0 then rret s
  else
    match fuel with
    | O => rhang
    | S f =>
        rlet h := read_event_header in
        rlet _ := rguard (h_size h <=? left) in
        rlet s := read_build_id h s in
        build_id_loop f (left - h_size h) s
    end.

(** perf_reader.cc:1439-1450, ReadSingleStringMetadata. *)
Definition read_single_string (size : N) : rcall (list N) :=
  if size =? 0 then rret [] else read_string_with_size.

(** perf_reader.cc:1452-1481, ReadRepeatedStringMetadata: the loop, giving the
    new tokens. *)
Fixpoint string_loop (count : nat) (size_read max : N) : rcall (list (list N)) :=
  match count with
  | O => rret []
  | S c =>
      if size_read <? max then
        rlet before := rask tell in
        rlet t := read_single_string (max - size_read) in
        rlet after := rask tell in
        rlet l := string_loop c (w64 (size_read + sub64 after before)) max in
        rret (t :: l)
      else rret []
  end.
(** full_string: the tokens joined by blanks (none before the first non-empty
    one). *)
Definition join_tokens (l : list (list N)) : list N :=
  fold_left (fun acc t => match acc with [] => t | _ => acc ++ [32] ++ t end) l [].

(** perf_reader.cc:1483-1535, the loops of ReadUint32Metadata and
    ReadUint64Metadata: [size] is decreased without a check. *)
Fixpoint number_loop (fuel : nat) (n : nat) (size : N) : rcall (list N) :=
  if size =? 0 then rret []
  else
    match fuel with
    | O => rhang
    | S f =>
        rlet v := read_int n in
        rlet l := number_loop f n (sub64 size (N.of_nat n)) in
        rret (v :: l)
    end.
Definition read_numbers (n : nat) (size : N) : rcall (list N) :=
  rlet fuel := rask loop_fuel in
  rlet l := number_loop fuel n size in
  rlet _ := rguard (match l with [] => false | _ => true end) in
  rret l.

(** perf_reader.cc:1569-1594, one event of ReadEventDescMetadata. *)
Definition read_event_desc (s : fstate) : rcall fstate :=
  rlet a := read_event_attr in
  rlet nr := read_u32 in
  rlet name := read_string_with_size in
  rlet ids := read_ids nr in
  rlet s := rlift (add_file_attr (mkFAttr a ids) s) in
  rret (put_types (fs_types s ++ [(attr_config a, name)]) s).

(** perf_reader.cc:1537-1596, ReadEventDescMetadata: the attributes read before
    are dropped, the readers and event types made from them are not. *)
Definition read_event_descs (s : fstate) : rcall fstate :=
  rlet nr := read_u32 in
  rlet _ := rguard (nr <=? 2 ^ 31 - 1) in
  rlet _ := read_u32 in
  let s := put_ids_seen [] (put_configs_seen [] (put_attrs [] s)) in
  repeat_read (N.to_nat nr) read_event_desc s.

(** perf_reader.cc:1635-1650: the first number of the last HEADER_NRCPUS (7)
    metadata. *)
Definition nr_cpus (s : fstate) : N :=
  fold_left (fun acc m => match snd m with
                          | n :: _ => if fst m =? 7 then n else acc
                          | [] => acc
                          end) (fm_u32 (fs_meta s)) 0.

(** perf_reader.cc:1598-1670, ReadCPUTopologyMetadata; the serializer appends. *)
Definition read_cpu_topology (size : N) (s : fstate) : rcall fstate :=
  rlet start := rask tell in
  rlet nc := read_u32 in
  rlet _ := rguard (nc <=? size) in
  rlet cores := read_n (N.to_nat nc) read_string_with_size in
  rlet nt := read_u32 in
  rlet _ := rguard (nt <=? size) in
  rlet threads := read_n (N.to_nat nt) read_string_with_size in
  rlet pos := rask tell in
  rlet cpus :=
    (if sub64 pos start <? size then
       rlet _ := rguard (negb (nr_cpus s =? 0)) in
       read_n (N.to_nat (nr_cpus s))
         (rlet core := read_u32 in rlet socket := read_u32 in rret (core, socket))
     else rret []) in
  let m := fs_meta s in
  rret (put_meta (put_cores (fm_cores m ++ cores)
                   (put_threads (fm_threads m ++ threads)
                     (put_cpus (fm_cpus m ++ cpus) m))) s).

(** perf_reader.cc:1672-1691, ReadNUMATopologyMetadata. *)
Definition read_numa (s : fstate) : rcall fstate :=
  rlet n := read_u32 in
  rlet l := read_n (N.to_nat n)
              (rlet id := read_u32 in rlet total := read_u64 in rlet free := read_u64 in
               rlet cpus := read_string_with_size in rret (id, total, free, cpus)) in
  rret (put_meta (put_numa (fm_numa (fs_meta s) ++ l) (fs_meta s)) s).

(** perf_reader.cc:1693-1717, ReadPMUMappingsMetadata. *)
Definition read_pmu (s : fstate) : rcall fstate :=
  rlet n := read_u32 in
  rlet _ := rguard (negb (n =? 0)) in
  rlet l := read_n (N.to_nat n)
              (rlet ty := read_u32 in rlet name := read_string_with_size in rret (ty, name)) in
  rret (put_meta (put_pmu (fm_pmu (fs_meta s) ++ l) (fs_meta s)) s).

(** perf_reader.cc:1719-1737, ReadGroupDescMetadata. *)
Definition read_groups (s : fstate) : rcall fstate :=
  rlet n := read_u32 in
  rlet l := read_n (N.to_nat n)
              (rlet name := read_string_with_size in rlet leader := read_u32 in
               rlet members := read_u32 in rret (name, leader, members)) in
  rret (put_meta (put_group (fm_group (fs_meta s) ++ l) (fs_meta s)) s).

(** perf_reader.cc:1739-1753, ReadTracingMetadata, with SerializeTracingMetadata
    (perf_serializer.cc:1086-1098): nothing is stored when the size is 0. The
    allocation is taken to succeed. *)
Definition read_tracing (size : N) (s : fstate) : rcall fstate :=
  rlet d := read_data size in
  if size =? 0 then rret s else rret (put_meta (put_tracing d (fs_meta s)) s).

(** perf_reader.cc:1755-1781, ReadHybridTopologyMetadata: the cpu text; the list
    parsed from it (C10) is determined by it and left out. *)
Definition read_hybrid (s : fstate) : rcall fstate :=
  rlet n := read_u32 in
  rlet l := read_n (N.to_nat n)
              (rlet name := read_string_with_size in rlet cpus := read_string_with_size in
               rret (name, cpus)) in
  rret (put_meta (put_hybrid (fm_hybrid (fs_meta s) ++ l) (fs_meta s)) s).

(** kernel/perf_internals.h:25-60: which parser a feature number has. *)
Definition string_features : list N := [3; 4; 5; 6; 8; 9].
Definition supported_features : list N :=
  [1; 2; 3; 4; 5; 6; 7; 8; 9; 10; 11; 12; 13; 14; 15; 16; 17; 30].

(** perf_reader.cc:1294-1350, the switch of ReadMetadataWithoutHeader. *)
Definition read_feature (ty size : N) (s : fstate) : rcall fstate :=
  if ty =? 1 then read_tracing size s
  else if ty =? 2 then rlet fuel := rask loop_fuel in build_id_loop fuel size s
  else if existsb (N.eqb ty) string_features then
    rlet t := read_single_string size in
    rret (put_meta (put_strings (aset ty t (fm_strings (fs_meta s))) (fs_meta s)) s)
  else if ty =? 11 then
    rlet count := read_u32 in
    rlet l := string_loop (N.to_nat count) 4 size in
    let m := fs_meta s in
    rret (put_meta (put_cmdline (fm_cmdline m ++ l) (put_cmdwhole (join_tokens l) m)) s)
  else if ty =? 7 then
    rlet l := read_numbers 4 size in
    rret (put_meta (put_u32 (fm_u32 (fs_meta s) ++ [(ty, l)]) (fs_meta s)) s)
  else if ty =? 10 then
    rlet l := read_numbers 8 size in
    rret (put_meta (put_u64 (fm_u64 (fs_meta s) ++ [(ty, l)]) (fs_meta s)) s)
  else if ty =? 12 then read_event_descs s
  else if ty =? 13 then read_cpu_topology size s
  else if ty =? 14 then read_numa s
  else if ty =? 15 then rret s
  else if ty =? 16 then read_pmu s
  else if ty =? 17 then read_groups s
  else if ty =? 30 then read_hybrid s
  else rret s.

(** perf_reader.cc:1281-1363, ReadMetadataWithoutHeader. *)
Definition read_metadata_item (ty size : N) (s : fstate) : rcall fstate :=
  rlet avail := rask remaining in
  rlet _ := rguard (size <=? avail) in
  rlet start := rask tell in
  rlet s := read_feature ty size s in
  let s := if existsb (N.eqb ty) supported_features then add_feature ty s else s in
  rlet pos := rask tell in
  if size =? sub64 pos start then rret s
  else
    let skip := sub64 size (sub64 pos start) in
    rlet _ := seek_set (w64 (pos + skip)) in
    rret s.

(** perf_reader.cc:1270-1277: types from HEADER_FIRST_FEATURE (1) up to, not
    including, HEADER_LAST_FEATURE (31). Dereferencing section_iter at the end is
    undefined. *)
Fixpoint metadata_loop (types : list N) (sections : list section) (s : fstate) : rcall fstate :=
  match types with
  | [] => rret s
  | ty :: r =>
      if has_feature s ty then
        match sections with
        | [] => fun rd => (UB, rd)
        | sec :: rest =>
            rlet _ := seek_set (sc_offset sec) in
            rlet s := read_metadata_item ty (sc_size sec) s in
            metadata_loop r rest s
        end
      else metadata_loop r sections s
  end.
Definition feature_types : list N := map N.of_nat (List.seq 1 30).

(** perf_reader.cc:1253-1279, ReadMetadata. *)
Definition read_metadata (h : fheader) (s : fstate) : rcall fstate :=
  rlet _ := seek_set (w64 (sc_offset (fh_data h) + sc_size (fh_data h))) in
  rlet sections := read_n (N.to_nat (get_num_bits (fs_mask s))) read_section in
  metadata_loop feature_types sections s.

(** ** Files *)

Definition inside (r : reader) (sec : section) : bool :=
  w64 (sc_offset sec + sc_size sec) <=? len (rbuf r).

(** perf_reader.cc:1783-1823, ReadFileData. *)
Definition read_file_data (cf : fconfig) (h : fheader) (s : fstate) : rcall fstate :=
  rlet ok := rask (fun r => inside r (fh_attrs h) && inside r (fh_data h) && inside r (fh_types h)) in
  rlet _ := rguard ok in
  rlet s := (if has_feature s 12 then rret s
             else rlet s := read_attrs_section h s in read_event_types_section h s) in
  rlet s := read_metadata h s in
  rlet s := read_data_section cf h s in
  rret (match fs_types s with [] => s | _ => add_feature 12 s end).

(** perf_reader.cc:2353-2400, ReadAttrEventBlock. *)
Definition read_attr_event (size : N) (s : fstate) : rcall fstate :=
  rlet start := rask tell in
  rlet a := read_event_attr in
  rlet pos := rask tell in
  let used := sub64 pos start in
  rlet _ := rguard (used <=? size) in
  rlet ids := read_ids ((size - used) / 8) in
  match ids with
  | [] =>
      if existsb (N.eqb (attr_config a)) (fs_configs_seen s) then rret s
      else rlift (add_file_attr (mkFAttr a ids) s)
  | id :: _ =>
      if existsb (N.eqb id) (fs_ids_seen s) then rret s
      else rlift (add_file_attr (mkFAttr a ids) s)
  end.

(** perf_reader.cc:2402-2437, ReadHeaderFeature; the feature number is cut to 32
    bits for ReadMetadataWithoutHeader. *)
Definition read_header_feature (h : ehdr) (s : fstate) : rcall fstate :=
  rlet _ := rguard (16 <=? h_size h) in
  rlet d := read_data 8 in
  rlet sw := rask rswap in
  let id := sw64 sw (of_le d) in
  rlet _ := rguard (negb ((id =? 1) || (id =? 2) || (id =? 15))) in
  read_metadata_item (w32 id) (h_size h - 16) s.

(** perf_reader.cc:1825-1893, ReadPipedData: [types] counts the event types read. *)
Fixpoint piped_loop (fuel : nat) (cf : fconfig) (types : N) (s : fstate) : rcall (fstate * N) :=
  rlet at_end := rask (fun r => len (rbuf r) <=? roff r) in
  if at_end then rret (s, types)
  else
    match fuel with
    | O => rhang
    | S f =>
        rlet h := read_event_header in
        if h_type h =? 64 then
          rlet s := read_attr_event (h_size h - 8) s in piped_loop f cf types s
        else if h_type h =? 65 then
          rlet s := read_event_type types (h_size h) s in piped_loop f cf (types + 1) s
        else if h_type h =? 66 then
          let s := add_feature 1 s in
          rlet size := read_u32 in
          rlet s := read_tracing size s in piped_loop f cf types s
        else if h_type h =? 67 then
          let s := add_feature 2 s in
          rlet s := read_build_id h s in piped_loop f cf types s
        else if h_type h =? 80 then
          rlet s := read_header_feature h s in piped_loop f cf types s
        else
          rlet r := read_event cf h s in piped_loop f cf types (fst r)
    end.
Definition read_piped_data (cf : fconfig) (s : fstate) : rcall fstate :=
  rlet pos := rask tell in
  rlet _ := rcheck (pos =? 16) in
  rlet fuel := rask loop_fuel in
  rlet r := piped_loop fuel cf 0 s in
  let '(s, types) := r in
  rret (if negb (has_feature s 12) && (types =? len (fs_attrs s)) then add_feature 12 s else s).

(** perf_reader.cc:511-532, ReadFromData: sizeof(perf_file_header) = 104,
    sizeof(perf_pipe_file_header) = 16. *)
Definition read_from_reader (cf : fconfig) (s : fstate) : rcall fstate :=
  rlet total := rask (fun r => len (rbuf r)) in
  rlet _ := rguard (negb (total =? 0)) in
  rlet x := read_header s in
  let '(s, size, oh) := x in
  match oh with
  | Some h => rlet _ := rguard (size =? 104) in read_file_data cf h s
  | None => read_piped_data cf s
  end.

(** perf_reader.cc:498-509, ReadFromVector / ReadFromString / ReadFromPointer of a
    new PerfReader. *)
Definition read_perf_data (cf : fconfig) (bytes : list N) : outcome fstate :=
  fst (read_from_reader cf fs_new (mkReader bytes 0 false)).
