(** Writing perf data: the half of src/quipper/perf_reader.cc that makes a file of
    the data held as messages. *)
From Verif Require Import Base BytesModel BufferModel EventSizeModel Assoc TextModel ReaderOpsModel SampleModel
  FileModel SerializerModel AttrModel.
Local Open Scope N_scope.

(** A writing call with a result. *)
Definition wres (A : Type) := writer -> outcome A * writer.
Definition wret {A} (a : A) : wres A := fun w => (Ok a, w).
Definition wthen {A B} (x : wres A) (f : A -> wres B) : wres B :=
  fun w =>
    match x w with
    | (Ok a, w') => f a w'
    | (Fail, w') => (Fail, w')
    | (Abort, w') => (Abort, w')
    | (UB, w') => (UB, w')
    | (Hang, w') => (Hang, w')
    end.
Notation "'wlet' x ':=' e 'in' f" := (wthen e (fun x => f))
  (at level 200, x pattern, right associativity).
(** data->Tell(), CHECK, return false, data->SeekSet() and the result of a call
    that does not write. *)
Definition wtell : wres N := fun w => (Ok (woff w), w).
Definition wcheck (b : bool) : wres unit := fun w => if b then (Ok tt, w) else (Abort, w).
Definition wguard (b : bool) : wres unit := fun w => if b then (Ok tt, w) else (Fail, w).
Definition wgoto (o : N) : wres unit := fun w => (Ok tt, wseek o w).
Definition wlift {A} (o : outcome A) : wres A := fun w => (o, w).

(** One call after the other for the elements of a list. *)
Fixpoint weach {A} (f : A -> wres unit) (l : list A) : wres unit :=
  match l with
  | [] => wret tt
  | x :: r => wlet _ := f x in weach f r
  end.

(** ** The data *)

(** perf_data.proto: hybrid topology of one PMU: its name, the text of its CPUs if
    set, its CPUs. *)
Record x_hybrid := XHybrid { xh_name : list N; xh_cpus : option (list N); xh_list : list N }.

(** PerfDataProto, as far as it is written: metadata_mask(0), file attributes,
    event types (id and name), events, build ids, and the metadata, of which
    [fm_cmdwhole] and [fm_hybrid] are not used. *)
Record wdata := mkWData {
  wd_mask : N; wd_attrs : list x_fattr; wd_types : list (N * list N);
  wd_events : list x_event; wd_builds : list rbuild; wd_meta : fmeta;
  wd_hybrid : list x_hybrid }.

(** perf_reader.cc:73-80, kSupportedMetadataMask. *)
Definition supported_mask : N := fold_right (fun b m => N.setbit m b) 0 supported_features.

(** perf_reader.cc:2439-2441, GetNumSupportedMetadata. *)
Definition num_metadata (p : wdata) : N := get_num_bits (N.land (wd_mask p) supported_mask).

(** A string field reads as the empty string if it is not set. *)
Definition text_or_empty (o : option (list N)) : list N := match o with Some t => t | None => [] end.

(** ** Sizes *)

(** perf_reader.cc:154-159, ExpectedStorageSizeOf: a 32-bit length and the
    padded text. *)
Definition stored_size (t : list N) : N := w64 (4 + aligned_string_length (len t)).

(** A sum of 64-bit sizes. *)
Definition total {A} (f : A -> N) (l : list A) : N := fold_left (fun n x => w64 (n + f x)) l 0.

(** perf_reader.cc:2443-2463, GetEventDescMetadataSize; event_types is at least
    as long as attrs behind the first test. *)
Definition event_desc_size (p : wdata) : N :=
  if len (wd_types p) <? len (wd_attrs p) then 0
  else if N.testbit (wd_mask p) 12 then
    w64 (8 + total (fun x => 96 + 4 + stored_size (snd (snd x)) + 8 * len (fx_ids (fst x)))
               (combine (wd_attrs p) (wd_types p)))
  else 0.

(** perf_reader.cc:2465-2472, GetBuildIDMetadataSize; sizeof(build_id_event) = 36. *)
Definition build_ids_size (p : wdata) : N :=
  total (fun b => 36 + aligned_string_length (len (rb_file b))) (wd_builds p).

(** perf_reader.cc:2474-2497, GetStringMetadataSize: the strings that are set,
    and the command line if it has a token. *)
Definition strings_size (p : wdata) : N :=
  let m := wd_meta p in
  let one ty := match aget N.eqb ty (fm_strings m) with Some t => stored_size t | None => 0 end in
  let tokens := match fm_cmdline m with
                | [] => 0
                | l => w64 (4 + total stored_size l)
                end in
  w64 (total one string_features + tokens).

(** perf_reader.cc:2499-2511, GetUint32MetadataSize, GetUint64MetadataSize: of
    every entry, whatever its type. *)
Definition u32_size (p : wdata) : N := total (fun x => 4 * len (snd x)) (fm_u32 (wd_meta p)).
Definition u64_size (p : wdata) : N := total (fun x => 8 * len (snd x)) (fm_u64 (wd_meta p)).

(** perf_reader.cc:2513-2529, GetCPUTopologyMetadataSize. *)
Definition cpu_topology_size (p : wdata) : N :=
  let m := wd_meta p in
  w64 (4 + total stored_size (fm_cores m) + 4 + total stored_size (fm_threads m)
       + 8 * len (fm_cpus m)).

(** perf_reader.cc:2531-2568, GetNUMATopologyMetadataSize,
    GetPMUMappingsMetadataSize, GetGroupDescMetadataSize. *)
Definition numa_size (p : wdata) : N :=
  w64 (4 + total (fun x => 4 + 8 + 8 + stored_size (snd x)) (fm_numa (wd_meta p))).
Definition pmu_size (p : wdata) : N :=
  w64 (4 + total (fun x => 4 + stored_size (snd x)) (fm_pmu (wd_meta p))).
Definition group_size (p : wdata) : N :=
  w64 (4 + total (fun x => stored_size (fst (fst x)) + 4 + 4) (fm_group (wd_meta p))).

(** perf_reader.cc:2557-2569, GetHybridTopologyMetadataSize: by has_cpus(). *)
Definition hybrid_size (p : wdata) : N :=
  w64 (4 + total (fun h => stored_size (xh_name h)
                           + stored_size (match xh_cpus h with
                                          | Some t => t
                                          | None => format_cpu_numbers (xh_list h)
                                          end)) (wd_hybrid p)).

(** ** The header *)

(** perf_reader.cc:602-654, GenerateHeader: sizeof(perf_file_header) = 104,
    sizeof(perf_file_attr) = 112; the section of event types is empty. *)
Definition ids_size (p : wdata) : N := total (fun a => 8 * len (fx_ids a)) (wd_attrs p).
Definition data_size (p : wdata) : N :=
  total (fun x => xe_size x + (if xe_type x =? R_AUXTRACE then xat_size (get_auxtrace (xe_body x)) else 0))
    (wd_events p).
Definition generate_header (p : wdata) : fheader :=
  let attrs_size := w64 (112 * len (wd_attrs p)) in
  let attrs_off := w64 (104 + ids_size p) in
  let types_off := w64 (attrs_off + attrs_size) in
  mkFHeader 112 (mkSection attrs_off attrs_size) (mkSection types_off (data_size p))
    (mkSection types_off 0)
    (le_bytes 8 (N.land (wd_mask p) supported_mask) ++ repeat 0 24).

(** perf_reader.cc:569-600, GetSize. *)
Definition get_size (p : wdata) : N :=
  let h := generate_header p in
  w64 (104 + sc_size (fh_attrs h) + sc_size (fh_types h) + sc_size (fh_data h) + ids_size p
       + 16 * num_metadata p + len (fm_tracing (wd_meta p)) + build_ids_size p + strings_size p
       + u32_size p + u64_size p + event_desc_size p + cpu_topology_size p + numa_size p
       + pmu_size p + group_size p + hybrid_size p).

(** ** Writing *)

(** struct perf_file_section and struct perf_file_header in memory
    (kernel/perf_internals.h:63-89). *)
Definition section_bytes (s : section) : list N := le_bytes 8 (sc_offset s) ++ le_bytes 8 (sc_size s).
Definition header_bytes (h : fheader) : list N :=
  le_bytes 8 perf_magic ++ le_bytes 8 104 ++ le_bytes 8 (fh_attr_size h) ++
  section_bytes (fh_attrs h) ++ section_bytes (fh_data h) ++ section_bytes (fh_types h) ++
  fh_features h.

(** perf_reader.cc:1927-1932, WriteHeader. *)
Definition write_header (h : fheader) : wres unit := write_data (header_bytes h).

(** perf_reader.cc:1934-1962, WriteAttrs. *)
Fixpoint write_ids (l : list x_fattr) : wres (list section) :=
  match l with
  | [] => wret []
  | a :: r =>
      wlet pos := wtell in
      wlet _ := weach (fun id => write_data (le_bytes 8 id)) (fx_ids a) in
      wlet rest := write_ids r in
      wret (mkSection pos (8 * len (fx_ids a)) :: rest)
  end.
Definition write_attrs (h : fheader) (p : wdata) : wres unit :=
  wlet pos := wtell in
  wlet _ := wcheck (pos =? 104) in
  wlet secs := write_ids (wd_attrs p) in
  wlet pos := wtell in
  wlet _ := wcheck (pos =? sc_offset (fh_attrs h)) in
  weach (fun x => wlet _ := write_data (des_attr (fx_attr (fst x))) in
                  write_data (section_bytes (snd x)))
        (combine (wd_attrs p) secs).

(** perf_reader.cc:1964-2007, WriteData. [ord] is the order of the entries of a
    protobuf map. *)
Definition write_event ord (s : sstate) (x : x_event) : wres unit :=
  wlet size := wlift (x_size s x) in
  wlet _ := wguard (negb (size =? 0)) in
  wlet _ := wguard (xe_size x =? size) in
  wlet e := wlift (deserialize ord s x) in
  wlet d := wlift (mem_read e 0 (ev_size e)) in
  wlet _ := write_data d in
  let aux := get_auxtrace (xe_body x) in
  if (xe_type x =? R_AUXTRACE) && (0 <? xat_size aux) then write_data (xat_trace aux) else wret tt.
Definition write_events ord (s : sstate) (h : fheader) (p : wdata) : wres unit :=
  match wd_events p with
  | [] => wret tt
  | l =>
      wlet _ := wcheck (negb (match ss_readers s with [] => true | _ => false end)) in
      wlet pos := wtell in
      wlet _ := wcheck (pos =? sc_offset (fh_data h)) in
      weach (write_event ord s) l
  end.

(** perf_serializer.cc:1138-1160, DeserializeBuildIDEvent: the id is copied
    without looking at its length; the result of snprintf must not be 0. *)
Definition des_build_id (b : rbuild) : outcome (list N) :=
  let size := w64 (36 + aligned_string_length (len (rb_file b))) in
  let e := repeat 0 (N.to_nat size) in
  let! e := stores e [u32_at 0 67; u16_at 6 size; u16_at 4 (rb_misc b); u32_at 8 (rb_pid b);
                      (12, rb_hash b)] in
  let! e := if N.testbit (rb_misc b) 15
            then stores e [(32, le_bytes 1 (value_or 0 (rb_size b)))] else Ok e in
  match rb_file b with
  | [] => Ok e
  | f => match c_str f with
         | [] => Abort
         | t => stores e [(36, t ++ [0])]
         end
  end.

(** perf_reader.cc:2128-2143, WriteBuildIDMetadata. *)
Definition write_build_id (b : rbuild) : wres unit :=
  wlet e := wlift (des_build_id b) in
  wlet d := wlift (mem_read e 0 (ev_size e)) in
  write_data d.

(** perf_reader.cc:2145-2164, WriteSingleStringMetadata,
    WriteRepeatedStringMetadata; num_string_data_type is 32 bits wide. *)
Definition write_strings (l : list (list N)) : wres unit :=
  wlet _ := write_data (le_bytes 4 (len l)) in
  weach write_string_with_size l.

(** perf_reader.cc:2166-2194, WriteUint32Metadata, WriteUint64Metadata: the first
    entry of the type. *)
Fixpoint write_numbers (n : nat) (ty : N) (l : list (N * list N)) : wres unit :=
  match l with
  | [] => wguard false
  | (t, d) :: r => if t =? ty then write_data (concat (map (le_bytes n) d)) else write_numbers n ty r
  end.

(** perf_reader.cc:2196-2243, WriteEventDescMetadata, with
    DeserializePerfEventType (perf_serializer.cc:304-316). *)
Definition write_event_desc (x : x_fattr * (N * list N)) : wres unit :=
  let '(a, (id, name)) := x in
  wlet _ := wguard (attr_config (des_attr (fx_attr a)) =? id) in
  wlet _ := write_data (des_attr (fx_attr a)) in
  wlet _ := write_data (le_bytes 4 (len (fx_ids a))) in
  wlet _ := write_string_with_size name in
  write_data (concat (map (le_bytes 8) (firstn (N.to_nat (w32 (len (fx_ids a)))) (fx_ids a)))).
Definition write_event_descs (p : wdata) : wres unit :=
  wlet _ := wguard (len (wd_attrs p) <=? len (wd_types p)) in
  wlet _ := write_data (le_bytes 4 (len (wd_attrs p))) in
  wlet _ := write_data (le_bytes 4 96) in
  weach write_event_desc (combine (wd_attrs p) (wd_types p)).

(** perf_reader.cc:2245-2278, WriteCPUTopologyMetadata. *)
Definition write_cpu_topology (m : fmeta) : wres unit :=
  wlet _ := write_strings (fm_cores m) in
  wlet _ := write_strings (fm_threads m) in
  weach (fun c => wlet _ := write_data (le_bytes 4 (fst c)) in write_data (le_bytes 4 (snd c)))
        (fm_cpus m).

(** perf_reader.cc:2280-2299, WriteNUMATopologyMetadata. *)
Definition write_numa (m : fmeta) : wres unit :=
  wlet _ := write_data (le_bytes 4 (len (fm_numa m))) in
  weach (fun x => let '(id, total, free, cpus) := x in
                  wlet _ := write_data (le_bytes 4 id) in
                  wlet _ := write_data (le_bytes 8 total) in
                  wlet _ := write_data (le_bytes 8 free) in
                  write_string_with_size cpus) (fm_numa m).

(** perf_reader.cc:2301-2317, WritePMUMappingsMetadata. *)
Definition write_pmu (m : fmeta) : wres unit :=
  wlet _ := write_data (le_bytes 4 (len (fm_pmu m))) in
  weach (fun x => wlet _ := write_data (le_bytes 4 (fst x)) in write_string_with_size (snd x)) (fm_pmu m).

(** perf_reader.cc:2319-2336, WriteGroupDescMetadata. *)
Definition write_groups (m : fmeta) : wres unit :=
  wlet _ := write_data (le_bytes 4 (len (fm_group m))) in
  weach (fun x => let '(name, leader, members) := x in
                  wlet _ := write_string_with_size name in
                  wlet _ := write_data (le_bytes 4 leader) in
                  write_data (le_bytes 4 members)) (fm_group m).

(** perf_reader.cc:2338-2351, WriteHybridTopologyMetadata: by cpus.empty(). *)
Definition write_hybrid (l : list x_hybrid) : wres unit :=
  wlet _ := write_data (le_bytes 4 (len l)) in
  weach (fun h => wlet _ := write_string_with_size (xh_name h) in
                  write_string_with_size (match text_or_empty (xh_cpus h) with
                                          | [] => format_cpu_numbers (xh_list h)
                                          | t => t
                                          end)) l.

(** perf_reader.cc:2039-2107, the switch of WriteMetadata. A string that is not set
    reads as the empty one. *)
Definition write_feature (p : wdata) (ty : N) : wres unit :=
  let m := wd_meta p in
  if ty =? 1 then write_data (fm_tracing m)
  else if ty =? 2 then weach write_build_id (wd_builds p)
  else if existsb (N.eqb ty) string_features then
    write_string_with_size (text_or_empty (aget N.eqb ty (fm_strings m)))
  else if ty =? 11 then write_strings (fm_cmdline m)
  else if ty =? 7 then write_numbers 4 ty (fm_u32 m)
  else if ty =? 10 then write_numbers 8 ty (fm_u64 m)
  else if ty =? 12 then write_event_descs p
  else if ty =? 13 then write_cpu_topology m
  else if ty =? 14 then write_numa m
  else if ty =? 15 then wret tt
  else if ty =? 16 then write_pmu m
  else if ty =? 17 then write_groups m
  else if ty =? 30 then write_hybrid (wd_hybrid p)
  else wguard false.

(** perf_reader.cc:2030-2113: the loop over the features of the header. *)
Fixpoint write_features (p : wdata) (features : N) (l : list N) : wres (list section) :=
  match l with
  | [] => wret []
  | ty :: r =>
      if N.testbit features ty then
        wlet start := wtell in
        wlet _ := write_feature p ty in
        wlet stop := wtell in
        wlet rest := write_features p features r in
        wret (mkSection start (sub64 stop start) :: rest)
      else write_features p features r
  end.

(** perf_reader.cc:2009-2126, WriteMetadata; [headers_size] bytes are copied from
    the vector of sections. *)
Definition write_metadata (h : fheader) (p : wdata) : wres unit :=
  let header_off := w64 (sc_offset (fh_data h) + sc_size (fh_data h)) in
  wlet pos := wtell in
  wlet _ := wcheck (pos =? header_off) in
  let headers_size := 16 * num_metadata p in
  let metadata_off := w64 (header_off + headers_size) in
  wlet _ := wgoto metadata_off in
  wlet secs := write_features p (of_le (slice (fh_features h) 0 8)) feature_types in
  wlet _ := wcheck (num_metadata p =? len secs) in
  wlet old := wtell in
  wlet _ := wgoto header_off in
  wlet d := wlift (mem_read (concat (map section_bytes secs)) 0 headers_size) in
  wlet _ := write_data d in
  wlet pos := wtell in
  wlet _ := wcheck (pos =? metadata_off) in
  wgoto old.

(** perf_reader.cc:560-567, WriteToPointerWithoutCheckingSize. *)
Definition write_all ord (s : sstate) (p : wdata) : wres unit :=
  let h := generate_header p in
  wlet _ := write_header h in
  wlet _ := write_attrs h p in
  wlet _ := write_events ord s h p in
  write_metadata h p.

(** perf_reader.cc:540-548, WriteToVector (WriteToString): the buffer is new and
    zeroed. [room] is the number of bytes that can be allocated (more is
    std::bad_alloc or std::length_error); at(0) of an empty buffer throws. *)
Definition write_to_vector ord (room : N) (s : sstate) (p : wdata) : outcome (list N) :=
  let n := get_size p in
  if room <? n then Abort
  else if n =? 0 then Abort
  else match write_all ord s p (mkWriter (repeat 0 (N.to_nat n)) 0) with
       | (Ok _, w) => Ok (wbuf w)
       | (Fail, _) => Fail | (Abort, _) => Abort | (UB, _) => UB | (Hang, _) => Hang
       end.

(** perf_reader.cc:550-558, WriteToPointer: into the caller's buffer. *)
Definition write_to_pointer ord (s : sstate) (p : wdata) (buf : list N) : outcome (list N) :=
  if len buf <? get_size p then Fail
  else match write_all ord s p (mkWriter buf 0) with
       | (Ok _, w) => Ok (wbuf w)
       | (Fail, _) => Fail | (Abort, _) => Abort | (UB, _) => UB | (Hang, _) => Hang
       end.

(** perf_reader.cc:2616-2626, PopulateMissingEventSize; header().size() is 32 bits
    wide. *)
Fixpoint populate_sizes (s : sstate) (l : list x_event) : outcome (list x_event) :=
  match l with
  | [] => Ok []
  | x :: r =>
      let! x := if 0 <? xe_size x then Ok x
                else let! n := x_size s x in
                     if n =? 0 then Fail
                     else Ok (XEvent (xe_type x) (xe_misc x) (w32 n) (xe_body x) (xe_time x)) in
      let! r := populate_sizes s r in
      Ok (x :: r)
  end.

(** perf_reader.cc:472-487, Deserialize into a new PerfReader: the serializer and
    the data it then holds. *)
Definition from_messages (p : wdata) : outcome (sstate * wdata) :=
  let! s := create_readers (map (fun a => (raw_attr (des_attr (fx_attr a)), fx_ids a)) (wd_attrs p))
              (new_serializer false) in
  let! evs := populate_sizes s (wd_events p) in
  Ok (s, mkWData (wd_mask p) (wd_attrs p) (wd_types p) evs (wd_builds p) (wd_meta p) (wd_hybrid p)).
