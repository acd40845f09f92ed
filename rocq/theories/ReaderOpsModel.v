(** Operations of the PerfReader on the data it has read: sorting, build-id
    injection, renaming of files (src/quipper/perf_reader.cc). *)
From Verif Require Import Base BytesModel TextModel Assoc.
Local Open Scope N_scope.

(** One event of the PerfDataProto (perf_data.proto, PerfEvent): header type,
    misc and size, timestamp (0 when the field is unset, the proto default), for
    mapping events the filename and its MD5 prefix, and everything else as an
    opaque list. Simplification: an MD5 prefix is represented by the text it
    was computed from ([None]: unset); MD5 itself is not modelled. *)
Record revent := mkREvent {
  rv_type : N; rv_misc : N; rv_size : N; rv_time : N;
  rv_file : list N; rv_md5 : option (list N); rv_rest : list N }.

(** One build-id entry (perf_data.proto, PerfBuildID). [rb_size] is [None] when
    the optional field is unset. *)
Record rbuild := mkRBuild {
  rb_misc : N; rb_pid : N; rb_file : list N; rb_md5 : option (list N);
  rb_size : option N; rb_hash : list N; rb_injected : bool }.

(** The parts of the PerfReader that the operations read or change:
    metadata_mask(0), the sample_type of each file attr, whether a
    SampleInfoReader exists, the events and the build ids. *)
Record rproto := mkRProto {
  rp_mask : N; rp_sample_types : list N; rp_info_reader : bool;
  rp_events : list revent; rp_builds : list rbuild }.

Definition set_file (f : list N) (e : revent) : revent :=
  mkREvent (rv_type e) (rv_misc e) (rv_size e) (rv_time e) f (rv_md5 e) (rv_rest e).
Definition set_hsize (n : N) (e : revent) : revent :=
  mkREvent (rv_type e) (rv_misc e) n (rv_time e) (rv_file e) (rv_md5 e) (rv_rest e).
Definition set_bfile (f : list N) (b : rbuild) : rbuild :=
  mkRBuild (rb_misc b) (rb_pid b) f (rb_md5 b) (rb_size b) (rb_hash b) (rb_injected b).
Definition set_hash (h : list N) (b : rbuild) : rbuild :=
  mkRBuild (rb_misc b) (rb_pid b) (rb_file b) (rb_md5 b) (rb_size b) h (rb_injected b).
Definition set_injected (b : rbuild) : rbuild :=
  mkRBuild (rb_misc b) (rb_pid b) (rb_file b) (rb_md5 b) (rb_size b) (rb_hash b) true.
Definition set_events (l : list revent) (p : rproto) : rproto :=
  mkRProto (rp_mask p) (rp_sample_types p) (rp_info_reader p) l (rp_builds p).
Definition set_builds (l : list rbuild) (p : rproto) : rproto :=
  mkRProto (rp_mask p) (rp_sample_types p) (rp_info_reader p) (rp_events p) l.
(** perf_reader.h:324-326, set_metadata_mask_bit ([1 << bit] for bit < 31). *)
Definition set_mask_bit (bit : N) (p : rproto) : rproto :=
  mkRProto (N.lor (rp_mask p) (N.shiftl 1 bit)) (rp_sample_types p) (rp_info_reader p)
           (rp_events p) (rp_builds p).

(** kernel/perf_event.h: PERF_RECORD_MMAP = 1, PERF_RECORD_MMAP2 = 10. *)
Definition is_mapping (e : revent) : bool := (rv_type e =? 1) || (rv_type e =? 10).

(** ** Sorting *)

(** perf_reader.cc:219-221, CompareEventTimes. *)
Definition event_before (a b : revent) : bool := rv_time a <? rv_time b.

(** std::stable_sort with that comparison, as an insertion sort: an element is
    inserted before the first element of the sorted tail that is not before it.
    (C36_stable_sort_is_unique shows that every stable sort gives this list.) *)
Fixpoint insert_event (e : revent) (l : list revent) : list revent :=
  match l with
  | [] => [e]
  | x :: r => if event_before x e then x :: insert_event e r else e :: l
  end.

Fixpoint stable_sort (l : list revent) : list revent :=
  match l with
  | [] => []
  | e :: r => insert_event e (stable_sort r)
  end.

(** perf_reader.cc:791-806, MaybeSortEventsByTime; PERF_SAMPLE_TIME = 1 << 2. *)
Definition sort_events_by_time (p : rproto) : rproto :=
  if forallb (fun st => N.testbit st 2) (rp_sample_types p)
  then set_events (stable_sort (rp_events p)) p
  else p.

(** ** Build ids *)

(** perf_reader.cc:661-679, the first loop of InjectBuildIDs. The flag is false
    if the loop returned false; the entries before the bad one stay changed. *)
Fixpoint inject_existing (m : list (list N * list N)) (bs : list rbuild)
  : bool * list rbuild :=
  match bs with
  | [] => (true, [])
  | b :: r =>
      match aget list_eqb (rb_file b) m with
      | None => let '(ok, r') := inject_existing m r in (ok, b :: r')
      | Some id =>
          let '(ok, raw) := hex_to_raw id (repeat 0 (Nat.div (length id) 2)) in
          if ok then
            let '(ok', r') := inject_existing m r in
            (ok', set_injected (set_hash raw b) :: r')
          else (false, b :: r)
      end
  end.

(** The set updated_filenames after that loop. *)
Definition updated_filenames (m : list (list N * list N)) (bs : list rbuild)
  : list (list N) :=
  flat_map (fun b => match aget list_eqb (rb_file b) m with
                     | Some _ => [rb_file b] | None => [] end) bs.

(** perf_reader.cc:684-690: filename_to_misc, a later event replaces an earlier
    one; the misc field is stored in 16 bits. *)
Definition filename_to_misc (evs : list revent) : list (list N * N) :=
  fold_left (fun acc e => if is_mapping e then aset (rv_file e) (w16 (rv_misc e)) acc else acc)
            evs [].

(** perf_data_utils.h / perf_buildid.h: kBuildIDArraySize = 20. *)
Definition build_id_array : nat := 20.

(** What CreateBuildIDEvent puts into the build_id_event that matters later: *)
Record build_id_event := mkBIE {
  be_misc : N; be_pid : N; be_size : N; be_build_id : list N; be_filename : list N }.

(** perf_reader.cc:136-152, CreateBuildIDEvent: zeroed memory, the filename up
    to its first NUL (snprintf "%s"), the id as far as HexStringToRawData got
    (its result is ignored). pid is kDefaultBuildIDEventPid = -1, as uint32. *)
Definition create_build_id_event (id f : list N) (misc : N) : build_id_event :=
  mkBIE misc 4294967295 0 (snd (hex_to_raw id (repeat 0 build_id_array))) (c_str f).

(** perf_serializer.cc:1113-1136, SerializeBuildIDEvent;
    PERF_RECORD_MISC_BUILD_ID_SIZE = 1 << 15. The local array is uninitialised;
    0 stands for its content. *)
Definition serialize_build_id_event (ev : build_id_event) : bool * rbuild :=
  let hex := trim_zeroes_build_id (raw_to_hex (be_build_id ev)) in
  let '(ok, raw) := hex_to_raw hex (repeat 0 build_id_array) in
  (ok, mkRBuild (be_misc ev) (be_pid ev) (be_filename ev) (Some (be_filename ev))
         (if N.testbit (be_misc ev) 15 then Some (be_size ev) else None)
         (if ok then firstn (Nat.div (length hex) 2) raw else []) false).

(** perf_reader.cc:692-714, the last loop of InjectBuildIDs over the map in key
    order; PERF_RECORD_MISC_KERNEL = 1. *)
Fixpoint inject_new (misc : list (list N * N)) (updated : list (list N))
         (m : list (list N * list N)) : bool * list rbuild :=
  match m with
  | [] => (true, [])
  | (f, id) :: r =>
      if mem_by list_eqb f updated then inject_new misc updated r
      else
        let mi := match aget list_eqb f misc with Some x => x | None => 1 end in
        let '(ok, b) := serialize_build_id_event (create_build_id_event id f mi) in
        if ok then
          let '(ok', r') := inject_new misc updated r in (ok', set_injected b :: r')
        else (false, [b])
  end.

(** perf_reader.cc:656-716, InjectBuildIDs; HEADER_BUILD_ID = 2. The map is the
    list of its entries in key order. Result: return value and new state. *)
Definition inject_build_ids (m : list (list N * list N)) (p0 : rproto) : bool * rproto :=
  let p := set_mask_bit 2 p0 in
  let '(ok, bs) := inject_existing m (rp_builds p) in
  if ok then
    let '(ok', new) := inject_new (filename_to_misc (rp_events p))
                         (updated_filenames m (rp_builds p)) m in
    (ok', set_builds (bs ++ new) p)
  else (false, set_builds bs p).

(** perf_reader.cc:781-789, GetFilenamesToBuildIDs: the resulting std::map, as
    an association list (looked up with [aget]; a later entry replaces an
    earlier one). *)
Definition filenames_to_build_ids (p : rproto) : list (list N * list N) :=
  fold_left (fun acc b => aset (rb_file b) (perfize_build_id (raw_to_hex (rb_hash b))) acc)
            (rp_builds p) [].

(** ** Renaming *)

(** perf_reader.cc:2575-2600, LocalizeMMapFilenames, one event. The size is
    computed in size_t and stored in a uint32 field. *)
Definition localize_event (m : list (list N * list N)) (e : revent) : revent :=
  if is_mapping e then
    match aget list_eqb (rv_file e) m with
    | None => e
    | Some f =>
        let old_len := aligned_string_length (len (rv_file e)) in
        let new_len := aligned_string_length (len f) in
        set_hsize (w32 (w64 (sub64 (rv_size e) old_len + new_len))) (set_file f e)
    end
  else e.

(** perf_reader.cc:737-741, one build id. *)
Definition localize_build (m : list (list N * list N)) (b : rbuild) : rbuild :=
  match aget list_eqb (rb_file b) m with
  | None => b
  | Some f => set_bfile f b
  end.

(** perf_reader.cc:734-743, LocalizeUsingFilenames. CHECK fails when no
    SampleInfoReader exists. *)
Definition localize_using_filenames (m : list (list N * list N)) (p : rproto)
  : outcome rproto :=
  if rp_info_reader p then
    Ok (set_builds (map (localize_build m) (rp_builds p))
          (set_events (map (localize_event m) (rp_events p)) p))
  else Abort.

(** perf_reader.cc:718-729: the file map built by Localize. *)
Definition localize_map (ids : list (list N * list N)) (bs : list rbuild)
  : list (list N * list N) :=
  fold_left (fun acc b =>
               match aget list_eqb (perfize_build_id (raw_to_hex (rb_hash b))) ids with
               | None => acc
               | Some f => aset (rb_file b) f acc
               end) bs [].

(** perf_reader.cc:718-732, Localize. *)
Definition localize (ids : list (list N * list N)) (p : rproto) : outcome rproto :=
  localize_using_filenames (localize_map ids (rp_builds p)) p.

(** perf_reader.cc:745-761, AlternateBuildIDFilenames. The multimap is a list of
    pairs; the entries of one key are visited in list order (the order of equal
    keys in std::unordered_multimap is up to the library). *)
Definition alternate_build_id_filenames (m : list (list N * list N)) (p : rproto) : rproto :=
  let new := flat_map (fun b =>
               map (fun kv => set_bfile (snd kv) b)
                   (filter (fun kv => list_eqb (fst kv) (rb_file b)) m)) (rp_builds p) in
  set_builds (rp_builds p ++ new) p.

(** ** Files *)

(** std::string operator<: bytes compared lexicographically. *)
Fixpoint string_less (a b : list N) : bool :=
  match a, b with
  | [], [] => false
  | [], _ :: _ => true
  | _ :: _, [] => false
  | x :: a', y :: b' => if x <? y then true else if y <? x then false else string_less a' b'
  end.

(** std::set<std::string>::insert on the sorted list of the elements. *)
Fixpoint set_insert (s : list N) (l : list (list N)) : list (list N) :=
  match l with
  | [] => [s]
  | x :: r => if string_less s x then s :: l
              else if string_less x s then x :: set_insert s r
              else l
  end.

(** perf_reader.cc:763-779, GetFilenames / GetFilenamesAsSet. *)
Definition get_filenames (p : rproto) : list (list N) :=
  fold_left (fun acc e => if is_mapping e then set_insert (rv_file e) acc else acc)
            (rp_events p) [].
