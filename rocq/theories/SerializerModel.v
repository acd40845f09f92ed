(** Model of src/quipper/perf_serializer.cc: raw perf events to PerfEvent
    messages and back. A raw event is the memory block it was allocated in
    (EventSizeModel); a message is a record of its fields. Fields the code asks
    for with has_...() are options, the others are values with the default 0 or
    empty. Left out: the md5 prefixes and root paths, which are computed from
    other fields and never read back, and everything that is only logged. *)
From Verif Require Import Base BytesModel BufferModel EventSizeModel TextModel SampleModel
  FileModel.
Local Open Scope N_scope.

(** ** Messages (perf_data.proto) *)

(** perf_data.proto:208-226, SampleInfo. *)
Record x_info := XInfo {
  xi_pid : option N; xi_tid : option N; xi_time : option N; xi_id : option N;
  xi_cpu : option N; xi_stream : option N }.
Definition no_info : x_info := XInfo None None None None None None.

(** perf_data.proto:252-307, MMapEvent (MMAP and MMAP2). *)
Record x_mmap := XMmap {
  xm_pid : N; xm_tid : N; xm_start : N; xm_len : N; xm_pgoff : N;
  xm_maj : N; xm_min : N; xm_ino : N; xm_ino_gen : N; xm_build_id : option (list N);
  xm_prot : N; xm_flags : N; xm_filename : list N; xm_info : x_info }.
(** perf_data.proto:229-248, CommEvent. *)
Record x_comm := XComm { xc_pid : N; xc_tid : N; xc_comm : list N; xc_info : x_info }.
(** perf_data.proto:503-521, ForkEvent (FORK and EXIT). *)
Record x_fork := XFork {
  xf_pid : N; xf_ppid : N; xf_tid : N; xf_ptid : N; xf_time : N; xf_info : x_info }.
(** perf_data.proto:527-537, LostEvent. *)
Record x_lost := XLost { xl_id : N; xl_lost : N; xl_info : x_info }.
(** perf_data.proto:540-552, ThrottleEvent. *)
Record x_throttle := XThrottle {
  xth_time : N; xth_id : N; xth_stream : N; xth_info : x_info }.
(** perf_data.proto:581-599, AuxEvent. *)
Record x_aux := XAux {
  xa_offset : N; xa_size : N; xa_truncated : bool; xa_overwrite : bool; xa_partial : bool;
  xa_info : x_info }.
(** perf_data.proto:700-707, ItraceStartEvent. *)
Record x_itrace := XItrace { xit_pid : N; xit_tid : N; xit_info : x_info }.
(** perf_data.proto:712-718, LostSamplesEvent. *)
Record x_lost_samples := XLostSamples { xls_lost : N; xls_info : x_info }.
(** perf_data.proto:721-733, ContextSwitchEvent. *)
Record x_switch := XSwitch {
  xs_is_out : bool; xs_pid : N; xs_tid : N; xs_info : x_info }.
(** perf_data.proto:745-757, NamespacesEvent; a link is (dev, ino). *)
Record x_namespaces := XNamespaces {
  xn_pid : N; xn_tid : N; xn_links : list (N * N); xn_info : x_info }.
(** perf_data.proto:826-835, CgroupEvent. *)
Record x_cgroup := XCgroup { xcg_id : N; xcg_path : list N; xcg_info : x_info }.
(** perf_data.proto:310-329, KsymbolEvent. *)
Record x_ksymbol := XKsymbol {
  xk_addr : N; xk_len : N; xk_type : N; xk_flags : N; xk_name : list N; xk_info : x_info }.
(** perf_data.proto:332-342, BpfMetadataEvent; the map as its entries in the
    order of insertion. *)
Record x_bpf := XBpf {
  xb_prog : list N; xb_metadata : list (list N * list N); xb_info : x_info }.
(** perf_data.proto:602-626, AuxtraceInfoEvent. *)
Record x_auxinfo := XAuxInfo { xai_type : N; xai_priv : list N }.
(** perf_data.proto:629-651, AuxtraceEvent; the trace data is put in by
    SerializeAuxtraceEventTraceData. *)
Record x_auxtrace := XAuxtrace {
  xat_size : N; xat_offset : N; xat_reference : N; xat_idx : N; xat_tid : N; xat_cpu : N;
  xat_trace : list N }.
(** perf_data.proto:654-678, AuxtraceErrorEvent. *)
Record x_auxerror := XAuxError {
  xer_type : N; xer_code : N; xer_cpu : N; xer_pid : N; xer_tid : N; xer_ip : N;
  xer_msg : list N }.
(** perf_data.proto:681-693, IdIndexEventEntry. *)
Record x_id_entry := XIdEntry { xie_id : N; xie_idx : N; xie_cpu : N; xie_tid : N }.
(** perf_data.proto:792-810, StatEvent. *)
Record x_stat := XStat {
  xst_id : N; xst_cpu : N; xst_thread : N; xst_value : N; xst_enabled : N; xst_running : N }.
(** perf_data.proto:839-854, TimeConvEvent. Only has_time_cycles() is asked for:
    [None] is the short form. *)
Record x_time_conv := XTimeConv {
  xtc_shift : N; xtc_mult : N; xtc_zero : N;
  xtc_cycles : option N; xtc_mask : N; xtc_cap_zero : bool; xtc_cap_short : bool }.

(** perf_data.proto:345-360, ReadInfo. *)
Record x_read_value := XReadValue { xrv_value : N; xrv_id : N; xrv_lost : N }.
Record x_read := XRead { xr_enabled : N; xr_running : N; xr_values : list x_read_value }.
(** perf_data.proto:363-390, BranchStackEntry. *)
Record x_branch := XBranch {
  xbr_from : N; xbr_to : N; xbr_mispred : bool; xbr_predicted : bool; xbr_in_tx : bool;
  xbr_abort : bool; xbr_cycles : N; xbr_type : N; xbr_spec : N }.
(** perf_data.proto:413-497, SampleEvent. *)
Record x_sample := XSample {
  xsa_ip : option N; xsa_pid : option N; xsa_tid : option N; xsa_time : option N;
  xsa_addr : option N; xsa_id : option N; xsa_stream : option N; xsa_period : option N;
  xsa_cpu : option N; xsa_raw : list N; xsa_raw_size : N; xsa_read : option x_read;
  xsa_callchain : list N; xsa_branch : list x_branch;
  xsa_weight : option N; xsa_data_src : option N; xsa_transaction : option N;
  xsa_phys : option N; xsa_cgroup : option N; xsa_data_page : option N;
  xsa_code_page : option N; xsa_no_hw_idx : option bool; xsa_hw_idx : option N;
  xsa_weight_struct : option (N * N * N) }.

(** perf_data.proto:866-901, PerfEvent: the header, the oneof and the time. *)
Inductive x_body : Type :=
| XNothing
| XBMmap (m : x_mmap) | XBSample (m : x_sample) | XBComm (m : x_comm)
| XBFork (m : x_fork) | XBExit (m : x_fork) | XBLost (m : x_lost)
| XBThrottle (m : x_throttle) | XBAux (m : x_aux) | XBItrace (m : x_itrace)
| XBLostSamples (m : x_lost_samples) | XBSwitch (m : x_switch)
| XBNamespaces (m : x_namespaces) | XBCgroup (m : x_cgroup) | XBKsymbol (m : x_ksymbol)
| XBBpf (m : x_bpf) | XBAuxInfo (m : x_auxinfo) | XBAuxtrace (m : x_auxtrace)
| XBAuxError (m : x_auxerror) | XBIdIndex (l : list x_id_entry)
| XBThreadMap (l : list (N * list N)) | XBStatConfig (l : list (N * N))
| XBStat (m : x_stat) | XBStatRound (ty time : N) | XBTimeConv (m : x_time_conv).
Record x_event := XEvent {
  xe_type : N; xe_misc : N; xe_size : N; xe_body : x_body; xe_time : N }.

(** The accessors of the oneof: the default message when another one is set. *)
Definition get_mmap (b : x_body) : x_mmap :=
  match b with XBMmap m => m | _ => XMmap 0 0 0 0 0 0 0 0 0 None 0 0 [] no_info end.
Definition get_sample (b : x_body) : x_sample :=
  match b with
  | XBSample m => m
  | _ => XSample None None None None None None None None None [] 0 None [] [] None None None
           None None None None None None None
  end.
Definition get_comm (b : x_body) : x_comm :=
  match b with XBComm m => m | _ => XComm 0 0 [] no_info end.
Definition no_fork : x_fork := XFork 0 0 0 0 0 no_info.
Definition get_fork (b : x_body) : x_fork := match b with XBFork m => m | _ => no_fork end.
Definition get_exit (b : x_body) : x_fork := match b with XBExit m => m | _ => no_fork end.
Definition get_lost (b : x_body) : x_lost :=
  match b with XBLost m => m | _ => XLost 0 0 no_info end.
Definition get_throttle (b : x_body) : x_throttle :=
  match b with XBThrottle m => m | _ => XThrottle 0 0 0 no_info end.
Definition get_aux (b : x_body) : x_aux :=
  match b with XBAux m => m | _ => XAux 0 0 false false false no_info end.
Definition get_itrace (b : x_body) : x_itrace :=
  match b with XBItrace m => m | _ => XItrace 0 0 no_info end.
Definition get_lost_samples (b : x_body) : x_lost_samples :=
  match b with XBLostSamples m => m | _ => XLostSamples 0 no_info end.
Definition get_switch (b : x_body) : x_switch :=
  match b with XBSwitch m => m | _ => XSwitch false 0 0 no_info end.
Definition get_namespaces (b : x_body) : x_namespaces :=
  match b with XBNamespaces m => m | _ => XNamespaces 0 0 [] no_info end.
Definition get_cgroup (b : x_body) : x_cgroup :=
  match b with XBCgroup m => m | _ => XCgroup 0 [] no_info end.
Definition get_ksymbol (b : x_body) : x_ksymbol :=
  match b with XBKsymbol m => m | _ => XKsymbol 0 0 0 0 [] no_info end.
Definition get_bpf (b : x_body) : x_bpf :=
  match b with XBBpf m => m | _ => XBpf [] [] no_info end.
Definition get_auxinfo (b : x_body) : x_auxinfo :=
  match b with XBAuxInfo m => m | _ => XAuxInfo 0 [] end.
Definition get_auxtrace (b : x_body) : x_auxtrace :=
  match b with XBAuxtrace m => m | _ => XAuxtrace 0 0 0 0 0 0 [] end.
Definition get_auxerror (b : x_body) : x_auxerror :=
  match b with XBAuxError m => m | _ => XAuxError 0 0 0 0 0 0 [] end.
Definition get_id_index (b : x_body) : list x_id_entry :=
  match b with XBIdIndex l => l | _ => [] end.
Definition get_thread_map (b : x_body) : list (N * list N) :=
  match b with XBThreadMap l => l | _ => [] end.
Definition get_stat_config (b : x_body) : list (N * N) :=
  match b with XBStatConfig l => l | _ => [] end.
Definition get_stat (b : x_body) : x_stat :=
  match b with XBStat m => m | _ => XStat 0 0 0 0 0 0 end.
Definition get_stat_round (b : x_body) : N * N :=
  match b with XBStatRound ty t => (ty, t) | _ => (0, 0) end.
Definition get_time_conv (b : x_body) : x_time_conv :=
  match b with XBTimeConv m => m | _ => XTimeConv 0 0 0 None 0 false false end.

(** ** The sample info readers *)

(** perf_serializer.h:286-348: readers by id (a std::map), the byte order given
    to them, and where the event id is in samples and in other events ([None]
    not known yet, [Some None] absent). *)
Record sstate := mkSS {
  ss_readers : list (N * attr); ss_swap : bool;
  ss_sample_pos : option (option N); ss_other_pos : option (option N) }.

(** map[id] = v in an ordered map. *)
Fixpoint reader_set (id : N) (a : attr) (m : list (N * attr)) : list (N * attr) :=
  match m with
  | [] => [(id, a)]
  | (k, b) :: r =>
      if id <? k then (id, a) :: m
      else if id =? k then (id, a) :: r
      else (k, b) :: reader_set id a r
  end.

(** perf_serializer.cc:1621-1666, UpdateEventIdPositions. The positions are those
    of FileModel.id_positions, which models the same lines. *)
Definition set_positions (st : N) (s : sstate) : outcome sstate :=
  let '(sp, op) := id_positions st in
  let ok old new := match old with None => true | Some o => pos_eqb o new end in
  if ok (ss_sample_pos s) sp && ok (ss_other_pos s) op
  then Ok (mkSS (ss_readers s) (ss_swap s) (Some sp) (Some op))
  else Fail.

(** perf_serializer.cc:1611-1619, CreateSampleInfoReader. *)
Definition create_reader (a : attr) (ids : list N) (s : sstate) : outcome sstate :=
  let ids := match ids with [] => [0] | _ => ids end in
  set_positions (at_sample_type a)
    (mkSS (fold_left (fun m id => reader_set id a m) ids (ss_readers s))
          (ss_swap s) (ss_sample_pos s) (ss_other_pos s)).

(** The serializer after a sequence of attributes; a failure ends it. *)
Fixpoint create_readers (l : list (attr * list N)) (s : sstate) : outcome sstate :=
  match l with
  | [] => Ok s
  | (a, ids) :: r => let! s' := create_reader a ids s in create_readers r s'
  end.
Definition new_serializer (swap : bool) : sstate := mkSS [] swap None None.

(** perf_serializer.cc:97-109, ContainsSampleInfo. *)
Definition contains_info (s : sstate) (ty : N) : bool :=
  if ty =? R_SAMPLE then true
  else supported_type ty &&
       match ss_readers s with [] => false | (_, a) :: _ => at_sample_id_all a end.

(** perf_serializer.cc:1737-1747, GetSampleInfoReaderForId. *)
Fixpoint reader_find (id : N) (m : list (N * attr)) : option attr :=
  match m with
  | [] => None
  | (k, a) :: r => if k =? id then Some a else reader_find id r
  end.
Definition reader_for_id (s : sstate) (id : N) : option attr :=
  if id =? 0 then match ss_readers s with [] => None | (_, a) :: _ => Some a end
  else reader_find id (ss_readers s).

(** perf_serializer.cc:1668-1735, GetSampleInfoReaderForEvent; a null result is
    [Fail], LOG(FATAL) is [Abort]. *)
Definition reader_for_event (s : sstate) (e : list N) : outcome attr :=
  let ty := ev_type e in
  let find id := match reader_for_id s id with Some a => Ok a | None => Fail end in
  let pos := if ty =? R_SAMPLE then ss_sample_pos s
             else if contains_info s ty then ss_other_pos s else Some None in
  match pos with
  | None => Abort
  | Some None => find 0
  | Some (Some p) =>
      let! offset := event_data_size e in
      if ev_size e <=? offset then Fail
      else
        let start := 8 * (offset / 8) in
        let n := (ev_size e - offset) / 8 in
        if ty =? R_SAMPLE then
          if n <=? p then Fail
          else let! id := ev_u64 e (start + 8 * p) in find id
        else
          if n <? p then Fail
          else let! id := ev_u64 e (start + 8 * (n - p)) in find id
  end.

(** perf_serializer.cc:1749-1761, ReadPerfSampleInfoAndType: the sample and the
    attributes it was read with. *)
Definition read_info_and_attr (s : sstate) (e : list N) : outcome (psample * attr) :=
  let! a := reader_for_event s e in
  let! ps := read_sample_info a (ss_swap s) e fresh_sample in
  Ok (ps, a).

(** ** Raw events to messages *)

(** A member of [w] bytes at [off]; reading outside the block is undefined. *)
Definition num (e : list N) (off w : N) : outcome N :=
  let! d := mem_read e off w in Ok (of_le d).

Definition give {A} (b : bool) (v : A) : option A := if b then Some v else None.

(** perf_serializer.cc:1053-1074, SerializeSampleInfo. *)
Definition ser_info (s : sstate) (e : list N) : outcome x_info :=
  if negb (contains_info s (ev_type e)) then Ok no_info
  else
    let! (ps, a) := read_info_and_attr s e in
    let has b := N.testbit (at_sample_type a) b in
    Ok (XInfo (give (has B_TID) (s_pid ps)) (give (has B_TID) (s_tid ps))
              (give (has B_TIME) (s_time ps))
              (give (has B_ID || has B_IDENTIFIER) (s_id ps))
              (give (has B_CPU) (s_cpu ps)) (give (has B_STREAM_ID) (s_stream_id ps))).

(** perf_serializer.cc:635-651, one branch entry; kernel/perf_internals.h:298-307,
    the bits of its flags. *)
Definition ser_branch (b : branch_entry) : x_branch :=
  let f := be_flags b in
  XBranch (be_from b) (be_to b) (N.testbit f 0) (N.testbit f 1) (N.testbit f 2) (N.testbit f 3)
          (N.shiftr f 4 mod 2 ^ 16) (N.shiftr f 20 mod 2 ^ 4) (N.shiftr f 24 mod 2 ^ 2).

(** perf_serializer.cc:598-624, the read info; the second lookup of the reader
    finds the one of the first. *)
Definition ser_read (a : attr) (ps : psample) : outcome x_read :=
  let fmt b := N.testbit (at_read_format a) b in
  let value v := XReadValue (rv_value v) (if fmt F_ID then rv_id v else 0)
                            (if fmt F_LOST then rv_lost v else 0) in
  let! vs := if fmt F_GROUP
             then match s_group ps with Some vs => Ok vs | None => Ok [] end
             else Ok [s_one ps] in
  Ok (XRead (if fmt F_TIME_ENABLED then s_time_enabled ps else 0)
            (if fmt F_TIME_RUNNING then s_time_running ps else 0) (map value vs)).

(** perf_serializer.cc:572-675, SerializeSampleEvent. *)
Definition ser_sample (s : sstate) (e : list N) : outcome x_sample :=
  let! (ps, a) := read_info_and_attr s e in
  let has b := N.testbit (at_sample_type a) b in
  let! read := if has B_READ then let! r := ser_read a ps in Ok (Some r) else Ok None in
  let! chain := if has B_CALLCHAIN
                then match s_callchain ps with Some l => Ok l | None => UB end else Ok [] in
  let! (no_hw, hw, branch) :=
    if has B_BRANCH_STACK
    then match s_branch ps, s_no_hw_idx ps with
         | Some bs, Some no_hw =>
             Ok (Some no_hw, Some (bs_hw_idx bs), map ser_branch (bs_entries bs))
         | _, _ => UB
         end
    else Ok (None, None, []) in
  Ok (XSample (give (has B_IP) (s_ip ps)) (give (has B_TID) (s_pid ps))
        (give (has B_TID) (s_tid ps)) (give (has B_TIME) (s_time ps))
        (give (has B_ADDR) (s_addr ps)) (give (has B_ID || has B_IDENTIFIER) (s_id ps))
        (give (has B_STREAM_ID) (s_stream_id ps)) (give (has B_PERIOD) (s_period ps))
        (give (has B_CPU) (s_cpu ps))
        (if has B_RAW then s_raw ps else []) (if has B_RAW then len (s_raw ps) else 0)
        read chain branch
        (give (has B_WEIGHT) (s_weight ps)) (give (has B_DATA_SRC) (s_data_src ps))
        (give (has B_TRANSACTION) (s_transaction ps)) (give (has B_PHYS_ADDR) (s_phys_addr ps))
        (give (has B_CGROUP) (s_cgroup ps)) (give (has B_DATA_PAGE_SIZE) (s_data_page ps))
        (give (has B_CODE_PAGE_SIZE) (s_code_page ps)) no_hw hw
        (give (has B_WEIGHT_STRUCT)
           (s_weight ps mod two32, (s_weight ps / two32) mod two16, (s_weight ps / 2 ^ 48) mod two16))).

(** perf_serializer.cc:689-706, SerializeMMapEvent; the filename is a C string in
    the block. *)
Definition ser_mmap (s : sstate) (e : list N) : outcome x_mmap :=
  let! pid := num e 8 4 in
  let! tid := num e 12 4 in
  let! start := num e 16 8 in
  let! len := num e 24 8 in
  let! pgoff := num e 32 8 in
  let! filename := ev_c_str e 40 in
  let! info := ser_info s e in
  Ok (XMmap pid tid start len pgoff 0 0 0 0 None 0 0 filename info).

(** perf_serializer.cc:721-754, SerializeMMap2Event;
    PERF_RECORD_MISC_MMAP_BUILD_ID = 1 << 14. *)
Definition ser_mmap2 (s : sstate) (e : list N) : outcome x_mmap :=
  let! pid := num e 8 4 in
  let! tid := num e 12 4 in
  let! start := num e 16 8 in
  let! len := num e 24 8 in
  let! pgoff := num e 32 8 in
  let! (maj, min, ino, gen, build_id) :=
    if N.testbit (ev_misc e) 14 then
      let! size := num e 40 1 in
      if 20 <? size then Fail
      else let! id := mem_read e 44 size in Ok (0, 0, 0, 0, Some (raw_to_hex id))
    else
      let! maj := num e 40 4 in
      let! min := num e 44 4 in
      let! ino := num e 48 8 in
      let! gen := num e 56 8 in
      Ok (maj, min, ino, gen, None) in
  let! prot := num e 64 4 in
  let! flags := num e 68 4 in
  let! filename := ev_c_str e 72 in
  let! info := ser_info s e in
  Ok (XMmap pid tid start len pgoff maj min ino gen build_id prot flags filename info).

(** perf_serializer.cc:790-799, SerializeCommEvent. *)
Definition ser_comm (s : sstate) (e : list N) : outcome x_comm :=
  let! pid := num e 8 4 in
  let! tid := num e 12 4 in
  let! comm := ev_c_str e 16 in
  let! info := ser_info s e in
  Ok (XComm pid tid comm info).

(** perf_serializer.cc:811-821, SerializeForkExitEvent. *)
Definition ser_fork (s : sstate) (e : list N) : outcome x_fork :=
  let! pid := num e 8 4 in
  let! ppid := num e 12 4 in
  let! tid := num e 16 4 in
  let! ptid := num e 20 4 in
  let! time := num e 24 8 in
  let! info := ser_info s e in
  Ok (XFork pid ppid tid ptid time info).

(** perf_serializer.cc:835-842, SerializeLostEvent. *)
Definition ser_lost (s : sstate) (e : list N) : outcome x_lost :=
  let! id := num e 8 8 in
  let! lost := num e 16 8 in
  let! info := ser_info s e in
  Ok (XLost id lost info).

(** perf_serializer.cc:853-861, SerializeThrottleEvent. *)
Definition ser_throttle (s : sstate) (e : list N) : outcome x_throttle :=
  let! time := num e 8 8 in
  let! id := num e 16 8 in
  let! stream := num e 24 8 in
  let! info := ser_info s e in
  Ok (XThrottle time id stream info).

(** perf_serializer.cc:873-887, SerializeAuxEvent; PERF_AUX_FLAG_TRUNCATED = 1,
    OVERWRITE = 2, PARTIAL = 4. *)
Definition ser_aux (s : sstate) (e : list N) : outcome x_aux :=
  let! offset := num e 8 8 in
  let! size := num e 16 8 in
  let! flags := num e 24 8 in
  let! info := ser_info s e in
  Ok (XAux offset size (N.testbit flags 0) (N.testbit flags 1) (N.testbit flags 2) info).

(** perf_serializer.cc:901-908, SerializeItraceStartEvent. *)
Definition ser_itrace (s : sstate) (e : list N) : outcome x_itrace :=
  let! pid := num e 8 4 in
  let! tid := num e 12 4 in
  let! info := ser_info s e in
  Ok (XItrace pid tid info).

(** perf_serializer.cc:919-925, SerializeLostSamplesEvent. *)
Definition ser_lost_samples (s : sstate) (e : list N) : outcome x_lost_samples :=
  let! lost := num e 8 8 in
  let! info := ser_info s e in
  Ok (XLostSamples lost info).

(** perf_serializer.cc:935-944, SerializeContextSwitchEvent;
    PERF_RECORD_MISC_SWITCH_OUT = 1 << 13. *)
Definition ser_switch (s : sstate) (e : list N) : outcome x_switch :=
  let! (pid, tid) :=
    if ev_type e =? R_SWITCH_CPU_WIDE
    then let! pid := num e 8 4 in let! tid := num e 12 4 in Ok (pid, tid)
    else Ok (0, 0) in
  let! info := ser_info s e in
  Ok (XSwitch (N.testbit (ev_misc e) 13) pid tid info).

(** for (i = 0; i < nr; ++i): one entry of [size] bytes after the other. The first
    entry outside the block makes the loop undefined, which is checked first so
    that a huge count needs no loop. *)
Fixpoint entries_go {A} (f : N -> outcome A) (off size : N) (count : nat) : outcome (list A) :=
  match count with
  | O => Ok []
  | S c => let! x := f off in let! l := entries_go f (off + size) size c in Ok (x :: l)
  end.
Definition entries_of {A} (e : list N) (off size nr : N) (f : N -> outcome A)
  : outcome (list A) :=
  if len e <? off + size * nr then UB else entries_go f off size (N.to_nat nr).

(** perf_serializer.cc:956-967, SerializeNamespacesEvent. *)
Definition ser_namespaces (s : sstate) (e : list N) : outcome x_namespaces :=
  let! pid := num e 8 4 in
  let! tid := num e 12 4 in
  let! nr := num e 16 8 in
  let! links := entries_of e 24 16 nr
    (fun o => let! dev := num e o 8 in let! ino := num e (o + 8) 8 in Ok (dev, ino)) in
  let! info := ser_info s e in
  Ok (XNamespaces pid tid links info).

(** perf_serializer.cc:982-988, SerializeCgroupEvent. *)
Definition ser_cgroup (s : sstate) (e : list N) : outcome x_cgroup :=
  let! id := num e 8 8 in
  let! path := ev_c_str e 16 in
  let! info := ser_info s e in
  Ok (XCgroup id path info).

(** perf_serializer.cc:998-1007, SerializeKsymbolEvent. *)
Definition ser_ksymbol (s : sstate) (e : list N) : outcome x_ksymbol :=
  let! addr := num e 8 8 in
  let! len := num e 16 4 in
  let! ty := num e 20 2 in
  let! flags := num e 22 2 in
  let! name := ev_c_str e 24 in
  let! info := ser_info s e in
  Ok (XKsymbol addr len ty flags name info).

(** snprintf(dst, n, "%s", src): the characters stored, with their NUL. *)
Definition snprintf (n : N) (src : list N) : list N :=
  firstn (N.to_nat (n - 1)) (c_str src) ++ [0].

(** perf_serializer.cc:1020-1034, SerializeBpfMetadataEvent: a map keeps the first
    value of a key. *)
Definition insert_new (m : list (list N * list N)) (kv : list N * list N)
  : list (list N * list N) :=
  if existsb (fun x => list_eqb (fst x) (fst kv)) m then m else m ++ [kv].
Definition ser_bpf (s : sstate) (e : list N) : outcome x_bpf :=
  let! prog := ev_c_str e 8 in
  let! nr := num e 520 8 in
  let! kvs := entries_of e 528 320 nr
    (fun o => let! k := ev_c_str e o in let! v := ev_c_str e (o + 64) in
              Ok (c_str (snprintf 64 k), c_str (snprintf 256 v))) in
  let! info := ser_info s e in
  Ok (XBpf (c_str (snprintf 512 prog)) (fold_left insert_new kvs []) info).

(** perf_serializer.cc:1164-1181, SerializeAuxtraceInfoEvent; header.size - 16 is
    taken modulo 2^64. *)
Definition ser_auxinfo (e : list N) : outcome x_auxinfo :=
  let! ty := num e 8 4 in
  let! priv := entries_of e 16 8 (sub64 (ev_size e) 16 / 8) (fun o => num e o 8) in
  Ok (XAuxInfo ty priv).

(** perf_serializer.cc:1193-1204, SerializeAuxtraceEvent. *)
Definition ser_auxtrace (e : list N) : outcome x_auxtrace :=
  let! size := num e 8 8 in
  let! offset := num e 16 8 in
  let! reference := num e 24 8 in
  let! idx := num e 32 4 in
  let! tid := num e 36 4 in
  let! cpu := num e 40 4 in
  Ok (XAuxtrace size offset reference idx tid cpu []).

(** perf_serializer.cc:1206-1214, SerializeAuxtraceEventTraceData: the trace data
    read behind the event. *)
Definition add_trace (t : list N) (x : x_event) : x_event :=
  match t, xe_body x with
  | _ :: _, XBAuxtrace m =>
      XEvent (xe_type x) (xe_misc x) (xe_size x)
        (XBAuxtrace (XAuxtrace (xat_size m) (xat_offset m) (xat_reference m) (xat_idx m)
                       (xat_tid m) (xat_cpu m) t)) (xe_time x)
  | _, _ => x
  end.

(** perf_serializer.cc:1235-1258, SerializeAuxtraceErrorEvent: strnlen with the
    smaller of 64 and what is left of the event, modulo 2^64. *)
Definition ser_auxerror (e : list N) : outcome x_auxerror :=
  let! ty := num e 8 4 in
  let! code := num e 12 4 in
  let! cpu := num e 16 4 in
  let! pid := num e 20 4 in
  let! tid := num e 24 4 in
  let! ip := num e 32 8 in
  let max := N.min 64 (sub64 (ev_size e) 40) in
  let! n := ev_strnlen e 40 max in
  let! msg := mem_read e 40 n in
  Ok (XAuxError ty code cpu pid tid ip msg).

(** perf_serializer.cc:1274-1285, SerializeIdIndexEvent. *)
Definition ser_id_index (e : list N) : outcome (list x_id_entry) :=
  let! nr := num e 8 8 in
  entries_of e 16 32 nr
    (fun o => let! id := num e o 8 in let! idx := num e (o + 8) 8 in
              let! cpu := num e (o + 16) 8 in let! tid := num e (o + 24) 8 in
              Ok (XIdEntry id idx cpu tid)).

(** perf_serializer.cc:1300-1310, SerializeThreadMapEvent. *)
Definition ser_thread_map (e : list N) : outcome (list (N * list N)) :=
  let! nr := num e 8 8 in
  entries_of e 16 24 nr
    (fun o => let! pid := num e o 8 in let! comm := ev_c_str e (o + 8) in Ok (pid, comm)).

(** perf_serializer.cc:1324-1342, SerializeStatConfigEvent. *)
Definition ser_stat_config (e : list N) : outcome (list (N * N)) :=
  let! nr := num e 8 8 in
  entries_of e 16 16 nr
    (fun o => let! tag := num e o 8 in let! val := num e (o + 8) 8 in Ok (tag, val)).

(** perf_serializer.cc:1355-1365, SerializeStatEvent. *)
Definition ser_stat (e : list N) : outcome x_stat :=
  let! id := num e 8 8 in
  let! cpu := num e 16 4 in
  let! thread := num e 20 4 in
  let! value := num e 24 8 in
  let! ena := num e 32 8 in
  let! run := num e 40 8 in
  Ok (XStat id cpu thread value ena run).

(** perf_serializer.cc:1379-1385, SerializeStatRoundEvent. *)
Definition ser_stat_round (e : list N) : outcome (N * N) :=
  let! ty := num e 8 8 in
  let! time := num e 16 8 in
  Ok (ty, time).

(** perf_serializer.cc:1395-1409, SerializeTimeConvEvent. *)
Definition ser_time_conv (e : list N) : outcome x_time_conv :=
  let! shift := num e 8 8 in
  let! mult := num e 16 8 in
  let! zero := num e 24 8 in
  if ev_size e =? 56 then
    let! cycles := num e 32 8 in
    let! mask := num e 40 8 in
    let! cz := num e 48 1 in
    let! cs := num e 49 1 in
    Ok (XTimeConv shift mult zero (Some cycles) mask (negb (cz =? 0)) (negb (cs =? 0)))
  else Ok (XTimeConv shift mult zero None 0 false false).

Definition omap {A B} (f : A -> B) (x : outcome A) : outcome B := let! a := x in Ok (f a).

(** perf_serializer.cc:338-382, SerializeKernelEvent: other types are only logged. *)
Definition ser_kernel (s : sstate) (e : list N) : outcome x_body :=
  let ty := ev_type e in
  if ty =? R_SAMPLE then omap XBSample (ser_sample s e)
  else if ty =? R_MMAP then omap XBMmap (ser_mmap s e)
  else if ty =? R_MMAP2 then omap XBMmap (ser_mmap2 s e)
  else if ty =? R_COMM then omap XBComm (ser_comm s e)
  else if ty =? R_EXIT then omap XBExit (ser_fork s e)
  else if ty =? R_FORK then omap XBFork (ser_fork s e)
  else if ty =? R_LOST then omap XBLost (ser_lost s e)
  else if (ty =? R_THROTTLE) || (ty =? R_UNTHROTTLE) then omap XBThrottle (ser_throttle s e)
  else if ty =? R_AUX then omap XBAux (ser_aux s e)
  else if ty =? R_ITRACE_START then omap XBItrace (ser_itrace s e)
  else if ty =? R_LOST_SAMPLES then omap XBLostSamples (ser_lost_samples s e)
  else if (ty =? R_SWITCH) || (ty =? R_SWITCH_CPU_WIDE) then omap XBSwitch (ser_switch s e)
  else if ty =? R_NAMESPACES then omap XBNamespaces (ser_namespaces s e)
  else if ty =? R_CGROUP then omap XBCgroup (ser_cgroup s e)
  else if ty =? R_KSYMBOL then omap XBKsymbol (ser_ksymbol s e)
  else Ok XNothing.

(** perf_serializer.cc:384-424, SerializeUserEvent. *)
Definition ser_user (s : sstate) (e : list N) : outcome x_body :=
  let ty := ev_type e in
  if ty =? R_AUXTRACE_INFO then omap XBAuxInfo (ser_auxinfo e)
  else if ty =? R_AUXTRACE then omap XBAuxtrace (ser_auxtrace e)
  else if ty =? R_AUXTRACE_ERROR then omap XBAuxError (ser_auxerror e)
  else if ty =? R_ID_INDEX then omap XBIdIndex (ser_id_index e)
  else if ty =? R_THREAD_MAP then omap XBThreadMap (ser_thread_map e)
  else if ty =? R_STAT_CONFIG then omap XBStatConfig (ser_stat_config e)
  else if ty =? R_STAT then omap XBStat (ser_stat e)
  else if ty =? R_STAT_ROUND then omap (fun x => XBStatRound (fst x) (snd x)) (ser_stat_round e)
  else if ty =? R_TIME_CONV then omap XBTimeConv (ser_time_conv e)
  else if ty =? R_BPF_METADATA then omap XBBpf (ser_bpf s e)
  else Ok XNothing.

(** perf_data_utils.cc:86-122, GetSampleInfoForEvent: by the type in the header. *)
Definition info_of (ty : N) (b : x_body) : option x_info :=
  if (ty =? R_MMAP) || (ty =? R_MMAP2) then Some (xm_info (get_mmap b))
  else if ty =? R_COMM then Some (xc_info (get_comm b))
  else if ty =? R_FORK then Some (xf_info (get_fork b))
  else if ty =? R_EXIT then Some (xf_info (get_exit b))
  else if ty =? R_LOST then Some (xl_info (get_lost b))
  else if (ty =? R_THROTTLE) || (ty =? R_UNTHROTTLE) then Some (xth_info (get_throttle b))
  else if ty =? R_AUX then Some (xa_info (get_aux b))
  else if ty =? R_ITRACE_START then Some (xit_info (get_itrace b))
  else if ty =? R_LOST_SAMPLES then Some (xls_info (get_lost_samples b))
  else if (ty =? R_SWITCH) || (ty =? R_SWITCH_CPU_WIDE) then Some (xs_info (get_switch b))
  else if ty =? R_NAMESPACES then Some (xn_info (get_namespaces b))
  else if ty =? R_CGROUP then Some (xcg_info (get_cgroup b))
  else if ty =? R_KSYMBOL then Some (xk_info (get_ksymbol b))
  else if ty =? R_BPF_METADATA then Some (xb_info (get_bpf b))
  else None.

Definition value_or (d : N) (v : option N) : N := match v with Some x => x | None => d end.

(** perf_data_utils.cc:125-133, GetTimeFromPerfEvent. *)
Definition time_of (ty : N) (b : x_body) : N :=
  if ty =? R_SAMPLE then value_or 0 (xsa_time (get_sample b))
  else match info_of ty b with Some i => value_or 0 (xi_time i) | None => 0 end.

(** perf_serializer.cc:318-336, SerializeEvent; :554-561, SerializeEventHeader;
    PERF_RECORD_USER_TYPE_START = 64. *)
Definition serialize (s : sstate) (e : list N) : outcome x_event :=
  let ty := ev_type e in
  let! b := if 64 <=? ty then ser_user s e else ser_kernel s e in
  Ok (XEvent ty (ev_misc e) (ev_size e) b (time_of ty b)).

(** ** Messages to samples *)

(** perf_serializer.cc:1763-1774, GetPerfSampleInfo of a SampleInfo. *)
Definition info_sample (i : x_info) : outcome psample :=
  match xi_pid i, xi_tid i with
  | Some _, None => Abort
  | _, _ =>
      let s := fresh_sample in
      let s := match xi_pid i with
               | Some p => set_tid (value_or 0 (xi_tid i)) (set_pid p s)
               | None => s
               end in
      let s := match xi_time i with Some v => set_time v s | None => s end in
      let s := match xi_id i with Some v => set_id v s | None => s end in
      let s := match xi_cpu i with Some v => set_cpu v s | None => s end in
      Ok (match xi_stream i with Some v => set_stream_id v s | None => s end)
  end.

Definition bit_of (b : bool) (k : N) : N := if b then 2 ^ k else 0.

(** perf_serializer.cc:1849-1861: assignments to bit fields keep the low bits. *)
Definition des_branch (b : x_branch) : branch_entry :=
  mkBe (xbr_from b) (xbr_to b)
    (bit_of (xbr_mispred b) 0 + bit_of (xbr_predicted b) 1 + bit_of (xbr_in_tx b) 2
     + bit_of (xbr_abort b) 3 + 2 ^ 4 * (xbr_cycles b mod 2 ^ 16)
     + 2 ^ 20 * (xbr_type b mod 2 ^ 4) + 2 ^ 24 * (xbr_spec b mod 2 ^ 2)).

(** perf_serializer.cc:1790-1818: the read info; the lost count of a single value
    is not taken over. *)
Definition set_read (a : attr) (r : x_read) (s : psample) : psample :=
  let fmt b := N.testbit (at_read_format a) b in
  let s := if fmt F_TIME_ENABLED then set_time_enabled (xr_enabled r) s else s in
  let s := if fmt F_TIME_RUNNING then set_time_running (xr_running r) s else s in
  if fmt F_GROUP
  then set_group (Some (map (fun v => mkRv (xrv_value v) (xrv_id v) (xrv_lost v)) (xr_values r))) s
  else match xr_values r with
       | [v] => set_one (mkRv (xrv_value v) (xrv_id v) (rv_lost (s_one s))) s
       | _ => s
       end.

(** perf_serializer.cc:1776-1879, GetPerfSampleInfo of a SampleEvent. A branch
    stack without hw_idx has an uninitialised one, which is undefined here when
    it would be written. *)
Definition sample_of (s : sstate) (m : x_sample) : outcome psample :=
  match xsa_pid m, xsa_tid m with
  | Some _, None => Abort
  | _, _ =>
      let p := fresh_sample in
      let p := match xsa_ip m with Some v => set_ip v p | None => p end in
      let p := match xsa_pid m with
               | Some v => set_tid (value_or 0 (xsa_tid m)) (set_pid v p)
               | None => p
               end in
      let p := match xsa_time m with Some v => set_time v p | None => p end in
      let p := match xsa_addr m with Some v => set_addr v p | None => p end in
      let p := match xsa_id m with Some v => set_id v p | None => p end in
      let p := match xsa_stream m with Some v => set_stream_id v p | None => p end in
      let p := match xsa_cpu m with Some v => set_cpu v p | None => p end in
      let p := match xsa_period m with Some v => set_period v p | None => p end in
      let p := match xsa_read m, reader_for_id s (s_id p) with
               | Some r, Some a => set_read a r p
               | _, _ => p
               end in
      let p := match xsa_callchain m with [] => p | l => set_callchain (Some l) p end in
      let p := match xsa_raw m with
               | [] => set_raw (repeat 0 (N.to_nat (xsa_raw_size m))) p
               | d => set_raw d p
               end in
      let no_hw := match xsa_no_hw_idx m with Some b => b | None => true end in
      let p := set_no_hw_idx (Some no_hw) p in
      let! p := match xsa_branch m, xsa_hw_idx m with
                | [], _ => Ok p
                | l, Some hw => Ok (set_branch (Some (mkBs hw (map des_branch l))) p)
                | l, None => if no_hw then Ok (set_branch (Some (mkBs 0 (map des_branch l))) p)
                             else UB
                end in
      let p := match xsa_weight m with Some v => set_weight v p | None => p end in
      let p := match xsa_weight_struct m with
               | Some (v1, v2, v3) => set_weight (w32 v1 + two32 * (w16 v2 + two16 * w16 v3)) p
               | None => p
               end in
      let p := match xsa_data_src m with Some v => set_data_src v p | None => p end in
      let p := match xsa_transaction m with Some v => set_transaction v p | None => p end in
      let p := match xsa_phys m with Some v => set_phys_addr v p | None => p end in
      let p := match xsa_cgroup m with Some v => set_cgroup v p | None => p end in
      let p := match xsa_data_page m with Some v => set_data_page v p | None => p end in
      Ok (match xsa_code_page m with Some v => set_code_page v p | None => p end)
  end.

(** ** Sizes of messages *)

(** perf_data_utils.cc:604-691, GetEventDataVariablePayloadSize of a message. *)
Definition x_variable (ty : N) (b : x_body) : outcome N :=
  let! size :=
    if (ty =? R_MMAP) || (ty =? R_MMAP2)
    then Ok (aligned_string_length (len (xm_filename (get_mmap b))))
    else if ty =? R_COMM then Ok (aligned_string_length (len (xc_comm (get_comm b))))
    else if ty =? R_NAMESPACES then Ok (w64 (len (xn_links (get_namespaces b)) * 16))
    else if ty =? R_AUXTRACE_INFO then Ok (w64 (len (xai_priv (get_auxinfo b)) * 8))
    else if ty =? R_AUXTRACE_ERROR then Ok (aligned_string_length (len (xer_msg (get_auxerror b))))
    else if ty =? R_ID_INDEX then Ok (w64 (len (get_id_index b) * 32))
    else if ty =? R_THREAD_MAP then Ok (w64 (len (get_thread_map b) * 24))
    else if ty =? R_STAT_CONFIG then Ok (w64 (len (get_stat_config b) * 16))
    else if ty =? R_CGROUP then Ok (aligned_string_length (len (xcg_path (get_cgroup b))))
    else if ty =? R_KSYMBOL then Ok (aligned_string_length (len (xk_name (get_ksymbol b))))
    else if ty =? R_BPF_METADATA then Ok (w64 (len (xb_metadata (get_bpf b)) * 320))
    else if ty =? R_TIME_CONV
    then Ok (match xtc_cycles (get_time_conv b) with Some _ => 24 | None => 0 end)
    else if existsb (N.eqb ty)
              [R_LOST; R_EXIT; R_FORK; R_THROTTLE; R_UNTHROTTLE; R_SAMPLE; R_AUX;
               R_ITRACE_START; R_LOST_SAMPLES; R_SWITCH; R_SWITCH_CPU_WIDE;
               R_FINISHED_ROUND; R_AUXTRACE; R_STAT; R_STAT_ROUND]
    then Ok 0
    else Fail in
  if negb (size mod 8 =? 0) then Fail else Ok size.

(** perf_data_utils.cc:722-751, GetEventDataSize of a message; 0 is [Fail]. *)
Definition x_data_size (x : x_event) : outcome N :=
  match fixed_payload (xe_type x) with
  | None => Fail
  | Some fixed =>
      let! var := x_variable (xe_type x) (xe_body x) in
      let size := w64 (fixed + var) in
      if 65535 <? size then Fail else Ok size
  end.

(** perf_serializer.cc:111-152, GetEventSize; 0 is [Fail]. A sum that wraps to 0
    is not told apart from it. *)
Definition x_size (s : sstate) (x : x_event) : outcome N :=
  let! size := x_data_size x in
  if negb (contains_info s (xe_type x)) then Ok size
  else
    let! p := if xe_type x =? R_SAMPLE then sample_of s (get_sample (xe_body x))
              else match info_of (xe_type x) (xe_body x) with
                   | Some i => info_sample i
                   | None => Fail
                   end in
    match reader_for_id s (s_id p) with
    | None => Fail
    | Some a =>
        let! n := sample_data_size a p (xe_type x) in
        Ok (w64 (size + n))
    end.

(** ** Messages to raw events *)

(** event->member = value; one assignment after the other. *)
Fixpoint stores (e : list N) (l : list (N * list N)) : outcome (list N) :=
  match l with
  | [] => Ok e
  | (off, d) :: r => let! e' := mem_write e off d in stores e' r
  end.
Definition u64_at (off v : N) : N * list N := (off, le_bytes 8 v).
Definition u32_at (off v : N) : N * list N := (off, le_bytes 4 v).
Definition u16_at (off v : N) : N * list N := (off, le_bytes 2 v).
Definition u8_at (off v : N) : N * list N := (off, le_bytes 1 v).

(** Assignments to the entries of an array of the event. *)
Fixpoint each {A} (off size : N) (f : N -> A -> list (N * list N)) (l : list A)
  : list (N * list N) :=
  match l with
  | [] => []
  | x :: r => f off x ++ each (off + size) size f r
  end.

(** WritePerfSampleInfo returning false is [Fail]. *)
Definition put_info (a : attr) (p : psample) (e : list N) : outcome (list N) :=
  let! (e', ok) := write_sample_info a p e in if ok then Ok e' else Fail.

(** perf_serializer.cc:1076-1088, DeserializeSampleInfo; CHECK(writer). *)
Definition des_info (s : sstate) (i : x_info) (e : list N) : outcome (list N) :=
  if negb (contains_info s (ev_type e)) then Ok e
  else
    let! p := info_sample i in
    match reader_for_id s (s_id p) with
    | None => Abort
    | Some a => put_info a p e
    end.

(** perf_serializer.cc:677-687, DeserializeSampleEvent. *)
Definition des_sample (s : sstate) (m : x_sample) (e : list N) : outcome (list N) :=
  let! p := sample_of s m in
  match reader_for_id s (s_id p) with
  | None => Abort
  | Some a => put_info a p e
  end.

(** perf_serializer.cc:708-719, DeserializeMMapEvent; PATH_MAX = 4096. *)
Definition des_mmap (s : sstate) (m : x_mmap) (e : list N) : outcome (list N) :=
  let! e := stores e [u32_at 8 (xm_pid m); u32_at 12 (xm_tid m); u64_at 16 (xm_start m);
                      u64_at 24 (xm_len m); u64_at 32 (xm_pgoff m);
                      (40, snprintf 4096 (xm_filename m))] in
  des_info s (xm_info m) e.

(** perf_serializer.cc:756-788, DeserializeMMap2Event. *)
Definition des_mmap2 (s : sstate) (m : x_mmap) (e : list N) : outcome (list N) :=
  let! e := stores e [u32_at 8 (xm_pid m); u32_at 12 (xm_tid m); u64_at 16 (xm_start m);
                      u64_at 24 (xm_len m); u64_at 32 (xm_pgoff m)] in
  let! e :=
    match xm_build_id m with
    | Some id =>
        let '(ok, bytes) := hex_to_raw id (repeat 0 20) in
        if (len id mod 2 =? 0) && (len id / 2 <=? 20) && ok
        then stores e [u8_at 40 (len id / 2); (44, repeat 0 20);
                       (44, firstn (N.to_nat (len id / 2)) bytes)]
        else Fail
    | None => stores e [u32_at 40 (xm_maj m); u32_at 44 (xm_min m); u64_at 48 (xm_ino m);
                        u64_at 56 (xm_ino_gen m)]
    end in
  let! e := stores e [u32_at 64 (xm_prot m); u32_at 68 (xm_flags m);
                      (72, snprintf 4096 (xm_filename m))] in
  des_info s (xm_info m) e.

(** perf_serializer.cc:801-809, DeserializeCommEvent; kMaxCommSize = PATH_MAX. *)
Definition des_comm (s : sstate) (m : x_comm) (e : list N) : outcome (list N) :=
  let! e := stores e [u32_at 8 (xc_pid m); u32_at 12 (xc_tid m);
                      (16, snprintf 4096 (xc_comm m))] in
  des_info s (xc_info m) e.

(** perf_serializer.cc:823-833, DeserializeForkExitEvent. *)
Definition des_fork (s : sstate) (m : x_fork) (e : list N) : outcome (list N) :=
  let! e := stores e [u32_at 8 (xf_pid m); u32_at 12 (xf_ppid m); u32_at 16 (xf_tid m);
                      u32_at 20 (xf_ptid m); u64_at 24 (xf_time m)] in
  des_info s (xf_info m) e.

(** perf_serializer.cc:844-851, DeserializeLostEvent. *)
Definition des_lost (s : sstate) (m : x_lost) (e : list N) : outcome (list N) :=
  let! e := stores e [u64_at 8 (xl_id m); u64_at 16 (xl_lost m)] in
  des_info s (xl_info m) e.

(** perf_serializer.cc:863-871, DeserializeThrottleEvent. *)
Definition des_throttle (s : sstate) (m : x_throttle) (e : list N) : outcome (list N) :=
  let! e := stores e [u64_at 8 (xth_time m); u64_at 16 (xth_id m); u64_at 24 (xth_stream m)] in
  des_info s (xth_info m) e.

(** perf_serializer.cc:889-899, DeserializeAuxEvent: the flags are or-ed into the
    member, which is 0 in a fresh block. *)
Definition des_aux (s : sstate) (m : x_aux) (e : list N) : outcome (list N) :=
  let! e := stores e [u64_at 8 (xa_offset m); u64_at 16 (xa_size m)] in
  let! old := num e 24 8 in
  let flags := N.lor (N.lor (N.lor old (bit_of (xa_truncated m) 0))
                            (bit_of (xa_overwrite m) 1)) (bit_of (xa_partial m) 2) in
  let! e := stores e [u64_at 24 flags] in
  des_info s (xa_info m) e.

(** perf_serializer.cc:910-917, DeserializeItraceStartEvent. *)
Definition des_itrace (s : sstate) (m : x_itrace) (e : list N) : outcome (list N) :=
  let! e := stores e [u32_at 8 (xit_pid m); u32_at 12 (xit_tid m)] in
  des_info s (xit_info m) e.

(** perf_serializer.cc:927-933, DeserializeLostSamplesEvent. *)
Definition des_lost_samples (s : sstate) (m : x_lost_samples) (e : list N) : outcome (list N) :=
  let! e := stores e [u64_at 8 (xls_lost m)] in
  des_info s (xls_info m) e.

(** perf_serializer.cc:946-954, DeserializeContextSwitchEvent. *)
Definition des_switch (s : sstate) (m : x_switch) (e : list N) : outcome (list N) :=
  let! e := if ev_type e =? R_SWITCH_CPU_WIDE
            then stores e [u32_at 8 (xs_pid m); u32_at 12 (xs_tid m)] else Ok e in
  des_info s (xs_info m) e.

(** perf_serializer.cc:969-980, DeserializeNamespacesEvent. *)
Definition des_namespaces (s : sstate) (m : x_namespaces) (e : list N) : outcome (list N) :=
  let! e := stores e ([u32_at 8 (xn_pid m); u32_at 12 (xn_tid m);
                       u64_at 16 (len (xn_links m))]
                      ++ each 24 16 (fun o l => [u64_at o (fst l); u64_at (o + 8) (snd l)])
                           (xn_links m)) in
  des_info s (xn_info m) e.

(** perf_serializer.cc:990-996, DeserializeCgroupEvent. *)
Definition des_cgroup (s : sstate) (m : x_cgroup) (e : list N) : outcome (list N) :=
  let! e := stores e [u64_at 8 (xcg_id m); (16, snprintf 4096 (xcg_path m))] in
  des_info s (xcg_info m) e.

(** perf_serializer.cc:1009-1018, DeserializeKsymbolEvent; kMaxKsymNameLen = 512. *)
Definition des_ksymbol (s : sstate) (m : x_ksymbol) (e : list N) : outcome (list N) :=
  let! e := stores e [u64_at 8 (xk_addr m); u32_at 16 (xk_len m); u16_at 20 (xk_type m);
                      u16_at 22 (xk_flags m); (24, snprintf 512 (xk_name m))] in
  des_info s (xk_info m) e.

(** perf_serializer.cc:1036-1051, DeserializeBpfMetadataEvent. The order in which
    a protobuf map gives its entries is not specified: [ord] rearranges them. *)
Definition des_bpf (ord : list (list N * list N) -> list (list N * list N))
  (s : sstate) (m : x_bpf) (e : list N) : outcome (list N) :=
  let! e := stores e ([(8, snprintf 512 (xb_prog m)); u64_at 520 (len (xb_metadata m))]
                      ++ each 528 320
                           (fun o kv => [(o, snprintf 64 (fst kv)); (o + 64, snprintf 256 (snd kv))])
                           (ord (xb_metadata m))) in
  des_info s (xb_info m) e.

(** perf_serializer.cc:1183-1191, DeserializeAuxtraceInfoEvent. *)
Definition des_auxinfo (m : x_auxinfo) (e : list N) : outcome (list N) :=
  stores e (u32_at 8 (xai_type m) :: each 16 8 (fun o v => [u64_at o v]) (xai_priv m)).

(** perf_serializer.cc:1216-1227, DeserializeAuxtraceEvent. *)
Definition des_auxtrace (m : x_auxtrace) (e : list N) : outcome (list N) :=
  stores e [u64_at 8 (xat_size m); u64_at 16 (xat_offset m); u64_at 24 (xat_reference m);
            u32_at 32 (xat_idx m); u32_at 36 (xat_tid m); u32_at 40 (xat_cpu m)].

(** perf_serializer.cc:1260-1272, DeserializeAuxtraceErrorEvent. *)
Definition des_auxerror (m : x_auxerror) (e : list N) : outcome (list N) :=
  stores e [u32_at 8 (xer_type m); u32_at 12 (xer_code m); u32_at 16 (xer_cpu m);
            u32_at 20 (xer_pid m); u32_at 24 (xer_tid m); u64_at 32 (xer_ip m);
            (40, snprintf 64 (xer_msg m))].

(** perf_serializer.cc:1287-1298, DeserializeIdIndexEvent. *)
Definition des_id_index (l : list x_id_entry) (e : list N) : outcome (list N) :=
  stores e (u64_at 8 (len l)
            :: each 16 32 (fun o x => [u64_at o (xie_id x); u64_at (o + 8) (xie_idx x);
                                       u64_at (o + 16) (xie_cpu x); u64_at (o + 24) (xie_tid x)]) l).

(** perf_serializer.cc:1312-1322, DeserializeThreadMapEvent. *)
Definition des_thread_map (l : list (N * list N)) (e : list N) : outcome (list N) :=
  stores e (u64_at 8 (len l)
            :: each 16 24 (fun o x => [u64_at o (fst x); (o + 8, snprintf 16 (snd x))]) l).

(** perf_serializer.cc:1344-1353, DeserializeStatConfigEvent. *)
Definition des_stat_config (l : list (N * N)) (e : list N) : outcome (list N) :=
  stores e (u64_at 8 (len l)
            :: each 16 16 (fun o x => [u64_at o (fst x); u64_at (o + 8) (snd x)]) l).

(** perf_serializer.cc:1367-1377, DeserializeStatEvent. *)
Definition des_stat (m : x_stat) (e : list N) : outcome (list N) :=
  stores e [u64_at 8 (xst_id m); u32_at 16 (xst_cpu m); u32_at 20 (xst_thread m);
            u64_at 24 (xst_value m); u64_at 32 (xst_enabled m); u64_at 40 (xst_running m)].

(** perf_serializer.cc:1387-1393, DeserializeStatRoundEvent. *)
Definition des_stat_round (m : N * N) (e : list N) : outcome (list N) :=
  stores e [u64_at 8 (fst m); u64_at 16 (snd m)].

(** perf_serializer.cc:1411-1424, DeserializeTimeConvEvent. *)
Definition des_time_conv (m : x_time_conv) (e : list N) : outcome (list N) :=
  let! e := stores e [u64_at 8 (xtc_shift m); u64_at 16 (xtc_mult m); u64_at 24 (xtc_zero m)] in
  match xtc_cycles m with
  | Some c => stores e [u64_at 32 c; u64_at 40 (xtc_mask m);
                        u8_at 48 (if xtc_cap_zero m then 1 else 0);
                        u8_at 49 (if xtc_cap_short m then 1 else 0)]
  | None => Ok e
  end.

(** perf_serializer.cc:451-510, DeserializeKernelEvent. header.size is a u16. *)
Definition des_kernel (s : sstate) (x : x_event) (e : list N) : outcome (list N) :=
  let ty := xe_type x in
  let b := xe_body x in
  if ty =? R_SAMPLE then des_sample s (get_sample b) e
  else if ty =? R_MMAP then des_mmap s (get_mmap b) e
  else if ty =? R_MMAP2 then des_mmap2 s (get_mmap b) e
  else if ty =? R_COMM then
    let! size := x_size s x in
    let! e := stores e [u16_at 6 size] in
    des_comm s (get_comm b) e
  else if ty =? R_EXIT then
    match b with
    | XBExit m => des_fork s m e
    | XBFork m => des_fork s m e
    | _ => Fail
    end
  else if ty =? R_FORK then des_fork s (get_fork b) e
  else if ty =? R_LOST then des_lost s (get_lost b) e
  else if (ty =? R_THROTTLE) || (ty =? R_UNTHROTTLE) then des_throttle s (get_throttle b) e
  else if ty =? R_AUX then des_aux s (get_aux b) e
  else if ty =? R_ITRACE_START then des_itrace s (get_itrace b) e
  else if ty =? R_LOST_SAMPLES then des_lost_samples s (get_lost_samples b) e
  else if (ty =? R_SWITCH) || (ty =? R_SWITCH_CPU_WIDE) then des_switch s (get_switch b) e
  else if ty =? R_NAMESPACES then des_namespaces s (get_namespaces b) e
  else if ty =? R_CGROUP then des_cgroup s (get_cgroup b) e
  else if ty =? R_KSYMBOL then des_ksymbol s (get_ksymbol b) e
  else Fail.

(** perf_serializer.cc:512-552, DeserializeUserEvent: other user events have
    nothing but their header; COMPRESSED = 81, FINISHED_INIT = 82,
    COMPRESSED2 = 83, HEADER_MAX = 85. *)
Definition des_user ord (s : sstate) (x : x_event) (e : list N) : outcome (list N) :=
  let ty := xe_type x in
  let b := xe_body x in
  if ty =? R_AUXTRACE_INFO then des_auxinfo (get_auxinfo b) e
  else if ty =? R_AUXTRACE then des_auxtrace (get_auxtrace b) e
  else if ty =? R_AUXTRACE_ERROR then des_auxerror (get_auxerror b) e
  else if ty =? R_ID_INDEX then des_id_index (get_id_index b) e
  else if ty =? R_THREAD_MAP then des_thread_map (get_thread_map b) e
  else if ty =? R_STAT_CONFIG then des_stat_config (get_stat_config b) e
  else if ty =? R_STAT then des_stat (get_stat b) e
  else if ty =? R_STAT_ROUND then des_stat_round (get_stat_round b) e
  else if ty =? R_TIME_CONV then des_time_conv (get_time_conv b) e
  else if ty =? R_BPF_METADATA then des_bpf ord s (get_bpf b) e
  else if (ty =? 81) || (ty =? 82) || (ty =? 83) then Fail
  else if 85 <=? ty then Fail
  else Ok e.

(** perf_serializer.cc:426-449, DeserializeEvent: a zeroed block of header().size()
    bytes; :563-570, DeserializeEventHeader. *)
Definition deserialize ord (s : sstate) (x : x_event) : outcome (list N) :=
  let e := repeat 0 (N.to_nat (xe_size x)) in
  let! e := stores e [u32_at 0 (xe_type x); u16_at 4 (xe_misc x); u16_at 6 (xe_size x)] in
  if 64 <=? xe_type x then des_user ord s x e else des_kernel s x e.
