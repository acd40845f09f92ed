(** Model of RawPerfDataToProfiles (src/perf_data_converter.cc:984-1022): reading,
    build ids, sorting, huge pages, combining, parsing, conversion, one after the
    other. The parts are those of the other models; here are the messages they share
    and how each part sees them. *)
From Coq Require Import String.
From Verif Require Import Base BytesModel TextModel Assoc PerfProto.
From Verif Require EventSizeModel SampleModel FileModel SerializerModel AttrModel ReaderOpsModel HugePageModel
  ParserModel NormalizerModel ConverterModel.
Import SerializerModel.
Local Open Scope N_scope.
Local Open Scope list_scope.

(** ** Messages *)

Fixpoint each {A B} (f : A -> outcome B) (l : list A) : outcome (list B) :=
  match l with
  | [] => Ok []
  | a :: r => let! b := f a in let! bs := each f r in Ok (b :: bs)
  end.

(** perf_reader.cc:808-846: data of the other byte order. *)
Definition swapped (bytes : list N) : bool := negb (of_le (slice bytes 0 8) =? FileModel.perf_magic).

(** The PerfSerializer of a reader (perf_serializer.h:230-260) in the state [st]. *)
Definition serializer (sw : bool) (st : FileModel.fstate) : sstate :=
  mkSS (map (fun r => (fst r, AttrModel.raw_attr (snd r))) (FileModel.fs_readers st)) sw
       (FileModel.fs_sample_pos st) (FileModel.fs_other_pos st).

(** perf_data_converter.cc:989: a new PerfReader, which skips no events. An event on
    which the serializer's behaviour is undefined (C44_bpf_count_refuted) counts as
    one it refuses. *)
Definition new_reader (sw : bool) : FileModel.fconfig :=
  FileModel.mkFConfig (fun _ => false) false
    (fun st e => match serialize (serializer sw st) e with Ok _ => true | _ => false end).

(** perf_serializer.cc:1206-1215, the trace behind an auxtrace event. *)
Definition with_trace (trace : list N) (x : x_event) : x_event :=
  match xe_body x with
  | XBAuxtrace a =>
      XEvent (xe_type x) (xe_misc x) (xe_size x)
        (XBAuxtrace (XAuxtrace (xat_size a) (xat_offset a) (xat_reference a) (xat_idx a) (xat_tid a)
                               (xat_cpu a) trace)) (xe_time x)
  | _ => x
  end.

(** perf_reader.cc:1213-1233: the message of an event. Simplification: all events are
    read with the attributes known at the end; in a file (not in piped data with
    late attributes) these are the ones known when the event is read. *)
Definition message (s : sstate) (e : FileModel.fevent) : outcome x_event :=
  let! x := serialize s (FileModel.fe_raw e) in Ok (with_trace (FileModel.fe_trace e) x).

(** ** The reader's operations (C36-C38) *)

(** The [i]-th message as the reader's operations see it. Its place is kept in the
    part they do not look at. *)
Definition reader_view (i : nat) (x : x_event) : ReaderOpsModel.revent :=
  let f := xm_filename (get_mmap (xe_body x)) in
  ReaderOpsModel.mkREvent (xe_type x) (xe_misc x) (xe_size x) (xe_time x) f (Some f) [N.of_nat i].
Definition numbered {A B} (f : nat -> A -> B) (l : list A) : list B :=
  map (fun p => f (fst p) (snd p)) (combine (List.seq 0 (List.length l)) l).
Definition place (r : ReaderOpsModel.revent) : nat := N.to_nat (hd 0 (ReaderOpsModel.rv_rest r)).
Definition nothing : x_event := XEvent 0 0 0 XNothing 0.

(** perf_data_converter.cc:1003-1006. *)
Definition kernel_names : list (list N * list N) :=
  [(str "[kernel.kallsyms]", str "[kernel.kallsyms]_text");
   (str "[kernel.kallsyms]", str "[kernel.kallsyms]_stext")].

(** perf_data_converter.cc:995-1006 and perf_parser.cc:77-79: build ids are injected
    (the result is ignored) and given other names, and the events are sorted. The
    messages in their new order, and the build ids. *)
Definition arrange (st : FileModel.fstate) (build_ids : list (list N * list N)) (xs : list x_event)
  : list x_event * list ReaderOpsModel.rbuild :=
  let p := ReaderOpsModel.mkRProto (FileModel.fs_mask st)
             (map (fun a => AttrModel.ea_sample_type (AttrModel.ser_attr (FileModel.fa_attr a)))
                  (FileModel.fs_attrs st))
             (negb (NormalizerModel.is_empty (FileModel.fs_readers st)))
             (numbered reader_view xs) (FileModel.fs_builds st) in
  let '(_, p) := ReaderOpsModel.inject_build_ids build_ids p in
  let p := ReaderOpsModel.alternate_build_id_filenames kernel_names p in
  let p := ReaderOpsModel.sort_events_by_time p in
  (map (fun r => nth (place r) xs nothing) (ReaderOpsModel.rp_events p), ReaderOpsModel.rp_builds p).

Section Digest.
(** MD5 prefixes of texts (perf_data_utils.cc) are left open. *)
Variable md5 : list N -> N.

(** ** Huge pages and combining (C30, C31) *)

(** perf_serializer.cc:693-754: device and inode are present in an MMAP2 event
    without a build id. *)
Definition huge_map (x : x_event) (m : x_mmap) : HugePageModel.vmap :=
  let dev (v : N) := if (xe_type x =? EventSizeModel.R_MMAP2) && negb (N.testbit (xe_misc x) 14) then Some v else None in
  {| HugePageModel.v_pid := Some (xm_pid m); HugePageModel.v_start := xm_start m;
     HugePageModel.v_len := xm_len m; HugePageModel.v_pgoff := xm_pgoff m;
     HugePageModel.v_file := xm_filename m; HugePageModel.v_md5 := md5 (xm_filename m);
     HugePageModel.v_build := xm_build_id m;
     HugePageModel.v_prot := xm_prot m; HugePageModel.v_flags := xm_flags m;
     HugePageModel.v_maj := dev (xm_maj m); HugePageModel.v_min := dev (xm_min m);
     HugePageModel.v_ino := dev (xm_ino m); HugePageModel.v_gen := dev (xm_ino_gen m) |}.
Definition huge_view (i : nat) (x : x_event) : HugePageModel.pevent :=
  {| HugePageModel.e_time := xe_time x; HugePageModel.e_size := xe_size x;
     HugePageModel.e_map := match xe_body x with XBMmap m => Some (huge_map x m) | _ => None end;
     HugePageModel.e_other := N.of_nat i |}.

(** perf_parser.cc:84-92. Each event afterwards: the message it was, and its mapping
    as it is now. *)
Definition huge_pages (order : list N) (xs : list x_event)
  : outcome (list (x_event * option HugePageModel.vmap)) :=
  let! evs := HugePageModel.deduce order (numbered huge_view xs) in
  let! evs := HugePageModel.combine_mappings evs in
  Ok (map (fun e => (nth (N.to_nat (HugePageModel.e_other e)) xs nothing, HugePageModel.e_map e)) evs).

(** ** The parser (C56, C57) *)

Definition parser_view (xm : x_event * option HugePageModel.vmap) : ParserModel.pevent :=
  let x := fst xm in
  ParserModel.mkPEvent (xe_type x) (xe_misc x)
    match snd xm, xe_body x with
    | Some m, _ =>
        ParserModel.PMap (ParserModel.mkPMap (dflt (HugePageModel.v_pid m)) (HugePageModel.v_start m)
          (HugePageModel.v_len m) (HugePageModel.v_pgoff m) (HugePageModel.v_file m)
          (dflt (HugePageModel.v_maj m)) (dflt (HugePageModel.v_min m)) (dflt (HugePageModel.v_ino m)))
    | None, XBSample s =>
        ParserModel.PSample (ParserModel.mkPSample (dflt (xsa_pid s)) (dflt (xsa_tid s)) (xsa_ip s)
          (xsa_addr s) (xsa_callchain s)
          (map (fun b => ParserModel.mkPBranch (xbr_from b) (xbr_to b)
                  [N.b2n (xbr_mispred b); N.b2n (xbr_predicted b); N.b2n (xbr_in_tx b);
                   N.b2n (xbr_abort b); xbr_cycles b; xbr_spec b]) (xsa_branch s)))
    | None, XBFork f | None, XBExit f => ParserModel.PFork (xf_pid f) (xf_ppid f) (xf_tid f) (xf_ptid f)
    | None, XBComm c => ParserModel.PComm (xc_pid c) (xc_tid c) (xc_comm c)
    | None, _ => ParserModel.POther []
    end.

(** perf_data_converter.cc:1011-1015, the options of the parser; kMmapPageAlignment
    (perf_parser.cc:51); kAllowUnalignedJitMappings = 1 << 2. *)
Definition parser_options (options : N) : ParserModel.pconfig :=
  ParserModel.mkPConfig false false (N.testbit options 2) 4096.

(** ** The proto that is converted *)

Definition proto_branch (b : x_branch) : branch :=
  {| br_from := xbr_from b; br_to := xbr_to b; br_mispred := xbr_mispred b; br_pred := xbr_predicted b;
     br_intx := xbr_in_tx b; br_abort := xbr_abort b; br_cycles := xbr_cycles b; br_spec := xbr_spec b |}.
Definition proto_sample (s : x_sample) : sample_ev :=
  {| s_ip := dflt (xsa_ip s); s_pid := xsa_pid s; s_tid := xsa_tid s; s_time := xsa_time s;
     s_addr := xsa_addr s; s_id := xsa_id s; s_period := dflt (xsa_period s); s_cpu := xsa_cpu s;
     s_callchain := xsa_callchain s; s_branch := map proto_branch (xsa_branch s);
     s_weight := xsa_weight s;
     s_wstruct := option_map (fun w => (Some (fst (fst w)), Some (snd (fst w)))) (xsa_weight_struct s);
     s_data_src := xsa_data_src s; s_cgroup := xsa_cgroup s;
     s_data_page := xsa_data_page s; s_code_page := xsa_code_page s |}.
(** [base]: the address a trace is stored at. *)
Definition proto_event (base : list N -> N) (xm : x_event * option HugePageModel.vmap) : perf_event :=
  let x := fst xm in
  {| ev_misc := Some (xe_misc x);
     ev_what :=
       match snd xm, xe_body x with
       | Some m, _ =>
           EvMMap {| mm_pid := dflt (HugePageModel.v_pid m); mm_start := HugePageModel.v_start m;
                     mm_len := HugePageModel.v_len m; mm_pgoff := HugePageModel.v_pgoff m;
                     mm_file := HugePageModel.v_file m; mm_md5 := HugePageModel.v_md5 m;
                     mm_build := HugePageModel.v_build m |}
       | None, XBComm c =>
           EvComm {| cm_pid := xc_pid c; cm_tid := xc_tid c; cm_comm := xc_comm c; cm_md5 := md5 (xc_comm c) |}
       | None, XBFork f => EvFork {| fk_pid := xf_pid f; fk_ppid := xf_ppid f; fk_tid := xf_tid f |}
       | None, XBCgroup c => EvCgroup (xcg_id c) (xcg_path c)
       | None, XBLostSamples l =>
           EvLostSamples {| lo_id := dflt (xi_id (xls_info l)); lo_lost := xls_lost l;
                            lo_pid := dflt (xi_pid (xls_info l)); lo_tid := dflt (xi_tid (xls_info l)) |}
       | None, XBLost l =>
           EvLost {| lo_id := xl_id l; lo_lost := xl_lost l;
                     lo_pid := dflt (xi_pid (xl_info l)); lo_tid := dflt (xi_tid (xl_info l)) |}
       | None, XBSample s => EvSample (proto_sample s)
       | None, XBAuxInfo a => EvAuxInfo (xai_type a)
       | None, XBAuxtrace a =>
           EvAuxtrace (match xat_trace a with [] => None | t => Some t end) (base (xat_trace a))
       | None, XBKsymbol k =>
           EvKsymbol {| ks_addr := xk_addr k; ks_len := xk_len k; ks_type := xk_type k;
                        ks_flags := xk_flags k; ks_name := xk_name k |}
       | None, _ => EvOther
       end |}.

(** perf_data.proto:181-187; comm_exec is bit 24 of the attribute's bit field. *)
Definition proto_attr (a : FileModel.fattr) : file_attr :=
  let m := AttrModel.ser_attr (FileModel.fa_attr a) in
  {| fa_ids := FileModel.fa_ids a; fa_comm_exec := N.testbit (AttrModel.ea_flags m) 24;
     fa_period := AttrModel.ea_sample_period m |}.
Definition proto_build (b : ReaderOpsModel.rbuild) : build_id_ev :=
  {| bi_misc := ReaderOpsModel.rb_misc b; bi_hash := ReaderOpsModel.rb_hash b;
     bi_file := ReaderOpsModel.rb_file b;
     bi_md5 := match ReaderOpsModel.rb_md5 b with Some t => md5 t | None => 0 end;
     bi_injected := ReaderOpsModel.rb_injected b |}.

(** perf_data_converter.cc:989-1018: what PerfDataProtoToProfiles is given, of data
    that could be read. The parser does not change the events (C62_parser_keeps), so
    they are not taken from it; it can end the program. [order]: the order an
    unordered_map delivers the processes in. Features 5 (version) and 11 (command
    line): kernel/perf_internals.h:104-129. *)
Definition to_proto (base : list N -> N) (order : list N) (options : N)
    (build_ids : list (list N * list N)) (sw : bool) (st : FileModel.fstate) : outcome perf_proto :=
  let! xs := each (message (serializer sw st)) (FileModel.fs_events st) in
  let '(xs, builds) := arrange st build_ids xs in
  let! evs := huge_pages order xs in
  let! _ := ParserModel.parse_raw_events (parser_options options) (map parser_view evs) in
  Ok {| pp_attrs := map proto_attr (FileModel.fs_attrs st);
        pp_events := map (proto_event base) evs;
        pp_types := map (fun t => Some (snd t)) (FileModel.fs_types st);
        pp_build_ids := map proto_build builds;
        pp_version := aget N.eqb 5 (FileModel.fm_strings (FileModel.fs_meta st));
        pp_command := if N.testbit (FileModel.fs_mask st) 11
                      then Some (FileModel.fm_cmdwhole (FileModel.fs_meta st)) else None |}.

(** perf_data_converter.cc:984-1022, RawPerfDataToProfiles. *)
Definition raw_to_profiles (base : list N -> N) (order : list N) (bytes : list N)
    (build_ids : list (list N * list N)) (labels options : N) (types : list (N * list N)) :=
  match FileModel.read_perf_data (new_reader (swapped bytes)) bytes with
  | Ok st =>
      let! p := to_proto base order options build_ids (swapped bytes) st in
      ConverterModel.convert {| ConverterModel.cf_data := p; ConverterModel.cf_labels := labels;
                                ConverterModel.cf_options := options; ConverterModel.cf_types := types |}
  | Fail => Ok []
  | Abort => Abort | UB => UB | Hang => Hang
  end.

End Digest.
