(** Model of src/perf_data_converter.{h,cc}: the PerfDataConverter, the handler
    that turns the Normalizer's callbacks into pprof profiles. Log messages, the
    function map (never filled) and SampleKeyHasher (a hash only affects speed)
    are left out; int sizes of protobuf tables are taken as unbounded. *)
From Coq Require Import String.
From Verif Require Import Base BytesModel TextModel Assoc ProfileModel BuilderModel SpeModel PerfProto
  NormalizerModel.
Local Open Scope N_scope.
Local Open Scope list_scope.

(** ** Options (perf_data_converter.h:22-74 and 104-124) *)
Definition kPidLabel : N := 0.
Definition kTidLabel : N := 1.
Definition kTimestampNsLabel : N := 2.
Definition kExecutionModeLabel : N := 3.
Definition kCommLabel : N := 4.
Definition kThreadTypeLabel : N := 5.
Definition kThreadCommLabel : N := 6.
Definition kCgroupLabel : N := 7.
Definition kCodePageSizeLabel : N := 8.
Definition kDataPageSizeLabel : N := 9.
Definition kCpuLabel : N := 10.
Definition kCacheLatencyLabel : N := 11.
Definition kDataSrcLabel : N := 12.
Definition kTotalLatencyLabel : N := 13.
Definition kIssueLatencyLabel : N := 14.
Definition kTranslationLatencyLabel : N := 15.
Definition kGroupByPids : N := 0.
Definition kFailOnMainMappingMismatch : N := 1.
Definition kAddDataAddressFrames : N := 3.
Definition kDropLostEvents : N := 4.

(** perf_data_converter.cc:215-225: the constructor's arguments. Flags are given
    by bit position. *)
Record cfg := {
  cf_data : perf_proto;
  cf_labels : N;
  cf_options : N;
  cf_types : list (N * list N) }.

(** perf_data_converter.cc:269-339, the Include..Labels functions. *)
Definition labelled (c : cfg) (bit : N) : bool := N.testbit (cf_labels c) bit.
Definition opted (c : cfg) (bit : N) : bool := N.testbit (cf_options c) bit.
Definition thread_types_on (c : cfg) : bool :=
  labelled c kThreadTypeLabel && negb (is_empty (cf_types c)).

(** Conversion of a uint64 to int64 (two's complement). *)
Definition s64 (x : N) : Z :=
  let x := w64 x in
  if x <? two63 then Z.of_N x else (Z.of_N x - Z.of_N two64)%Z.

(** ** State *)

(** perf_data_converter.cc:75-107, SampleKey; string indices are Z. *)
Record skey := {
  sk_pid : N; sk_tid : N; sk_time : N; sk_mode : actx;
  sk_comm : Z; sk_type : Z; sk_tcomm : Z; sk_cgroup : Z;
  sk_code_page : N; sk_data_page : N; sk_cpu : N; sk_cache : N;
  sk_src : Z; sk_snoop : Z; sk_stack : list N;
  sk_total : N; sk_issue : N; sk_trans : N }.

(** perf_data_converter.cc:109-123, SampleKeyEqualityTester. *)
Definition skey_eqb (a b : skey) : bool :=
  (sk_pid a =? sk_pid b) && (sk_tid a =? sk_tid b) && (sk_time a =? sk_time b) &&
  actx_eqb (sk_mode a) (sk_mode b) && (Z.eqb (sk_comm a) (sk_comm b)) &&
  (Z.eqb (sk_type a) (sk_type b)) && (Z.eqb (sk_tcomm a) (sk_tcomm b)) &&
  (Z.eqb (sk_cgroup a) (sk_cgroup b)) && (sk_code_page a =? sk_code_page b) &&
  (sk_data_page a =? sk_data_page b) && (sk_cpu a =? sk_cpu b) &&
  (sk_cache a =? sk_cache b) && (Z.eqb (sk_src a) (sk_src b)) &&
  (Z.eqb (sk_snoop a) (sk_snoop b)) && list_eqb (sk_stack a) (sk_stack b) &&
  (sk_total a =? sk_total b) && (sk_issue a =? sk_issue b) && (sk_trans a =? sk_trans b).

(** A Sample* (the protobuf messages in a repeated field do not move): which
    builder's profile, and the position in its sample table. *)
Definition sref := (nat * nat)%type.

(** perf_data_converter.cc:352-369, PerPidInfo. The builder and the ProcessMeta
    are created together and are given by their common position in builders_ and
    process_metas_. *)
Record pinfo := {
  pi_builder : option nat;
  pi_loc : list (N * N);          (* location_map *)
  pi_map : list (ptr * N);        (* mapping_map *)
  pi_comm : list (N * list N);    (* tid_to_comm_map *)
  pi_sample : list (skey * sref)  (* sample_map *) }.

Definition pinfo0 : pinfo :=
  {| pi_builder := None; pi_loc := []; pi_map := []; pi_comm := []; pi_sample := [] |}.

Definition pi_set_builder x p := {| pi_builder := x; pi_loc := pi_loc p; pi_map := pi_map p; pi_comm := pi_comm p; pi_sample := pi_sample p |}.
Definition pi_set_loc x p := {| pi_builder := pi_builder p; pi_loc := x; pi_map := pi_map p; pi_comm := pi_comm p; pi_sample := pi_sample p |}.
Definition pi_set_map x p := {| pi_builder := pi_builder p; pi_loc := pi_loc p; pi_map := x; pi_comm := pi_comm p; pi_sample := pi_sample p |}.
Definition pi_set_comm x p := {| pi_builder := pi_builder p; pi_loc := pi_loc p; pi_map := pi_map p; pi_comm := x; pi_sample := pi_sample p |}.
Definition pi_set_sample x p := {| pi_builder := pi_builder p; pi_loc := pi_loc p; pi_map := pi_map p; pi_comm := pi_comm p; pi_sample := x |}.

(** perf_data_converter.cc:179-211, ProcessMeta. *)
Record pmeta := { pm_pid : N; pm_min : Z; pm_max : Z }.

(** perf_data_converter.cc:347-374 and perf_data_handler.h:217-218.
    [cs_stats]: process_build_id_stats_ as the list of its increments. *)
Record cstate := {
  cs_builders : list builder;
  cs_metas : list pmeta;
  cs_pids : list (N * pinfo);
  cs_stats : list (N * bsource) }.

Definition cstate0 : cstate := {| cs_builders := []; cs_metas := []; cs_pids := []; cs_stats := [] |}.

Definition set_builders x s := {| cs_builders := x; cs_metas := cs_metas s; cs_pids := cs_pids s; cs_stats := cs_stats s |}.
Definition set_metas x s := {| cs_builders := cs_builders s; cs_metas := x; cs_pids := cs_pids s; cs_stats := cs_stats s |}.
Definition set_pids x s := {| cs_builders := cs_builders s; cs_metas := cs_metas s; cs_pids := x; cs_stats := cs_stats s |}.
Definition set_stats x s := {| cs_builders := cs_builders s; cs_metas := cs_metas s; cs_pids := cs_pids s; cs_stats := x |}.

(** [per_pid_[pid]], which default-constructs a missing entry. *)
Definition info (s : cstate) (pid : N) : pinfo :=
  match aget N.eqb pid (cs_pids s) with Some p => p | None => pinfo0 end.
Definition set_info (pid : N) (p : pinfo) (s : cstate) : cstate :=
  set_pids (aset pid p (cs_pids s)) s.

(** The n-th element replaced. *)
Fixpoint set_nth {A} (n : nat) (x : A) (l : list A) : list A :=
  match l, n with
  | [], _ => []
  | _ :: r, O => x :: r
  | y :: r, S n => y :: set_nth n x r
  end.

(** Element access, undefined outside the table. *)
Definition at_ {A} (l : list A) (n : nat) : outcome A :=
  match nth_error l n with Some x => Ok x | None => UB end.

(** ** Small functions *)

(** perf_data_converter.cc:60-62, UTF8StringId: only the C string is kept. *)
Definition utf8_id (b : builder) (s : list N) : builder * Z := string_id b (c_str s).

(** perf_data_converter.cc:38-54, ExecModeString. *)
Definition exec_mode_string (c : actx) : list N :=
  match c with
  | CHostKernel => str "Host Kernel"
  | CHostUser => str "Host User"
  | CGuestKernel => str "Guest Kernel"
  | CGuestUser => str "Guest User"
  | CHypervisor => str "Hypervisor"
  | CUnknown => []
  end.

(** perf_data_converter.cc:378-395, DataSrcString (kernel/perf_event.h,
    PERF_MEM_LVL_* bits). *)
Definition data_src_string (l : N) : list N :=
  if negb (N.testbit l 1) then []
  else if N.testbit l 3 then str "L1"
  else if N.testbit l 4 then str "LFB"
  else if N.testbit l 5 then str "L2"
  else if N.testbit l 6 then str "Local L3"
  else if N.testbit l 7 then str "Local DRAM"
  else if N.testbit l 8 || N.testbit l 9 then str "Remote DRAM"
  else if N.testbit l 10 then str "Near L3"
  else if N.testbit l 11 then str "Far L3"
  else if N.testbit l 12 then str "IO Memory"
  else if N.testbit l 13 then str "Uncached Memory"
  else str "Unknown Level".

(** perf_data_converter.cc:398-404, SnoopStatusString (PERF_MEM_SNOOP_* bits). *)
Definition snoop_string (l : N) : list N :=
  if N.testbit l 1 then str "None"
  else if N.testbit l 2 then str "Hit"
  else if N.testbit l 3 then str "Miss"
  else if N.testbit l 4 then str "HitM"
  else str "Unknown Status".

(** kernel/perf_event.h, union perf_mem_data_src: mem_lvl are bits 5-18 and
    mem_snoop bits 19-23. *)
Definition mem_lvl (v : N) : N := N.shiftr v 5 mod 2 ^ 14.
Definition mem_snoop (v : N) : N := N.shiftr v 19 mod 2 ^ 5.

(** perf_data_handler.cc:1050-1052, MappingFilename. *)
Definition mapping_filename (m : hmapping) : list N := name_or_md5 (hm_file m) (hm_md5 m).

(** ** Profile tables *)

(** perf_data_converter.cc:605-643, AddOrGetMapping on the PerPidInfo of the
    given process and the builder. *)
Definition add_mapping (pi : pinfo) (b : builder) (smap : option mref)
  : outcome (pinfo * builder * N) :=
  match smap with
  | None => Ok (pi, b, 0)
  | Some (q, m) =>
      match aget Nat.eqb q (pi_map pi) with
      | Some id => Ok (pi, b, id)
      | None =>
          let id := N.of_nat (List.length (pf_mapping (b_profile b))) + 1 in
          let '(b1, build) := if is_empty (fst (hm_build m)) then (b, 0%Z)
                              else utf8_id b (fst (hm_build m)) in
          let '(b2, file) := utf8_id b1 (mapping_filename m) in
          let pm := {| mp_id := id; mp_start := hm_start m; mp_limit := hm_limit m;
                       mp_off := hm_off m; mp_file := file; mp_build := build |} in
          if hm_start m <=? hm_limit m then
            Ok (pi_set_map (aset q id (pi_map pi)) pi,
                with_profile b2 (set_mapping (pf_mapping (b_profile b2) ++ [pm]) (b_profile b2)), id)
          else Abort
      end
  end.

(** perf_data_converter.cc:807-831, AddOrGetLocation. *)
Definition add_location (pi : pinfo) (b : builder) (addr : N) (smap : option mref)
  : outcome (pinfo * builder * N) :=
  match aget N.eqb addr (pi_loc pi) with
  | Some id => Ok (pi, b, id)
  | None =>
      let id := N.of_nat (List.length (pf_location (b_profile b))) + 1 in
      let! (pi, b, mid) := add_mapping pi b smap in
      if (mid =? 0) && negb (addr =? 0) then Abort
      else
        let l := {| lc_id := id; lc_mapping := mid; lc_addr := addr; lc_line := [] |} in
        Ok (pi_set_loc (aset addr id (pi_loc pi)) pi,
            with_profile b (set_location (pf_location (b_profile b) ++ [l]) (b_profile b)), id)
  end.

(** The locations of a list of (address, mapping), in order. *)
Fixpoint add_locations (pi : pinfo) (b : builder) (fs : list (N * option mref))
  : outcome (pinfo * builder * list N) :=
  match fs with
  | [] => Ok (pi, b, [])
  | (a, m) :: r =>
      let! (pi, b, id) := add_location pi b a m in
      let! (pi, b, ids) := add_locations pi b r in
      Ok (pi, b, id :: ids)
  end.

(** ** Builders *)

(** perf_data_converter.cc:518-541: the two sample types of every event. [n]
    counts the unnamed events so far, [named] are the names of the event types if
    there are as many as attributes. Returns the last string index. *)
Fixpoint add_types (b : builder) (n : N) (names : list (option (list N))) (last : Z)
  : builder * Z :=
  match names with
  | [] => (b, last)
  | o :: r =>
      let '(name, n) := match o with
                        | Some s => (s ++ str "_", n)
                        | None => (str "event_" ++ print_dec n ++ str "_", n + 1)
                        end in
      let '(b, ts) := utf8_id b (name ++ str "sample") in
      let '(b, us) := string_id b (str "count") in
      let '(b, te) := utf8_id b (name ++ str "event") in
      let '(b, ue) := string_id b (str "count") in
      let p := b_profile b in
      let b := with_profile b (set_sample_type
                 (pf_sample_type p ++ [{| vt_type := ts; vt_unit := us |}; {| vt_type := te; vt_unit := ue |}]) p) in
      add_types b n r te
  end.

(** perf_data_converter.cc:525-530: names are used only if the tables have the
    same size. *)
Definition event_names (p : perf_proto) : list (option (list N)) :=
  if (List.length (pp_attrs p) =? List.length (pp_types p))%nat then pp_types p
  else map (fun _ => None) (pp_attrs p).

(** perf_data_converter.cc:552-562. *)
Definition add_comment (b : builder) (prefix : list N) (o : option (list N)) : builder :=
  match o with
  | None => b
  | Some v =>
      let '(b, i) := utf8_id b (prefix ++ v) in
      with_profile b (set_comment (pf_comment (b_profile b) ++ [i]) (b_profile b))
  end.

(** perf_data_converter.cc:514-562: a fresh profile; [pi] is the PerPidInfo of the
    sample's process, whose mapping_map the main mapping goes to. (The debug-only
    DCHECK_NE at 542 is left out.) *)
Definition new_builder (c : cfg) (pi : pinfo) (main : option mref) : outcome (pinfo * builder) :=
  let '(b, last) := add_types builder0 0 (event_names (cf_data c)) 0 in
  let b := with_profile b (set_default_type last (b_profile b)) in
  let! (pi, b) :=
    match main with
    | None =>
        let fake := {| mp_id := 1; mp_start := 0; mp_limit := 1; mp_off := 0; mp_file := 0; mp_build := 0 |} in
        Ok (pi, with_profile b (set_mapping (pf_mapping (b_profile b) ++ [fake]) (b_profile b)))
    | Some _ => let! (pi, b, _) := add_mapping pi b main in Ok (pi, b)
    end in
  let b := add_comment b (str "perf-version:") (pp_version (cf_data c)) in
  let b := add_comment b (str "perf-command:") (pp_command (cf_data c)) in
  Ok (pi, b).

(** perf_data_converter.cc:564-580: the main mapping of an existing profile. *)
Definition check_main (c : cfg) (b : builder) (main : option mref) : outcome unit :=
  match main with
  | Some (_, m) =>
      if opted c kGroupByPids && negb (is_empty (hm_file m)) then
        let! m0 := at_ (pf_mapping (b_profile b)) 0 in
        let! filename := at_ (pf_string (b_profile b)) (Z.to_nat (mp_file m0)) in
        if negb (list_eqb filename (mapping_filename m)) && opted c kFailOnMainMappingMismatch
        then Abort else Ok tt
      else Ok tt
  | None => Ok tt
  end.

(** perf_data_converter.cc:185-192, UpdateTimestamps. *)
Definition update_times (t : Z) (m : pmeta) : pmeta :=
  {| pm_pid := pm_pid m;
     pm_min := if Z.eqb (pm_min m) 0 || (t <? pm_min m)%Z then t else pm_min m;
     pm_max := if Z.eqb (pm_max m) 0 || (pm_max m <? t)%Z then t else pm_max m |}.

(** perf_data_converter.cc:502-586, GetOrCreateBuilder: the builder's position. *)
Definition get_or_create (c : cfg) (s : cstate) (cx : sctx) : outcome (cstate * nat) :=
  let sm := cx_sample cx in
  let pid := dflt (s_pid sm) in
  let bpid := if opted c kGroupByPids then pid else 0 in
  let! (s, bi) :=
    match pi_builder (info s bpid) with
    | None =>
        let bi := List.length (cs_builders s) in
        let s := set_info bpid (pi_set_builder (Some bi) (info s bpid)) s in
        let! (pi, b) := new_builder c (info s pid) (cx_main cx) in
        let s := set_info pid pi s in
        let s := set_builders (cs_builders s ++ [b]) s in
        Ok (set_metas (cs_metas s ++ [{| pm_pid := bpid; pm_min := 0; pm_max := 0 |}]) s, bi)
    | Some bi =>
        let! b := at_ (cs_builders s) bi in
        let! _ := check_main c b (cx_main cx) in
        Ok (s, bi)
    end in
  let t := w64 (dflt (s_time sm)) in
  if t =? 0 then Ok (s, bi)
  else
    let! m := at_ (cs_metas s) bi in
    Ok (set_metas (set_nth bi (update_times (s64 t) m) (cs_metas s)) s, bi).

(** ** Keys and labels *)

(** [tid_to_comm_map[tid]]. Operator [] also stores an empty string for a new
    key; as a missing entry reads as empty too, that is left out. *)
Definition comm_of (pi : pinfo) (tid : N) : list N :=
  match aget N.eqb tid (pi_comm pi) with Some s => s | None => [] end.

(** A string field of the key: set if wanted. *)
Definition opt_id (want : bool) (b : builder) (s : list N) : builder * Z :=
  if want then utf8_id b s else (b, 0%Z).

Definition has {A} (o : option A) : bool := match o with Some _ => true | None => false end.
Definition pick (want : bool) (o : option N) : N := if want then dflt o else 0.
Definition or_empty (o : option (list N)) : list N := match o with Some s => s | None => [] end.

(** perf_data_converter.cc:451-457, 465-473 and 487-497: cache, total, issue and
    translation latency. *)
Definition key_cache (c : cfg) (cx : sctx) : N :=
  match s_wstruct (cx_sample cx) with
  | Some (Some v, _) => if labelled c kCacheLatencyLabel then v else 0
  | _ => 0
  end.
Definition key_total (c : cfg) (cx : sctx) : N :=
  if labelled c kTotalLatencyLabel then
    match cx_spe cx with
    | Some r => sr_total_lat r
    | None => match s_wstruct (cx_sample cx) with
              | Some (_, Some v) => w32 v
              | _ => w32 (dflt (s_weight (cx_sample cx)))
              end
    end
  else 0.
Definition key_issue (c : cfg) (cx : sctx) : N :=
  match cx_spe cx with Some r => if labelled c kIssueLatencyLabel then sr_issue_lat r else 0 | None => 0 end.
Definition key_trans (c : cfg) (cx : sctx) : N :=
  match cx_spe cx with Some r => if labelled c kTranslationLatencyLabel then sr_trans_lat r else 0 | None => 0 end.

(** perf_data_converter.cc:406-500, MakeSampleKey; [pi] is per_pid_[sample.pid()]
    (the same entry as event_pid's, since the comm fields need has_pid). A missing
    thread type or cgroup is the empty string, whose index is 0. *)
Definition make_key (c : cfg) (pi : pinfo) (b : builder) (cx : sctx) : builder * skey :=
  let sm := cx_sample cx in
  let pid := dflt (s_pid sm) in
  let tid := dflt (s_tid sm) in
  let '(b, comm) := opt_id (labelled c kCommLabel && has (s_pid sm)) b (comm_of pi pid) in
  let '(b, type) := opt_id (thread_types_on c && has (s_tid sm)) b (or_empty (aget N.eqb tid (cf_types c))) in
  let '(b, tcomm) := opt_id (labelled c kThreadCommLabel && has (s_pid sm) && has (s_tid sm)) b (comm_of pi tid) in
  let '(b, cgroup) := opt_id (labelled c kCgroupLabel) b (or_empty (cx_cgroup cx)) in
  let want_src := labelled c kDataSrcLabel && has (s_data_src sm) in
  let '(b, src) := opt_id want_src b (data_src_string (mem_lvl (dflt (s_data_src sm)))) in
  let '(b, snoop) := opt_id want_src b (snoop_string (mem_snoop (dflt (s_data_src sm)))) in
  (b,
   {| sk_pid := pid;
      sk_tid := pick (labelled c kTidLabel) (s_tid sm);
      sk_time := pick (labelled c kTimestampNsLabel) (s_time sm);
      sk_mode := if labelled c kExecutionModeLabel then context_from_header (cx_misc cx) else CUnknown;
      sk_comm := comm; sk_type := type; sk_tcomm := tcomm; sk_cgroup := cgroup;
      sk_code_page := pick (labelled c kCodePageSizeLabel) (s_code_page sm);
      sk_data_page := pick (labelled c kDataPageSizeLabel) (s_data_page sm);
      sk_cpu := pick (labelled c kCpuLabel) (s_cpu sm);
      sk_cache := key_cache c cx; sk_src := src; sk_snoop := snoop; sk_stack := [];
      sk_total := key_total c cx; sk_issue := key_issue c cx; sk_trans := key_trans c cx |}).

Definition with_stack (ids : list N) (k : skey) : skey :=
  {| sk_pid := sk_pid k; sk_tid := sk_tid k; sk_time := sk_time k; sk_mode := sk_mode k;
     sk_comm := sk_comm k; sk_type := sk_type k; sk_tcomm := sk_tcomm k; sk_cgroup := sk_cgroup k;
     sk_code_page := sk_code_page k; sk_data_page := sk_data_page k; sk_cpu := sk_cpu k;
     sk_cache := sk_cache k; sk_src := sk_src k; sk_snoop := sk_snoop k; sk_stack := ids;
     sk_total := sk_total k; sk_issue := sk_issue k; sk_trans := sk_trans k |}.

(** One label: its condition, key, and string or number with unit. *)
Inductive lval :=
| LStr (i : Z)
| LText (s : list N)
| LNum (n : Z) (unit : list N).

(** perf_data_converter.cc:658-754: the labels in order, with their conditions. *)
Definition label_list (c : cfg) (sm : sample_ev) (k : skey) : list (bool * list N * lval) :=
  [ (labelled c kPidLabel && has (s_pid sm), str "pid", LNum (s64 (dflt (s_pid sm))) []);
    (labelled c kTidLabel && has (s_tid sm), str "tid", LNum (s64 (dflt (s_tid sm))) []);
    (labelled c kCommLabel && negb (Z.eqb (sk_comm k) 0), str "comm", LStr (sk_comm k));
    (labelled c kTimestampNsLabel && has (s_time sm), str "timestamp_ns", LNum (s64 (dflt (s_time sm))) []);
    (labelled c kExecutionModeLabel && negb (actx_eqb (sk_mode k) CUnknown), str "execution_mode",
     LText (exec_mode_string (sk_mode k)));
    (thread_types_on c && negb (Z.eqb (sk_type k) 0), str "thread_type", LStr (sk_type k));
    (labelled c kThreadCommLabel && negb (Z.eqb (sk_tcomm k) 0), str "thread_comm", LStr (sk_tcomm k));
    (labelled c kCgroupLabel && negb (Z.eqb (sk_cgroup k) 0), str "cgroup", LStr (sk_cgroup k));
    (labelled c kCodePageSizeLabel && negb (sk_code_page k =? 0), str "code_page_size", LNum (s64 (sk_code_page k)) []);
    (labelled c kDataPageSizeLabel && negb (sk_data_page k =? 0), str "data_page_size", LNum (s64 (sk_data_page k)) []);
    (labelled c kCpuLabel && has (s_cpu sm), str "cpu", LNum (s64 (dflt (s_cpu sm))) (str "cpu"));
    (labelled c kCacheLatencyLabel && negb (sk_cache k =? 0), str "cache_latency", LNum (s64 (sk_cache k)) (str "cycles"));
    (labelled c kDataSrcLabel && negb (Z.eqb (sk_src k) 0), str "data_src", LStr (sk_src k));
    (labelled c kDataSrcLabel && negb (Z.eqb (sk_snoop k) 0), str "snoop_status", LStr (sk_snoop k));
    (labelled c kTotalLatencyLabel && negb (sk_total k =? 0), str "total_latency", LNum (s64 (sk_total k)) (str "cycles"));
    (labelled c kIssueLatencyLabel && negb (sk_issue k =? 0), str "issue_latency", LNum (s64 (sk_issue k)) (str "cycles"));
    (labelled c kTranslationLatencyLabel && negb (sk_trans k =? 0), str "translation_latency",
     LNum (s64 (sk_trans k)) (str "cycles")) ].

(** Emitting them; every string goes through StringId in this order. *)
Fixpoint emit_labels (b : builder) (ls : list (bool * list N * lval)) : builder * list label :=
  match ls with
  | [] => (b, [])
  | (false, _, _) :: r => emit_labels b r
  | (true, key, v) :: r =>
      let '(b, ki) := string_id b key in
      let '(b, l) :=
        match v with
        | LStr i => (b, {| lb_key := ki; lb_str := i; lb_num := 0; lb_unit := 0 |})
        | LText s => let '(b, i) := string_id b s in
                     (b, {| lb_key := ki; lb_str := i; lb_num := 0; lb_unit := 0 |})
        | LNum n u => let '(b, i) := string_id b u in
                      (b, {| lb_key := ki; lb_str := 0; lb_num := n; lb_unit := i |})
        end in
      let '(b, rest) := emit_labels b r in
      (b, l :: rest)
  end.

(** perf_data_converter.cc:651-763: a new sample at the end of the table. *)
Definition new_sample (c : cfg) (b : builder) (sm : sample_ev) (k : skey) : builder :=
  let '(b, ls) := emit_labels b (label_list c sm k) in
  let s := {| ps_loc := sk_stack k;
              ps_val := repeat 0%Z (2 * List.length (pp_attrs (cf_data c)));
              ps_label := ls |} in
  with_profile b (set_sample (pf_sample (b_profile b) ++ [s]) (b_profile b)).

(** perf_data_converter.cc:765-776: the weight. *)
Definition weight_of (c : cfg) (cx : sctx) : Z :=
  let period := s_period (cx_sample cx) in
  if 0 <? period then s64 period
  else if (0 <=? cx_attr cx)%Z then
    match nth_error (pp_attrs (cf_data c)) (Z.to_nat (cx_attr cx)) with
    | Some a => if 0 <? fa_period a then s64 (fa_period a) else 1%Z
    | None => 1%Z
    end
  else 1%Z.

(** A signed 64-bit sum; overflow is undefined. *)
Definition add_s64 (a b : Z) : outcome Z :=
  let r := (a + b)%Z in
  if ((- 9223372036854775808 <=? r) && (r <=? 9223372036854775807))%Z then Ok r else UB.

(** perf_data_converter.cc:777-780 on the sample's values. *)
Definition bump (vals : list Z) (i : nat) (w : Z) : outcome (list Z) :=
  let! v0 := at_ vals (2 * i) in
  let! v0 := add_s64 v0 1 in
  let! v1 := at_ vals (2 * i + 1) in
  let! v1 := add_s64 v1 w in
  Ok (set_nth (2 * i + 1) v1 (set_nth (2 * i) v0 vals)).

(** The same through the Sample pointer. *)
Definition bump_sample (s : cstate) (r : sref) (i : nat) (w : Z) : outcome cstate :=
  let! b := at_ (cs_builders s) (fst r) in
  let! p := at_ (pf_sample (b_profile b)) (snd r) in
  let! vals := bump (ps_val p) i w in
  let p := {| ps_loc := ps_loc p; ps_val := vals; ps_label := ps_label p |} in
  let b := with_profile b (set_sample (set_nth (snd r) p (pf_sample (b_profile b))) (b_profile b)) in
  Ok (set_builders (set_nth (fst r) b (cs_builders s)) s).

(** perf_data_converter.cc:645-781, AddOrUpdateSample: also returns the sample. *)
Definition add_or_update (c : cfg) (s : cstate) (cx : sctx) (pid : N) (k : skey) (bi : nat)
  : outcome (cstate * sref) :=
  let w := weight_of c cx in
  let i := Z.to_nat (cx_attr cx) in
  match aget skey_eqb k (pi_sample (info s pid)) with
  | Some r => let! s := bump_sample s r i w in Ok (s, r)
  | None =>
      let! b := at_ (cs_builders s) bi in
      let r := (bi, List.length (pf_sample (b_profile b))) in
      let s := set_builders (set_nth bi (new_sample c b (cx_sample cx) k) (cs_builders s)) s in
      let pi := info s pid in
      let s := set_info pid (pi_set_sample (aset k r (pi_sample pi)) pi) s in
      let! s := bump_sample s r i w in Ok (s, r)
  end.

(** ** Callbacks *)

(** perf_data_converter.cc:869-875 and 881-887: the address used for a frame and
    the assertions on it. *)
Definition checked (addr : N) (m : option mref) : outcome N :=
  match m with
  | None => Ok 0
  | Some (_, m) =>
      if addr =? 0 then Ok 0
      else if (hm_start m <=? addr) && (addr <? hm_limit m) then Ok addr else Abort
  end.

(** perf_data_converter.cc:900-936: the frames of the callchain. *)
Fixpoint chain_frames (lbr skipped : bool) (fs : list (N * option mref)) : list (N * option mref) :=
  match fs with
  | [] => []
  | (ip, m) :: r =>
      if lbr && (ip =? PERF_CONTEXT_USER) then []
      else if PERF_CONTEXT_MAX <=? ip then chain_frames lbr skipped r
      else if negb skipped then chain_frames lbr true r
      else match m with
           | None => chain_frames lbr skipped r
           | Some (_, h) =>
               if ip <=? hm_start h then chain_frames lbr skipped r
               else (ip - 1, m) :: chain_frames lbr skipped r
           end
  end.

(** perf_data_converter.cc:939-957: the frames of the branch stack. *)
Fixpoint branch_frames (bs : list bpair) : list (N * option mref) :=
  match bs with
  | [] => []
  | p :: r =>
      match bp_from_map p with
      | None => branch_frames r
      | Some (_, h) =>
          if bp_from p <? hm_start h then branch_frames r
          else (bp_from p, bp_from_map p) :: branch_frames r
      end
  end.

(** perf_data_handler.cc:1054-1059, IncBuildIdStats: what is incremented. *)
Definition source_of (m : option mref) : bsource :=
  match m with Some (_, h) => snd (hm_build h) | None => SrcNoMmap end.

(** perf_data_converter.cc:854-863: the sample is used. *)
Definition accepted (c : cfg) (cx : sctx) : bool :=
  (0 <=? cx_attr cx)%Z && (cx_attr cx <? Z.of_nat (List.length (pp_attrs (cf_data c))))%Z &&
  negb (cx_lost cx && opted c kDropLostEvents).

(** perf_data_converter.cc:853-961, Sample. Besides the state, the profile sample
    the event was added to ([None] if dropped). All locations are interned before
    any is counted in the statistics, which does not interact with them. *)
Definition on_sample_call (c : cfg) (s : cstate) (cx : sctx) : outcome (cstate * option sref) :=
  if negb (accepted c cx) then Ok (s, None)
  else
    let sm := cx_sample cx in
    let pid := dflt (s_pid sm) in
    let! (s, bi) := get_or_create c s cx in
    let! b := at_ (cs_builders s) bi in
    let '(b, k) := make_key c (info s pid) b cx in
    let! ip := checked (s_ip sm) (cx_map cx) in
    let! data :=
      if opted c kAddDataAddressFrames then
        let! a := checked (dflt (s_addr sm)) (cx_addr cx) in Ok [(a, cx_addr cx)]
      else Ok [] in
    let lbr := negb (is_empty (cx_branch cx)) && negb (has (cx_spe cx)) in
    let frames := (ip, cx_map cx) :: chain_frames lbr false (cx_chain cx)
                  ++ (if lbr then branch_frames (cx_branch cx) else []) in
    let! (pi, b, ids) := add_locations (info s pid) b (data ++ frames) in
    let s := set_info pid pi s in
    let s := set_builders (set_nth bi b (cs_builders s)) s in
    let s := set_stats (cs_stats s ++ map (fun f => (pid, source_of (snd f))) frames) s in
    let! (s, r) := add_or_update c s cx pid (with_stack ids k) bi in
    Ok (s, Some r).

(** perf_data_converter.cc:833-844, Comm. *)
Definition on_comm_call (s : cstate) (cm : comm_ev) (is_exec : bool) : cstate :=
  let s := if is_exec then set_info (cm_pid cm) pinfo0 s else s in
  let pi := info s (cm_pid cm) in
  set_info (cm_pid cm)
    (pi_set_comm (aset (cm_tid cm) (name_or_md5 (cm_comm cm) (cm_md5 cm)) (pi_comm pi)) pi) s.

(** perf_data_converter.cc:847-851, MMap: erase [lower_bound(start),
    lower_bound(limit)). Were start > limit this would be an invalid range. *)
Definition on_mmap_call (s : cstate) (pid : N) (m : hmapping) : outcome cstate :=
  if hm_limit m <? hm_start m then UB
  else
    let pi := info s pid in
    Ok (set_info pid
          (pi_set_loc (filter (fun e => negb ((hm_start m <=? fst e) && (fst e <? hm_limit m))) (pi_loc pi)) pi) s).

Definition on_call (c : cfg) (s : cstate) (h : hcall) : outcome (cstate * option sref) :=
  match h with
  | HSample cx => on_sample_call c s cx
  | HComm cm e => Ok (on_comm_call s cm e, None)
  | HMMap pid (_, m) => let! s := on_mmap_call s pid m in Ok (s, None)
  end.

(** All callbacks; for each, the profile sample it was added to. *)
Fixpoint run_calls (c : cfg) (s : cstate) (hs : list hcall) : outcome (cstate * list (option sref)) :=
  match hs with
  | [] => Ok (s, [])
  | h :: r =>
      let! (s, o) := on_call c s h in
      let! (s, os) := run_calls c s r in
      Ok (s, o :: os)
  end.

(** ** Results *)

(** perf_data_converter.h:126-144, ProcessProfile. *)
Record process_profile := {
  pr_pid : N; pr_data : profile; pr_min : Z; pr_max : Z; pr_stats : list bsource }.

(** perf_data_converter.cc:194-206, MakeProcessProfile after Finalize (whose result
    is ignored, :967). *)
Definition make_profile (s : cstate) (b : builder) (m : pmeta) : process_profile :=
  {| pr_pid := pm_pid m; pr_data := b_profile (fst (finalize b));
     pr_min := pm_min m; pr_max := pm_max m;
     pr_stats := map snd (filter (fun e => fst e =? pm_pid m) (cs_stats s)) |}.

(** perf_data_converter.cc:963-973, Profiles. *)
Definition profiles (s : cstate) : list process_profile :=
  map (fun bm => make_profile s (fst bm) (snd bm)) (combine (cs_builders s) (cs_metas s)).

(** perf_data_converter.cc:977-983, PerfDataProtoToProfiles. *)
Definition convert (c : cfg) : outcome (list process_profile) :=
  let! hs := process (cf_data c) in
  let! (s, _) := run_calls c cstate0 hs in
  Ok (profiles s).
