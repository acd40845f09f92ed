(** Model of src/quipper/perf_parser.{h,cc}: attributing the addresses of samples to
    mapped files, and replacing addresses by synthetic ones. *)
From Verif Require Import Base BytesModel TextModel Assoc MapperModel.
From Coq Require Import String.
Local Open Scope N_scope.
Local Open Scope list_scope.

(** ** Events *)

(** perf_data.proto, MMapEvent, BranchStackEntry, SampleEvent: the fields the parser
    uses. [s_ip] and [s_addr] are [None] when the field is unset. The flags of a
    branch (mispredicted, predicted, in_transaction, abort, cycles, spec) are one
    value here; the parser copies them one by one (perf_parser.cc:609-614; cycles is
    cut to 16 bits there, which is not modelled). *)
Record pmap := mkPMap {
  m_pid : N; m_start : N; m_len : N; m_pgoff : N; m_file : list N;
  m_maj : N; m_min : N; m_ino : N }.
Record pbranch := mkPBranch { b_from : N; b_to : N; b_flags : list N }.
Record psample := mkPSample {
  s_pid : N; s_tid : N; s_ip : option N; s_addr : option N;
  s_chain : list N; s_branch : list pbranch }.

(** perf_data.proto, PerfEvent: type and misc of the header and which member of the
    oneof is set. The type does not determine the member. [PFork] is the fork_event
    of an exit record as well, as in the proto. *)
Inductive pbody :=
| PSample (s : psample)
| PMap (m : pmap)
| PFork (pid ppid tid ptid : N)
| PComm (pid tid : N) (comm : list N)
| POther (rest : list N).
Record pevent := mkPEvent { e_type : N; e_misc : N; e_body : pbody }.

Definition set_body (b : pbody) (e : pevent) : pevent := mkPEvent (e_type e) (e_misc e) b.

(** perf_parser.h:37-124, ParsedEvent. A DSOAndOffset is the name of the file, if
    any, and the offset. [pi_hits] is num_samples_in_mmap_region, which the
    constructor does not set. *)
Definition loc := (option (list N) * N)%type.
Definition no_loc : loc := (None, 0).
Record pinfo := mkInfo {
  pi_command : option (list N); pi_code : loc; pi_data : loc;
  pi_chain : list loc; pi_branch : list (list N * loc * loc); pi_hits : option N }.
Definition new_info : pinfo := mkInfo None no_loc no_loc [] [] None.
Definition set_hits (h : option N) (i : pinfo) : pinfo :=
  mkInfo (pi_command i) (pi_code i) (pi_data i) (pi_chain i) (pi_branch i) h.

(** dso.h:22-31, DSOInfo without its name. *)
Record dso := mkDso {
  d_maj : N; d_min : N; d_ino : N; d_hit : bool; d_threads : list N; d_build : list N }.

(** perf_parser.h:126-148, PerfEventStats: 32-bit counters. *)
Inductive counter := NSample | NMmap | NComm | NFork | NExit | NKsymbol
                   | NSampleMapped | NData | NDataMapped.
Definition counter_eqb (a b : counter) : bool :=
  match a, b with
  | NSample, NSample | NMmap, NMmap | NComm, NComm | NFork, NFork | NExit, NExit
  | NKsymbol, NKsymbol | NSampleMapped, NSampleMapped | NData, NData | NDataMapped, NDataMapped => true
  | _, _ => false
  end.
Definition bump (c : counter) (f : counter -> N) : counter -> N :=
  fun d => if counter_eqb c d then w32 (f d + 1) else f d.

(** perf_parser.h:150-181, PerfParserOptions, and the page size
    (perf_parser.cc:51). *)
Record pconfig := mkPConfig {
  pc_remap : bool; pc_discard : bool; pc_jit : bool; pc_page : N }.

(** perf_parser.h:277-300: parsed_events_ (with the events pointed to),
    process_mappers_, pidtid_to_comm_map_ (with the strings), name_to_dso_,
    stats_. *)
Record pstate := mkPState {
  ps_rows : list (pevent * pinfo); ps_mappers : list (N * mapper);
  ps_comms : list ((N * N) * list N); ps_dsos : list (list N * dso);
  ps_stats : counter -> N }.
Definition set_rows v s := mkPState v (ps_mappers s) (ps_comms s) (ps_dsos s) (ps_stats s).
Definition set_mappers v s := mkPState (ps_rows s) v (ps_comms s) (ps_dsos s) (ps_stats s).
Definition set_comms v s := mkPState (ps_rows s) (ps_mappers s) v (ps_dsos s) (ps_stats s).
Definition set_dsos v s := mkPState (ps_rows s) (ps_mappers s) (ps_comms s) v (ps_stats s).
Definition count (c : counter) (s : pstate) : pstate :=
  mkPState (ps_rows s) (ps_mappers s) (ps_comms s) (ps_dsos s) (bump c (ps_stats s)).

(** Replacing row [i]. *)
Fixpoint upd {A} (i : nat) (f : A -> A) (l : list A) : list A :=
  match l, i with
  | [], _ => []
  | x :: r, O => f x :: r
  | x :: r, S j => x :: upd j f r
  end.

(** perf_parser.h:28, kKernelPid. *)
Definition kernel_pid : N := 4294967295.

(** perf_parser.cc:790-816, GetOrCreateProcessMapper. *)
Definition process_mapper (cf : pconfig) (pid ppid : N) (s : pstate) : outcome (mapper * pstate) :=
  match aget N.eqb pid (ps_mappers s) with
  | Some m => Ok (m, s)
  | None =>
      let parent := match aget N.eqb ppid (ps_mappers s) with
                    | Some m => Some m
                    | None => aget N.eqb kernel_pid (ps_mappers s)
                    end in
      let! m := (match parent with
                 | Some m => Ok (copy_mapper m)
                 | None => new_mapper (pc_page cf)
                 end) in
      Ok (m, set_mappers (aset pid m (ps_mappers s)) s)
  end.

(** perf_parser.cc:349-360, mergeTwoU32 and splitU64. *)
Definition merge_u32 (a b : N) : N := N.lor (N.shiftl a 32) b.
Definition split_u64 (v : N) : N * N := (N.shiftr v 32, N.land 4294967295 v).

(** perf_parser.cc:668: the address of something that is not mapped. *)
Definition unmapped_address (ip : N) : N :=
  N.lor (N.land ip (N.lxor max64 (N.shiftl 15 60))) (N.shiftl 8 60).

(** perf_parser.cc:57-61, GetPageAlignedOffset. *)
Definition page_offset (cf : pconfig) (a : N) : N := a mod pc_page cf.

(** The set of threads of a DSO. *)
Definition add_thread (t : N) (d : dso) : dso :=
  mkDso (d_maj d) (d_min d) (d_ino d) true
    (if mem_by N.eqb t (d_threads d) then d_threads d else t :: d_threads d) (d_build d).

(** perf_parser.cc:620-683, MapIPAndPidAndGetNameAndOffset: whether the address was
    mapped, *new_ip (0 if it was not written: all callers initialise it), and what
    was stored in *dso_and_offset. parsed_events_[id] beyond its end and the counter
    of a row that was never set are undefined. *)
Definition map_address (cf : pconfig) (ip pid tid : N) (s : pstate)
  : outcome (bool * N * loc * pstate) :=
  let! ms := process_mapper cf pid kernel_pid s in
  let '(m, s) := ms in
  let! r := (match get_mapped m ip with
             | None => Ok (false, unmapped_address ip, no_loc, s)
             | Some (a, id, off) =>
                 if negb (id <=? len (ps_rows s)) then Abort
                 else
                   match nth_error (ps_rows s) (N.to_nat id) with
                   | None => UB
                   | Some (e, inf) =>
                       let name := match e_body e with PMap pm => m_file pm | _ => [] end in
                       match aget list_eqb name (ps_dsos s) with
                       | None => Abort
                       | Some d =>
                           match pi_hits inf with
                           | None => UB
                           | Some h =>
                               Ok (true, a, (Some name, off),
                                   set_rows
                                     (upd (N.to_nat id)
                                        (fun '(e, i) => (e, set_hits (Some (w32 (h + 1))) i)) (ps_rows s))
                                     (set_dsos (aset name (add_thread (merge_u32 pid tid) d) (ps_dsos s)) s))
                           end
                       end
                   end
             end) in
  let '(mapped, a, l, s) := r in
  if pc_remap cf
  then if page_offset cf a =? page_offset cf ip then Ok (mapped, a, l, s) else Ok (false, 0, l, s)
  else Ok (mapped, ip, l, s).

(** kernel/perf_event.h: PERF_CONTEXT_MAX = (u64)-4095. *)
Definition context_max : N := 18446744073709547521.

(** perf_parser.cc:519-558, MapCallchain, without the resizing: new call chain,
    locations, whether all were mapped. [orig] is the address of the sample before,
    [ip] after mapping. *)
Fixpoint map_chain (cf : pconfig) (ip orig pid tid : N) (chain : list N) (s : pstate)
  : outcome (list N * list loc * bool * pstate) :=
  match chain with
  | [] => Ok ([], [], true, s)
  | a :: r =>
      if context_max <=? a then
        let! x := map_chain cf ip orig pid tid r s in
        let '(c, l, ok, s) := x in Ok (a :: c, l, ok, s)
      else if a =? orig then
        let! x := map_chain cf ip orig pid tid r s in
        let '(c, l, ok, s) := x in Ok (ip :: c, l, ok, s)
      else
        let! y := map_address cf a pid tid s in
        let '(ok1, a', l1, s) := y in
        let! x := map_chain cf ip orig pid tid r s in
        let '(c, l, ok, s) := x in Ok (a' :: c, l1 :: l, ok1 && ok, s)
  end.

(** perf_parser.cc:63-65, IsNullBranchStackEntry. *)
Definition null_branch (b : pbranch) : bool := (b_from b =? 0) && (b_to b =? 0).

(** perf_parser.cc:568-574: the number of entries before the first null one. *)
Fixpoint trimmed_size (l : list pbranch) : nat :=
  match l with
  | [] => O
  | b :: r => if null_branch b then O else S (trimmed_size r)
  end.

(** perf_parser.cc:588-615: mapping the first [n] entries. *)
Fixpoint map_branches (cf : pconfig) (pid tid : N) (n : nat) (l : list pbranch) (s : pstate)
  : outcome (list pbranch * list (list N * loc * loc) * bool * pstate) :=
  match n, l with
  | S k, b :: r =>
      let! x := map_address cf (b_from b) pid tid s in
      let '(ok1, from, lf, s) := x in
      let! x := map_address cf (b_to b) pid tid s in
      let '(ok2, to, lt, s) := x in
      let! x := map_branches cf pid tid k r s in
      let '(bs, ls, ok, s) := x in
      Ok (mkPBranch from to (b_flags b) :: bs, (b_flags b, lf, lt) :: ls, ok1 && ok2 && ok, s)
  | _, _ => Ok (l, [], true, s)
  end.

(** perf_parser.cc:560-618, MapBranchStack. *)
Definition map_branch_stack (cf : pconfig) (pid tid : N) (l : list pbranch) (s : pstate)
  : outcome (list pbranch * list (list N * loc * loc) * bool * pstate) :=
  let n := trimmed_size l in
  if negb (forallb null_branch (skipn n l)) then Ok (l, [], false, s)
  else map_branches cf pid tid n l s.

Definition or_0 (o : option N) : N := match o with Some v => v | None => 0 end.
Definition pair_eqb (a b : N * N) : bool := (fst a =? fst b) && (snd a =? snd b).

(** perf_parser.cc:470-517, MapSampleEvent for row [i]. The sample is read once;
    lookups change other rows only (the rows of mapping events, see
    C57_hits), so the row is written at the end. *)
Definition map_sample (cf : pconfig) (i : nat) (s : pstate) : outcome pstate :=
  match nth_error (ps_rows s) i with
  | None => UB
  | Some (e, _) =>
      match e_body e with
      | PSample sm =>
          let pid := s_pid sm in
          let tid := s_tid sm in
          let command := aget pair_eqb (pid, tid) (ps_comms s) in
          let orig := or_0 (s_ip sm) in
          let! x := map_address cf orig pid tid s in
          let '(ok, ip, code, s) := x in
          let! x := (if negb (or_0 (s_addr sm) =? 0) then
                       let s := count NData s in
                       let! y := map_address cf (or_0 (s_addr sm)) pid tid s in
                       let '(okd, a, l, s) := y in
                       Ok (Some a, l, if okd then count NDataMapped s else s)
                     else Ok (s_addr sm, no_loc, s)) in
          let '(addr, data, s) := x in
          let! x := map_chain cf ip orig pid tid (s_chain sm) s in
          let '(chain, chain_locs, okc, s) := x in
          let! x := map_branch_stack cf pid tid (s_branch sm) s in
          let '(branch, branch_locs, okb, s) := x in
          let s := if ok && okc && okb then count NSampleMapped s else s in
          Ok (set_rows
                (upd i (fun '(e, inf) =>
                          (set_body (PSample (mkPSample pid tid (Some ip) addr chain branch)) e,
                           mkInfo (match command with Some c => Some c | None => pi_command inf end)
                             code data chain_locs branch_locs (pi_hits inf)))
                   (ps_rows s)) s)
      | _ => Ok s
      end
  end.

(** std::string::find("jitted-") != npos *)
Fixpoint contains (p t : list N) : bool :=
  starts_with p t || match t with [] => false | _ :: r => contains p r end.

(** perf_parser.cc:720-733: the first mapping of the kernel. *)
Definition kernel_range (start len pgoff : N) : N * N :=
  if (start <? pgoff) && (pgoff <? w64 (start + len))
  then (pgoff, sub64 (w64 (len + start)) pgoff) else (start, len).

(** perf_parser.cc:685-761, MapMmapEvent for event [m] of row [id]: the event as it
    becomes; [None] is a failure. *)
Definition map_mmap (cf : pconfig) (m : pmap) (id : N) (is_kernel : bool) (s : pstate)
  : outcome (option pmap * pstate) :=
  let! ms := process_mapper cf (m_pid m) kernel_pid s in
  let '(mp, s) := ms in
  let '(start, length) := if is_kernel then kernel_range (m_start m) (m_len m) (m_pgoff m)
                          else (m_start m, m_len m) in
  let pgoff := if is_kernel then 0 else m_pgoff m in
  let jit := pc_jit cf && contains (str "jitted-") (m_file m) in
  let! r := map_with_id mp start length id pgoff jit in
  let '(ok, mp) := r in
  let s := set_mappers (aset (m_pid m) mp (ps_mappers s)) s in
  if negb ok then Ok (None, s)
  else if pc_remap cf then
    match get_mapped mp start with
    | None => Ok (None, s)
    | Some (a, _, _) =>
        if page_offset cf a =? page_offset cf start
        then Ok (Some (mkPMap (m_pid m) a length pgoff (m_file m) (m_maj m) (m_min m) (m_ino m)), s)
        else Ok (None, s)
    end
  else Ok (Some m, s).

(** perf_parser.cc:768-788, MapForkEvent. *)
Definition map_fork (cf : pconfig) (pid ppid tid ptid : N) (s : pstate) : outcome pstate :=
  let s := if pair_eqb (ppid, ptid) (pid, tid) then s
           else match aget pair_eqb (ppid, ptid) (ps_comms s) with
                | Some c => set_comms (aset (pid, tid) c (ps_comms s)) s
                | None => s
                end in
  if ppid =? pid then Ok s
  else let! x := process_mapper cf pid ppid s in Ok (snd x).

(** The members of an event of the wrong kind are those of the empty message. *)
Definition the_map (b : pbody) : pmap :=
  match b with PMap m => m | _ => mkPMap 0 0 0 0 [] 0 0 0 end.
Definition the_fork (b : pbody) : N * N * N * N :=
  match b with PFork pid ppid tid ptid => (pid, ppid, tid, ptid) | _ => (0, 0, 0, 0) end.
Definition the_comm (b : pbody) : N * N * list N :=
  match b with PComm pid tid c => (pid, tid, c) | _ => (0, 0, []) end.

(** Types of perf_parser.cc:273-285 (nothing to do) and of the kernel events in
    general; PERF_RECORD_USER_TYPE_START = 64. *)
Definition idle_types : list N := [2; 5; 6; 11; 12; 13; 14; 15; 16; 19].

(** perf_parser.cc:185-291, one round of the loop of ProcessEvents: [None] when it
    returns false, else whether the kernel mapping is still to come.
    PERF_RECORD_MISC_CPUMODE_MASK = 7, PERF_RECORD_MISC_KERNEL = 1. CHECKs that fail
    abort. *)
Definition process_event (cf : pconfig) (i : nat) (first_kernel : bool) (s : pstate)
  : outcome (option bool * pstate) :=
  match nth_error (ps_rows s) i with
  | None => UB
  | Some (e, _) =>
      let ty := e_type e in
      if 64 <=? ty then Ok (Some first_kernel, s)
      else if ty =? 9 then
        let! s := map_sample cf i (count NSample s) in Ok (Some first_kernel, s)
      else if (ty =? 1) || (ty =? 10) then
        let s := count NMmap s in
        let is_kernel := first_kernel && (N.land (e_misc e) 7 =? 1) in
        let! r := map_mmap cf (the_map (e_body e)) (N.of_nat i) is_kernel s in
        match r with
        | (None, _) => Abort
        | (Some m, s) =>
            let s := set_rows (upd i (fun '(e, inf) => (set_body (PMap m) e, set_hits (Some 0) inf))
                                 (ps_rows s)) s in
            let d := if ty =? 10 then mkDso (m_maj m) (m_min m) (m_ino m) false [] []
                     else mkDso 0 0 0 false [] [] in
            let s := set_dsos (fst (fst (aemplace list_eqb (m_file m) d (ps_dsos s)))) s in
            Ok (Some (first_kernel && negb is_kernel), s)
        end
      else if ty =? 7 then
        let '(pid, ppid, tid, ptid) := the_fork (e_body e) in
        let! s := map_fork cf pid ppid tid ptid (count NFork s) in Ok (Some first_kernel, s)
      else if ty =? 4 then Ok (Some first_kernel, count NExit s)
      else if ty =? 3 then
        let '(pid, tid, comm) := the_comm (e_body e) in
        let! x := process_mapper cf pid kernel_pid (count NComm s) in
        let s := snd x in
        Ok (Some first_kernel, set_comms (aset (pid, tid) comm (ps_comms s)) s)
      else if ty =? 17 then Ok (Some first_kernel, count NKsymbol s)
      else if existsb (N.eqb ty) idle_types then Ok (Some first_kernel, s)
      else Ok (None, s)
  end.

(** The loop from row [i] on; the flag tells whether it came to the end. *)
Fixpoint process_rows (cf : pconfig) (n i : nat) (first_kernel : bool) (s : pstate)
  : outcome (bool * pstate) :=
  match n with
  | O => Ok (true, s)
  | S k =>
      let! r := process_event cf i first_kernel s in
      match r with
      | (None, s) => Ok (false, s)
      | (Some fk, s) => process_rows cf k (S i) fk s
      end
  end.

(** perf_parser.cc:97-111: a row for every event but finished rounds (68). *)
Definition is_round (e : pevent) : bool := e_type e =? 68.
Definition rows_of (evs : list pevent) : list (pevent * pinfo) :=
  map (fun e => (e, new_info)) (filter (fun e => negb (is_round e)) evs).

(** perf_parser.cc:161-291 on a parser used for the first time: stats_ cleared, the
    command of process 0 known. *)
Definition start_state (evs : list pevent) : pstate :=
  mkPState (rows_of evs) [] [((0, 0), str "swapper")] [] (fun _ => 0).
Definition process_events (cf : pconfig) (evs : list pevent) : outcome (bool * pstate) :=
  let s := start_state evs in process_rows cf (List.length (ps_rows s)) 0 true s.

(** perf_parser.cc:117-130: rows that stay when unused events are discarded. Deciding
    on a counter that was never set is undefined; copying one is not counted as a
    use. *)
Fixpoint keep_used (rows : list (pevent * pinfo)) : outcome (list (pevent * pinfo)) :=
  match rows with
  | [] => Ok []
  | (e, i) :: r =>
      match e_body e with
      | PMap _ => match pi_hits i with
                  | None => UB
                  | Some 0 => keep_used r
                  | Some _ => let! r := keep_used r in Ok ((e, i) :: r)
                  end
      | _ => let! r := keep_used r in Ok ((e, i) :: r)
      end
  end.

(** The events of the reader while the rows point into them: finished rounds at
    their old places. *)
Fixpoint put_back (evs : list pevent) (rows : list (pevent * pinfo)) : list pevent :=
  match evs with
  | [] => []
  | e :: r =>
      if is_round e then e :: put_back r rows
      else match rows with
           | [] => []
           | (e', _) :: rows => e' :: put_back r rows
           end
  end.

(** perf_parser.cc:76-136, ParseRawEvents without the sorting, the deduction of huge
    pages and the combining of mappings (C36, C16-C18), which come before; [evs] are
    the events after them. The result of ProcessEvents, which is false when an
    unknown event stopped it, when there is no sample, or when too few samples were
    mapped (perf_parser.cc:292-331), is ignored: ParseRawEvents returns true. The
    result here: the events of the reader, the parsed events, the state. *)
Definition parse_raw_events (cf : pconfig) (evs : list pevent)
  : outcome (list pevent * list (pevent * pinfo) * pstate) :=
  let! r := process_events cf evs in
  let '(_, s) := r in
  if pc_discard cf then
    let! rows := keep_used (ps_rows s) in Ok (map fst rows, rows, s)
  else Ok (put_back evs (ps_rows s), ps_rows s, s).
