(** Model of src/perf_data_handler.{h,cc} and src/quipper/address_context.cc: the
    Normalizer that turns the event stream of a PerfDataProto into calls of a
    PerfDataHandler. Log messages are left out. *)
From Coq Require Import String.
From Verif Require Import Base BytesModel TextModel Assoc IntervalMapModel SpeModel PerfProto.
Local Open Scope N_scope.
Local Open Scope list_scope.

(** ** Strings *)

(** perf_data_handler.cc:48-52, HasPrefixString for a NUL-free literal. *)
Definition has_prefix (s p : list N) : bool := starts_with p s.

(** perf_data_handler.cc:54-59, HasSuffixString. *)
Definition has_suffix (s p : list N) : bool := starts_with (rev p) (rev s).

(** std::string::find(needle) as the distance from the start. *)
Fixpoint find_sub (needle hay : list N) : option nat :=
  if starts_with needle hay then Some O
  else match hay with
       | [] => None
       | _ :: r => option_map S (find_sub needle r)
       end.

(** std::string::find(needle, pos). *)
Definition find_from (needle hay : list N) (pos : nat) : option nat :=
  if (List.length hay <? pos)%nat then None
  else option_map (fun d => (pos + d)%nat) (find_sub needle (skipn pos hay)).

(** perf_data_handler.cc:1008-1015, FindAfter. *)
Definition find_after (hay needle : list N) (cursor : nat) : option nat :=
  option_map (fun p => (p + List.length needle)%nat) (find_from needle hay cursor).

(** perf_data_handler.cc:1017-1026, IsDeletedSharedObject. [path.at(cursor)]
    throws outside the string, which nothing catches. *)
Fixpoint is_deleted_go (fuel : nat) (path : list N) (cursor : nat) : outcome bool :=
  match fuel with
  | O => Hang
  | S fuel =>
      match find_after path (str ".so") cursor with
      | None => Ok false
      | Some c =>
          match nth_error path c with
          | None => Abort
          | Some ch =>
              if (ch =? 46) || (ch =? 95) || (ch =? 32)
              then Ok (match find_from (str "(deleted)") path c with Some _ => true | None => false end)
              else is_deleted_go fuel path c
          end
      end
  end.

Definition is_deleted_so (path : list N) : outcome bool :=
  is_deleted_go (S (List.length path)) path 1.

(** perf_data_handler.cc:1028-1030, IsVersionedSharedObject. *)
Definition is_versioned_so (path : list N) : bool :=
  match find_from (str ".so.") path 1 with Some _ => true | None => false end.

(** [stream << std::hex << n]. *)
Fixpoint hex_go (fuel : nat) (n : N) : list N :=
  match fuel with
  | O => []
  | S fuel => if n <? 16 then [hex_digit n] else hex_go fuel (n / 16) ++ [hex_digit (n mod 16)]
  end.
Definition print_hex (n : N) : list N := hex_go (S (N.size_nat n)) n.

(** perf_data_handler.cc:1040-1048, NameOrMd5Prefix. *)
Definition name_or_md5 (name : list N) (md5 : N) : list N :=
  match name with [] => print_hex md5 | _ => name end.

(** perf_data_handler.cc:711-715, the lambda is_same. [HasPrefixString] sees [b]
    up to its first NUL; a failing find returns npos = 2^64-1, and substr throws
    when the start is outside the string. *)
Definition is_same_half (a b : list N) : outcome bool :=
  if starts_with (c_str b) a then
    let from := match find_sub b a with
                | Some p => N.of_nat p + len b
                | None => w64 (max64 + len b)
                end in
    if len a <? from then Abort
    else Ok (forallb (fun c => c =? 48) (skipn (N.to_nat from) a))
  else Ok false.

(** perf_data_handler.cc:707-717, IsSameBuildId. *)
Definition is_same_build_id (a b : list N) : outcome bool :=
  let! x := is_same_half a b in
  if x then Ok true else is_same_half b a.

(** perf_data_handler.cc:752-757, IsVirtualMapping. *)
Definition is_virtual (f : list N) : bool :=
  has_prefix f (str "//") || (has_prefix f (str "[") && has_suffix f (str "]"))
  || has_prefix f (str "/memfd:") || has_prefix f (str "[anon:").

(** perf_data_handler.cc:42, kKernelPrefix, and :45, kKernelPid. *)
Definition kernel_prefix : list N := str "[kernel.kallsyms]".
Definition kernel_pid : N := 4294967295.

(** dso.cc:163-176, IsKernelNonModuleName. *)
Definition is_kernel_non_module (f : list N) : bool :=
  has_prefix f kernel_prefix || has_prefix f (str "[guest.kernel.kallsyms")
  || has_prefix f (str "[vdso]") || has_prefix f (str "[vsyscall]").

(** ** Address contexts *)

(** address_context.h, AddressContext. *)
Inductive actx := CUnknown | CHostKernel | CHostUser | CGuestKernel | CGuestUser | CHypervisor.

Definition actx_eqb (a b : actx) : bool :=
  match a, b with
  | CUnknown, CUnknown | CHostKernel, CHostKernel | CHostUser, CHostUser
  | CGuestKernel, CGuestKernel | CGuestUser, CGuestUser | CHypervisor, CHypervisor => true
  | _, _ => false
  end.

(** address_context.cc:8-24, ContextFromHeader. *)
Definition context_from_header (misc : option N) : actx :=
  match misc with
  | None => CUnknown
  | Some m =>
      match N.land m 7 with
      | 1 => CHostKernel | 2 => CHostUser | 3 => CHypervisor
      | 4 => CGuestKernel | 5 => CGuestUser | _ => CUnknown
      end
  end.

(** kernel/perf_event.h, enum perf_callchain_context (as uint64). *)
Definition PERF_CONTEXT_HV : N := 0xFFFFFFFFFFFFFFE0.
Definition PERF_CONTEXT_KERNEL : N := 0xFFFFFFFFFFFFFF80.
Definition PERF_CONTEXT_USER : N := 0xFFFFFFFFFFFFFE00.
Definition PERF_CONTEXT_GUEST_KERNEL : N := 0xFFFFFFFFFFFFF780.
Definition PERF_CONTEXT_GUEST_USER : N := 0xFFFFFFFFFFFFF600.
Definition PERF_CONTEXT_MAX : N := 0xFFFFFFFFFFFFF001.

(** address_context.cc:26-46, ContextFromCallchain. *)
Definition context_from_callchain (ip : N) : actx :=
  if ip =? PERF_CONTEXT_HV then CHypervisor
  else if ip =? PERF_CONTEXT_KERNEL then CHostKernel
  else if ip =? PERF_CONTEXT_USER then CHostUser
  else if ip =? PERF_CONTEXT_GUEST_KERNEL then CGuestKernel
  else if ip =? PERF_CONTEXT_GUEST_USER then CGuestUser
  else CUnknown.

(** ** Mappings *)

(** perf_data_handler.h:21-50, BuildIdSource. *)
Inductive bsource :=
| SrcUnknown | SrcMmapSame | SrcMmapDiff | SrcFilename | SrcInjected | SrcAmbiguous
| SrcKernelPrefix | SrcMissing | SrcNoMmap.

(** perf_data_handler.h:56-63, BuildId. *)
Definition bid := (list N * bsource)%type.

(** perf_data_handler.h:77-99, Mapping. *)
Record hmapping := {
  hm_file : list N; hm_build : bid; hm_start : N; hm_limit : N; hm_off : N; hm_md5 : N }.

(** A pointer to a mapping owned by the Normalizer (owned_mappings_, which only
    grows): its position in that vector. *)
Definition ptr := nat.

(** What a handler sees of a mapping during a callback: the pointer and the
    mapping it points to at that moment. *)
Definition mref := (ptr * hmapping)%type.

(** ** Handler callbacks *)

(** perf_data_handler.h:108-131, BranchStackPair. *)
Record bpair := {
  bp_from : N; bp_from_map : option mref; bp_to : N; bp_to_map : option mref;
  bp_mispred : bool; bp_pred : bool; bp_intx : bool; bp_abort : bool;
  bp_cycles : N; bp_spec : N }.

(** perf_data_handler.h:133-173, SampleContext; [cx_misc] is header.misc. *)
Record sctx := {
  cx_misc : option N; cx_sample : sample_ev;
  cx_main : option mref; cx_map : option mref; cx_addr : option mref;
  cx_chain : list (N * option mref); cx_branch : list bpair;
  cx_attr : Z; cx_cgroup : option (list N); cx_lost : bool; cx_spe : option spe_rec }.

(** perf_data_handler.h:175-188 and :214-219, the three callbacks. *)
Inductive hcall :=
| HSample (c : sctx)
| HComm (c : comm_ev) (is_exec : bool)
| HMMap (pid : N) (m : mref).

(** ** State *)

(** perf_data_handler.cc:97-182, what the constructor derives from the proto. *)
Record nenv := {
  ne_build : list (list N * bid);      (* filename_to_build_id_ *)
  ne_kernel : list N;                  (* maybe_kernel_build_id_ *)
  ne_lost_samples : bool;              (* use_lost_sample_ *)
  ne_ids : list (N * N);               (* id_to_event_index_ *)
  ne_attrs : N;                        (* file_attrs().size() *)
  ne_spe : bool;                       (* has_spe_auxtrace_ *)
  ne_t2p : list (N * N);               (* tid_to_pid_ *)
  ne_comm_exec : bool }.               (* has_comm_exec_support *)

(** perf_data_handler.cc:331-348, stat_ (the counters a property mentions). *)
Record nstat := { nt_samples : Z; nt_missing_main : Z; nt_no_event : Z; nt_missing_pid : Z }.

(** perf_data_handler.cc:270-330. *)
Record nstate := {
  ns_heap : list hmapping;                       (* owned_mappings_ *)
  ns_fake : list ((list N * list N * N) * ptr);  (* fake_mappings_ *)
  ns_comm : list (N * comm_ev);                  (* pid_to_comm_event_ *)
  ns_mmaps : list (N * imap ptr);                (* pid_to_mmaps_ *)
  ns_exec : list (N * ptr);                      (* pid_to_executable_mmap_ *)
  ns_had : list N;                               (* pid_had_any_mmap_ *)
  ns_cgroup : list (N * list N);                 (* cgroup_map_ *)
  ns_stat : nstat }.

Definition nstate0 : nstate :=
  {| ns_heap := []; ns_fake := []; ns_comm := []; ns_mmaps := []; ns_exec := [];
     ns_had := []; ns_cgroup := [];
     ns_stat := {| nt_samples := 0; nt_missing_main := 0; nt_no_event := 0; nt_missing_pid := 0 |} |}.

(** Field updates. *)
Definition set_heap x s := {| ns_heap := x; ns_fake := ns_fake s; ns_comm := ns_comm s; ns_mmaps := ns_mmaps s; ns_exec := ns_exec s; ns_had := ns_had s; ns_cgroup := ns_cgroup s; ns_stat := ns_stat s |}.
Definition set_fake x s := {| ns_heap := ns_heap s; ns_fake := x; ns_comm := ns_comm s; ns_mmaps := ns_mmaps s; ns_exec := ns_exec s; ns_had := ns_had s; ns_cgroup := ns_cgroup s; ns_stat := ns_stat s |}.
Definition set_comm x s := {| ns_heap := ns_heap s; ns_fake := ns_fake s; ns_comm := x; ns_mmaps := ns_mmaps s; ns_exec := ns_exec s; ns_had := ns_had s; ns_cgroup := ns_cgroup s; ns_stat := ns_stat s |}.
Definition set_mmaps x s := {| ns_heap := ns_heap s; ns_fake := ns_fake s; ns_comm := ns_comm s; ns_mmaps := x; ns_exec := ns_exec s; ns_had := ns_had s; ns_cgroup := ns_cgroup s; ns_stat := ns_stat s |}.
Definition set_exec x s := {| ns_heap := ns_heap s; ns_fake := ns_fake s; ns_comm := ns_comm s; ns_mmaps := ns_mmaps s; ns_exec := x; ns_had := ns_had s; ns_cgroup := ns_cgroup s; ns_stat := ns_stat s |}.
Definition set_had x s := {| ns_heap := ns_heap s; ns_fake := ns_fake s; ns_comm := ns_comm s; ns_mmaps := ns_mmaps s; ns_exec := ns_exec s; ns_had := x; ns_cgroup := ns_cgroup s; ns_stat := ns_stat s |}.
Definition set_cgroup x s := {| ns_heap := ns_heap s; ns_fake := ns_fake s; ns_comm := ns_comm s; ns_mmaps := ns_mmaps s; ns_exec := ns_exec s; ns_had := ns_had s; ns_cgroup := x; ns_stat := ns_stat s |}.
Definition set_stat x s := {| ns_heap := ns_heap s; ns_fake := ns_fake s; ns_comm := ns_comm s; ns_mmaps := ns_mmaps s; ns_exec := ns_exec s; ns_had := ns_had s; ns_cgroup := ns_cgroup s; ns_stat := x |}.

Definition add_stat (samples main noev nopid : Z) (s : nstate) : nstate :=
  set_stat {| nt_samples := nt_samples (ns_stat s) + samples;
              nt_missing_main := nt_missing_main (ns_stat s) + main;
              nt_no_event := nt_no_event (ns_stat s) + noev;
              nt_missing_pid := nt_missing_pid (ns_stat s) + nopid |} s.

(** Dereferencing a pointer. *)
Definition deref (s : nstate) (p : ptr) : outcome hmapping :=
  match nth_error (ns_heap s) p with Some m => Ok m | None => UB end.

Definition oref (s : nstate) (p : option ptr) : outcome (option mref) :=
  match p with
  | None => Ok None
  | Some p => let! m := deref s p in Ok (Some (p, m))
  end.

(** ** Constructor *)

(** perf_data_handler.cc:99-110: the build id in lower case hexadecimal. *)
Definition hex_string (bytes : list N) : list N := raw_to_hex bytes.

Definition is_empty {A} (l : list A) : bool := match l with [] => true | _ => false end.

(** perf_data_handler.cc:99-148, one build id. *)
Definition add_build_id (acc : list (list N * bid) * list N) (b : build_id_ev)
  : list (list N * bid) * list N :=
  let '(m, kernel) := acc in
  let hex := hex_string (bi_hash b) in
  let filename := name_or_md5 (bi_file b) (bi_md5 b) in
  let src := if bi_injected b then SrcInjected else SrcFilename in
  let src := match aget list_eqb filename m with
             | Some (v, _) => if list_eqb v hex then src else SrcAmbiguous
             | None => src
             end in
  let m := aset filename (hex, src) m in
  let kernel :=
    if N.land (bi_misc b) 7 =? 1 then
      if is_kernel_non_module filename || negb (has_suffix filename (str ".ko")) then
        if negb (is_empty kernel) && negb (list_eqb kernel hex) then kernel else hex
      else kernel
    else kernel in
  (m, kernel).

(** The decimal digits at the front of a string and the rest. *)
Fixpoint digits (s : list N) : list N * list N :=
  match s with
  | c :: r => if (48 <=? c) && (c <=? 57) then let '(d, t) := digits r in (c :: d, t) else ([], s)
  | [] => ([], [])
  end.
Definition dec_val (ds : list N) : N := fold_left (fun v c => 10 * v + (c - 48)) ds 0.

(** perf_data_handler.cc:150-171: regex_match with ([0-9]+)\.([0-9]+) followed by
    characters other than line terminators, on the C string; std::stoi throws
    above 2^31-1, which nothing catches. *)
Definition perf_version_61 (version : list N) : outcome bool :=
  let '(d1, r1) := digits (c_str version) in
  match r1 with
  | 46 :: r2 =>
      let '(d2, r3) := digits r2 in
      if is_empty d1 || is_empty d2 || existsb (fun c => (c =? 10) || (c =? 13)) r3 then Ok false
      else if (2147483647 <? dec_val d1) || (2147483647 <? dec_val d2) then Abort
      else Ok ((6 <? dec_val d1) || ((dec_val d1 =? 6) && (1 <=? dec_val d2)))
  | _ => Ok false
  end.

(** perf_data_handler.cc:173-179: later ids overwrite earlier ones. *)
Fixpoint index_ids (i : N) (attrs : list file_attr) (m : list (N * N)) : list (N * N) :=
  match attrs with
  | [] => m
  | a :: r => index_ids (i + 1) r (fold_left (fun m id => aset id i m) (fa_ids a) m)
  end.

(** perf_data_handler.cc:61-71, HasArmSPEAuxtrace (PERF_AUXTRACE_ARM_SPE = 4). *)
Definition has_spe (evs : list perf_event) : bool :=
  existsb (fun e => match ev_what e with EvAuxInfo t => t =? 4 | _ => false end) evs.

(** perf_data_handler.cc:73-88, TidToPidMapping. *)
Definition t2p_step (m : list (N * N)) (e : perf_event) : list (N * N) :=
  match ev_what e with
  | EvFork f => aset (fk_tid f) (fk_pid f) m
  | EvComm c => aset (cm_tid c) (cm_pid c) m
  | _ => m
  end.

(** perf_data_handler.cc:97-182 and :384-390. *)
Definition normalizer_env (p : perf_proto) : outcome nenv :=
  let '(build, kernel) := fold_left add_build_id (pp_build_ids p) ([], []) in
  let! use_lost := perf_version_61 (match pp_version p with Some v => v | None => [] end) in
  let spe := has_spe (pp_events p) in
  Ok {| ne_build := build; ne_kernel := kernel; ne_lost_samples := use_lost;
        ne_ids := index_ids 0 (pp_attrs p) []; ne_attrs := len (pp_attrs p);
        ne_spe := spe;
        ne_t2p := if spe then fold_left t2p_step (pp_events p) [] else [];
        ne_comm_exec := existsb fa_comm_exec (pp_attrs p) |}.

(** ** Lookups *)

(** perf_data_handler.cc:875-887, TryLookupInPid. *)
Definition try_lookup (s : nstate) (pid ip : N) : option ptr :=
  match aget N.eqb pid (ns_mmaps s) with
  | None => None
  | Some m => im_lookup m ip
  end.

(** perf_data_handler.cc:893-923, GetMappingFromPidAndIP. *)
Definition get_mapping (s : nstate) (pid ip : N) (c : actx) : outcome (option ptr) :=
  if N.shiftr ip 60 =? 8 then Ok None
  else match c with
  | CGuestKernel | CGuestUser | CHypervisor => Ok None
  | _ =>
      let m := match try_lookup s pid ip with
               | Some p => Some p
               | None => if actx_eqb c CHostUser then None else try_lookup s kernel_pid ip
               end in
      match m with
      | None => Ok None
      | Some p =>
          let! h := deref s p in
          if negb (hm_start h <=? ip) then Abort
          else if negb (ip <? hm_limit h) then Abort
          else Ok (Some p)
      end
  end.

(** The same with what the pointer points to. *)
Definition get_mref (s : nstate) (pid ip : N) (c : actx) : outcome (option mref) :=
  let! p := get_mapping s pid ip c in oref s p.

(** perf_data_handler.cc:936-953, GetEventIndexForSample. *)
Definition event_index (e : nenv) (s : sample_ev) : Z :=
  if ne_attrs e =? 1 then 0%Z
  else match s_id s with
  | None => (-1)%Z
  | Some id => match aget N.eqb id (ne_ids e) with
               | None => (-1)%Z
               | Some i => Z.of_N i
               end
  end.

Definition fake_key_eqb (a b : list N * list N * N) : bool :=
  let '(c1, b1, m1) := a in let '(c2, b2, m2) := b in
  list_eqb c1 c2 && list_eqb b1 b2 && (m1 =? m2).

(** perf_data_handler.cc:605-617, GetOrAddFakeMapping. *)
Definition fake_mapping (s : nstate) (comm : list N) (b : bid) (md5 start : N) : nstate * ptr :=
  let key := (comm, fst b, md5) in
  match aget fake_key_eqb key (ns_fake s) with
  | Some p => (s, p)
  | None =>
      let p := List.length (ns_heap s) in
      let m := {| hm_file := comm; hm_build := b; hm_start := start;
                  hm_limit := w64 (start + 1); hm_off := 0; hm_md5 := md5 |} in
      (set_fake (aset key p (ns_fake s)) (set_heap (ns_heap s ++ [m]) s), p)
  end.

(** ** Events *)

(** perf_data_handler.cc:719-750, GetBuildId. *)
Definition get_build_id (e : nenv) (m : mmap_ev) : outcome bid :=
  let filename := name_or_md5 (mm_file m) (mm_md5 m) in
  let from_file := match aget list_eqb filename (ne_build e) with
                   | Some b => b
                   | None => ([], SrcMissing)
                   end in
  let from_mmap := match mm_build m with Some b => b | None => [] end in
  if negb (is_empty from_mmap) then
    let! same := is_same_build_id (fst from_file) from_mmap in
    Ok (from_mmap, if same then SrcMmapSame else SrcMmapDiff)
  else if negb (is_empty (fst from_file)) then Ok from_file
  else if has_prefix filename kernel_prefix then Ok (ne_kernel e, SrcKernelPrefix)
  else Ok ([], SrcMissing).

(** Writing a mapping's file name through a pointer. *)
Fixpoint rename (h : list hmapping) (p : ptr) (f : list N) : list hmapping :=
  match h, p with
  | [], _ => []
  | m :: r, O => {| hm_file := f; hm_build := hm_build m; hm_start := hm_start m;
                    hm_limit := hm_limit m; hm_off := hm_off m; hm_md5 := hm_md5 m |} :: r
  | m :: r, S p => m :: rename r p f
  end.

(** perf_data_handler.cc:836-842: the start of a mapping, with the correction for
    kernel mappings synthesized by old versions of perf. *)
Definition fixed_start (start limit off : N) : N :=
  if (start <=? two63) && (two63 <? off) && (two63 <? limit) then off - off mod 4096 else start.

(** perf_data_handler.cc:778-873 (from :849): which mapping is the main
    executable of the process. *)
Definition guess_main (s : nstate) (m : mmap_ev) (start : N) (p : ptr) : outcome nstate :=
  let pid := mm_pid m in let f := mm_file m in
  if (start =? 0x8048000) || (start =? 0x400000) then Ok (set_exec (aset pid p (ns_exec s)) s)
  else
    let old := aget N.eqb pid (ns_exec s) in
    let! s :=
      match old with
      | None => Ok s
      | Some o =>
          let! om := deref s o in
          if (hm_start om =? 0x400000) && is_empty (hm_file om)
             && (sub64 start (mm_pgoff m) =? 0x400000)
          then Ok (set_heap (rename (ns_heap s) o f) s) else Ok s
      end in
    let! excluded :=
      match old with
      | Some _ => Ok true
      | None =>
          if has_suffix f (str ".ko") || has_suffix f (str ".so") then Ok true
          else let! d := is_deleted_so f in
               Ok (d || is_versioned_so f || is_virtual f || has_suffix f (str "/classes.jsa")
                   || has_prefix f kernel_prefix)
      end in
    if negb excluded then Ok (set_exec (aset pid p (ns_exec s)) s)
    else if (pid =? kernel_pid) && has_prefix f kernel_prefix
    then Ok (set_exec (aset pid p (ns_exec s)) s)
    else Ok s.

(** perf_data_handler.cc:778-873, UpdateMapsWithMMapEvent. *)
Definition on_mmap (e : nenv) (s : nstate) (m : mmap_ev) : outcome (nstate * list hcall) :=
  if mm_len m =? 0 then Ok (s, [])
  else
    let im := match aget N.eqb (mm_pid m) (ns_mmaps s) with Some i => i | None => [] end in
    let! b := get_build_id e m in
    let limit := w64 (mm_start m + mm_len m) in
    let start := fixed_start (mm_start m) limit (mm_pgoff m) in
    let mp := {| hm_file := mm_file m; hm_build := b; hm_start := start; hm_limit := limit;
                 hm_off := mm_pgoff m; hm_md5 := mm_md5 m |} in
    let p := List.length (ns_heap s) in
    let! im := im_set im start limit p in
    let s := set_mmaps (aset (mm_pid m) im (ns_mmaps s)) (set_heap (ns_heap s ++ [mp]) s) in
    let! s := guess_main s m start p in
    Ok (s, [HMMap (mm_pid m) (p, mp)]).

(** perf_data_handler.cc:357-376, UpdateMapsWithForkEvent. *)
Definition inherit {V} (f : fork_ev) (m : list (N * V)) : list (N * V) :=
  match aget N.eqb (fk_ppid f) m with
  | Some v => aset (fk_pid f) v m
  | None => m
  end.
Definition on_fork (s : nstate) (f : fork_ev) : nstate :=
  if fk_pid f =? fk_ppid f then s
  else set_exec (inherit f (ns_exec s))
         (set_comm (inherit f (ns_comm s)) (set_mmaps (inherit f (ns_mmaps s)) s)).

(** perf_data_handler.cc:395-449, a comm event. *)
Definition on_comm (e : nenv) (s : nstate) (misc : option N) (c : comm_ev) : nstate * list hcall :=
  if cm_pid c =? cm_tid c then
    let exec := negb (ne_comm_exec e) || N.testbit (dflt misc) 13
                || negb (mem_by N.eqb (cm_pid c) (ns_had s)) in
    let s := if exec then set_exec (aerase N.eqb (cm_pid c) (ns_exec s)) s else s in
    (set_comm (aset (cm_pid c) c (ns_comm s)) s, [HComm c exec])
  else (s, [HComm c false]).

(** perf_data_handler.cc:535-554, the callchain loop. *)
Fixpoint chain_loop (s : nstate) (pid : N) (c : actx) (ips : list N)
  : outcome (list (N * option mref)) :=
  match ips with
  | [] => Ok []
  | ip :: r =>
      let cur := context_from_callchain ip in
      if negb (actx_eqb cur CUnknown) then
        let! l := chain_loop s pid cur r in Ok ((ip, None) :: l)
      else
        let! m := get_mref s pid ip c in
        let! l := chain_loop s pid c r in Ok ((ip, m) :: l)
  end.

(** perf_data_handler.cc:557-580, the branch stack loop. *)
Fixpoint branch_loop (s : nstate) (pid : N) (bs : list branch) : outcome (list bpair) :=
  match bs with
  | [] => Ok []
  | b :: r =>
      let! f := get_mref s pid (br_from b) CUnknown in
      let! t := get_mref s pid (br_to b) CUnknown in
      let! l := branch_loop s pid r in
      Ok ({| bp_from := br_from b; bp_from_map := f; bp_to := br_to b; bp_to_map := t;
             bp_mispred := br_mispred b; bp_pred := br_pred b; bp_intx := br_intx b;
             bp_abort := br_abort b; bp_cycles := br_cycles b; bp_spec := br_spec b |} :: l)
  end.

(** perf_data_handler.cc:508-530, the main mapping of the sample's process. *)
Definition main_mapping (s : nstate) (pid : N) (c : actx) : outcome (nstate * option ptr) :=
  match aget N.eqb pid (ns_exec s) with
  | Some p => Ok (s, Some p)
  | None =>
      if actx_eqb c CHostKernel then
        let kernel := aget N.eqb kernel_pid (ns_exec s) in
        match aget N.eqb pid (ns_comm s) with
        | Some cm =>
            let! b := match kernel with
                      | Some k => let! km := deref s k in Ok (fst (hm_build km), SrcKernelPrefix)
                      | None => Ok ([], SrcMissing)
                      end in
            let '(s, p) := fake_mapping s (cm_comm cm) b (cm_md5 cm) 0 in Ok (s, Some p)
        | None => if pid =? 0 then Ok (s, kernel) else Ok (s, None)
        end
      else Ok (s, None)
  end.

(** perf_data_handler.cc:471-603, HandleSample; [spe] is the SPE record the sample
    was made from. *)
Definition on_sample (e : nenv) (s : nstate) (misc : option N) (sm : sample_ev)
    (spe : option spe_rec) : outcome (nstate * list hcall) :=
  let index := match spe with Some _ => 0%Z | None => event_index e sm end in
  if (index =? -1)%Z then Ok (add_stat 0 0 1 0 s, [])
  else
    let pid := dflt (s_pid sm) in
    let hc := context_from_header misc in
    let! map := get_mref s pid (s_ip sm) hc in
    let! addr := match s_addr sm with
                 | None => Ok None
                 | Some a => get_mref s pid a hc
                 end in
    let! (s, main) := main_mapping s pid hc in
    let! main := oref s main in
    let! chain := chain_loop s pid CUnknown (s_callchain sm) in
    let! bs := branch_loop s pid (s_branch sm) in
    let! bs :=
      match spe with
      | Some r =>
          if negb (ip_addr (sr_tgt_br r) =? 0) then
            let! t := get_mref s pid (ip_addr (sr_tgt_br r)) hc in
            Ok (bs ++ [{| bp_from := s_ip sm; bp_from_map := map;
                          bp_to := ip_addr (sr_tgt_br r); bp_to_map := t;
                          bp_mispred := ev_br_mis_pred (sr_event r); bp_pred := false;
                          bp_intx := false; bp_abort := false; bp_cycles := 0; bp_spec := 0 |}])
          else Ok bs
      | None => Ok bs
      end in
    let cgroup := match s_cgroup sm with
                  | None => None
                  | Some id => aget N.eqb id (ns_cgroup s)
                  end in
    Ok (add_stat 1 (match main with None => 1 | Some _ => 0 end) 0 0 s,
        [HSample {| cx_misc := misc; cx_sample := sm; cx_main := main; cx_map := map;
                    cx_addr := addr; cx_chain := chain; cx_branch := bs; cx_attr := index;
                    cx_cgroup := cgroup; cx_lost := false; cx_spe := spe |}]).

(** perf_data_handler.cc:378-379; the MD5 prefix of "[lost]" as a literal. *)
Definition lost_name : list N := str "[lost]".
Definition lost_md5 : N := 0xd20b1b4448a6f16b.
Definition lost_ip : N := 9 * 2 ^ 60.

(** perf_data_handler.cc:654-682, once the counts are known. The statistic of
    samples accepted by the handler is left out. *)
Definition deliver_lost (e : nenv) (s : nstate) (l : lost_ev) : outcome (nstate * list hcall) :=
  let s := add_stat (Z.of_N (lo_lost l)) (Z.of_N (lo_lost l)) 0 0 s in
  let sm := {| s_ip := lost_ip; s_pid := Some (lo_pid l); s_tid := Some (lo_tid l);
               s_time := None; s_addr := None; s_id := Some (lo_id l); s_period := 0;
               s_cpu := None; s_callchain := []; s_branch := []; s_weight := None;
               s_wstruct := None; s_data_src := None; s_cgroup := None;
               s_data_page := None; s_code_page := None |} in
  let index := event_index e sm in
  if (index =? -1)%Z then Ok (add_stat 0 0 1 0 s, [])
  else
    let '(s, p) := fake_mapping s lost_name ([], SrcMissing) lost_md5 lost_ip in
    let! m := deref s p in
    Ok (s, repeat (HSample {| cx_misc := None; cx_sample := sm; cx_main := None;
                              cx_map := Some (p, m); cx_addr := None; cx_chain := [];
                              cx_branch := []; cx_attr := index; cx_cgroup := None;
                              cx_lost := true; cx_spe := None |})
                  (N.to_nat (lo_lost l))).

(** perf_data_handler.cc:955-990, HandleSpeAuxtrace: one record. *)
Definition on_spe_record (e : nenv) (s : nstate) (r : spe_rec) : outcome (nstate * list hcall) :=
  let tid := w32 (sc_id (sr_ctx r)) in
  let '(pid, miss) :=
    if tid =? 0 then (0, 0%Z)
    else match aget N.eqb tid (ne_t2p e) with Some p => (p, 0%Z) | None => (0, 1%Z) end in
  let sm := {| s_ip := ip_addr (sr_ip r); s_pid := Some pid; s_tid := Some tid;
               s_time := None; s_addr := None; s_id := None; s_period := 0;
               s_cpu := None; s_callchain := []; s_branch := []; s_weight := None;
               s_wstruct := None; s_data_src := None; s_cgroup := None;
               s_data_page := None; s_code_page := None |} in
  on_sample e (add_stat 0 0 0 miss s) None sm (Some r).

Fixpoint on_spe_records (e : nenv) (s : nstate) (rs : list spe_rec) : outcome (nstate * list hcall) :=
  match rs with
  | [] => Ok (s, [])
  | r :: rs =>
      let! (s, c1) := on_spe_record e s r in
      let! (s, c2) := on_spe_records e s rs in
      Ok (s, c1 ++ c2)
  end.

(** perf_data_handler.cc:759-776, ConvertMmapFromKsymbol. *)
Definition ksym_mmap (k : ksym_ev) : mmap_ev :=
  {| mm_pid := kernel_pid; mm_start := ks_addr k; mm_len := ks_len k; mm_pgoff := 0;
     mm_file := ks_name k; mm_md5 := 0; mm_build := None |}.

(** perf_data_handler.cc:392-466, one event of Normalize. *)
Definition on_event (e : nenv) (s : nstate) (ev : perf_event) : outcome (nstate * list hcall) :=
  match ev_what ev with
  | EvMMap m =>
      let! (s, cs) := on_mmap e s m in
      Ok (set_had (mm_pid m :: ns_had s) s, cs)
  | EvComm c => Ok (on_comm e s (ev_misc ev) c)
  | EvFork f => Ok (on_fork s f, [])
  | EvCgroup id path => Ok (set_cgroup (fst (fst (aemplace N.eqb id path (ns_cgroup s)))) s, [])
  | EvLostSamples l => if ne_lost_samples e then deliver_lost e s l else Ok (s, [])
  | EvLost l => if ne_lost_samples e then Ok (s, []) else deliver_lost e s l
  | EvSample sm => on_sample e s (ev_misc ev) sm None
  | EvAuxtrace (Some buf) base =>
      if ne_spe e then
        let! rs := decode_trace {| st_buf := buf; st_base := base; st_swap := false |} in
        on_spe_records e s rs
      else Ok (s, [])
  | EvKsymbol k =>
      if (ks_type k =? 1) && (ks_flags k =? 0) then on_mmap e s (ksym_mmap k) else Ok (s, [])
  | EvAuxtrace None _ | EvAuxInfo _ | EvOther => Ok (s, [])
  end.

(** perf_data_handler.cc:381-469, Normalize: the calls made, in order. *)
Fixpoint run_events (e : nenv) (s : nstate) (evs : list perf_event) : outcome (nstate * list hcall) :=
  match evs with
  | [] => Ok (s, [])
  | ev :: r =>
      let! (s, c1) := on_event e s ev in
      let! (s, c2) := run_events e s r in
      Ok (s, c1 ++ c2)
  end.

(** perf_data_handler.cc:1034-1038, PerfDataHandler::Process. *)
Definition process (p : perf_proto) : outcome (list hcall) :=
  let! e := normalizer_env p in
  let! (_, cs) := run_events e nstate0 (pp_events p) in
  Ok cs.
