(** What the Normalizer promises, in terms of the event stream only. *)
From Coq Require Import String.
From Verif Require Import Base TextModel Assoc PerfProto NormalizerModel.
Local Open Scope N_scope.
Local Open Scope list_scope.

(** The mapping an event announces, if any: mmap events, and ksymbol events that
    register a BPF program, which count as kernel (pid -1) mappings. *)
Definition announced (ev : perf_event) : option mmap_ev :=
  match ev_what ev with
  | EvMMap m => Some m
  | EvKsymbol k =>
      if (ks_type k =? 1) && (ks_flags k =? 0)
      then Some {| mm_pid := 4294967295; mm_start := ks_addr k; mm_len := ks_len k;
                   mm_pgoff := 0; mm_file := ks_name k; mm_md5 := 0; mm_build := None |}
      else None
  | _ => None
  end.

(** The addresses it covers: [start, start+len), except that the start of a kernel
    mapping recorded as beginning in user space is taken from its offset, rounded
    down to a page. 64-bit arithmetic. *)
Definition limit_of (m : mmap_ev) : N := (mm_start m + mm_len m) mod 2 ^ 64.
Definition start_of (m : mmap_ev) : N :=
  if (mm_start m <=? 2 ^ 63) && (2 ^ 63 <? mm_pgoff m) && (2 ^ 63 <? limit_of m)
  then mm_pgoff m / 4096 * 4096 else mm_start m.
Definition covers (m : mmap_ev) (k : N) : bool :=
  negb (mm_len m =? 0) && (start_of m <=? k) && (k <? limit_of m).

(** An event whose mapping is a proper range of addresses. *)
Definition proper (ev : perf_event) : Prop :=
  forall m, announced ev = Some m -> mm_len m <> 0 -> start_of m < limit_of m.

(** An event whose build id is text (no NUL character). *)
Definition text_build_id (ev : perf_event) : Prop :=
  forall m b, announced ev = Some m -> mm_build m = Some b -> ~ In 0 b.

(** The process has mappings of its own, announced or inherited. Histories have
    the newest event first. *)
Fixpoint known (h : list perf_event) (pid : N) : bool :=
  match h with
  | [] => false
  | ev :: h =>
      match announced ev, ev_what ev with
      | Some m, _ => ((mm_pid m =? pid) && negb (mm_len m =? 0)) || known h pid
      | None, EvFork f => ((fk_pid f =? pid) && known h (fk_ppid f)) || known h pid
      | None, _ => known h pid
      end
  end.

(** The mapping in force at address [k] of process [pid]. *)
Fixpoint owner (h : list perf_event) (pid k : N) : option mmap_ev :=
  match h with
  | [] => None
  | ev :: h =>
      match announced ev, ev_what ev with
      | Some m, _ => if (mm_pid m =? pid) && covers m k then Some m else owner h pid k
      | None, EvFork f =>
          if (fk_pid f =? pid) && known h (fk_ppid f) then owner h (fk_ppid f) k else owner h pid k
      | None, _ => owner h pid k
      end
  end.

(** The mapping an address of a sample of process [pid] belongs to, given the
    execution context of the address. *)
Definition resolve (h : list perf_event) (pid ip : N) (c : actx) : option mmap_ev :=
  if ip / 2 ^ 60 =? 8 then None
  else match c with
  | CGuestKernel | CGuestUser | CHypervisor => None
  | CHostUser => owner h pid ip
  | CHostKernel | CUnknown =>
      match owner h pid ip with
      | Some m => Some m
      | None => owner h 4294967295 ip
      end
  end.

(** The mapping object [m] stands for the announced mapping [ev]. The file name
    may differ only for an unnamed mapping at 0x400000, which can be named later. *)
Definition describes (e : nenv) (m : hmapping) (ev : mmap_ev) : Prop :=
  hm_start m = start_of ev /\ hm_limit m = limit_of ev /\ hm_off m = mm_pgoff ev /\
  hm_md5 m = mm_md5 ev /\ get_build_id e ev = Ok (hm_build m) /\
  (hm_file m = mm_file ev \/ (mm_file ev = [] /\ start_of ev = 0x400000)).

(** A mapping handed to a callback agrees with the expected one. *)
Definition agrees (e : nenv) (o : option mref) (r : option mmap_ev) : Prop :=
  match o, r with
  | None, None => True
  | Some (_, m), Some ev => describes e m ev
  | _, _ => False
  end.

(** Context markers in a callchain, and the context of the entry at position [i]:
    the last marker before it. *)
Definition marker (ip : N) : bool :=
  existsb (N.eqb ip) [2 ^ 64 - 32; 2 ^ 64 - 128; 2 ^ 64 - 512; 2 ^ 64 - 2176; 2 ^ 64 - 2560].
Definition marker_context (ip : N) : actx :=
  if ip =? 2 ^ 64 - 32 then CHypervisor
  else if ip =? 2 ^ 64 - 128 then CHostKernel
  else if ip =? 2 ^ 64 - 512 then CHostUser
  else if ip =? 2 ^ 64 - 2176 then CGuestKernel
  else CGuestUser.
Definition context_at (ips : list N) (i : nat) : actx :=
  match find marker (rev (firstn i ips)) with
  | Some ip => marker_context ip
  | None => CUnknown
  end.

(** [m] contains [ip]. *)
Definition contains (m : hmapping) (ip : N) : Prop := hm_start m <= ip < hm_limit m.
Definition contains_opt (o : option mref) (ip : N) : Prop :=
  match o with None => True | Some (_, m) => contains m ip end.

(** Every mapping given for an address in a callback contains that address. *)
Definition addresses_ok (c : hcall) : Prop :=
  match c with
  | HSample c =>
      contains_opt (cx_map c) (s_ip (cx_sample c)) /\
      match s_addr (cx_sample c) with
      | None => cx_addr c = None
      | Some a => contains_opt (cx_addr c) a
      end /\
      (forall ip m, In (ip, m) (cx_chain c) -> contains_opt m ip) /\
      (forall b, In b (cx_branch c) ->
         contains_opt (bp_from_map b) (bp_from b) /\ contains_opt (bp_to_map b) (bp_to b))
  | _ => True
  end.

(** No process is called "[lost]" (with the matching MD5 prefix). *)
Definition not_named_lost (ev : perf_event) : Prop :=
  forall c, ev_what ev = EvComm c -> ~ (cm_comm c = lost_name /\ cm_md5 c = lost_md5).

(** The event does not change the address space of [pid]. *)
Definition leaves_alone (pid : N) (ev : perf_event) : Prop :=
  (forall m, announced ev = Some m -> mm_pid m <> pid) /\
  (forall f, ev_what ev = EvFork f -> fk_pid f <> pid).

(** ** Callbacks and the objects they refer to *)

(** The mapping references a callback carries. *)
Definition opt_list {A} (o : option A) : list A := match o with Some x => [x] | None => [] end.
Definition refs_of (c : hcall) : list mref :=
  match c with
  | HSample c =>
      opt_list (cx_main c) ++ opt_list (cx_map c) ++ opt_list (cx_addr c) ++
      flat_map (fun x => opt_list (snd x)) (cx_chain c) ++
      flat_map (fun b => opt_list (bp_from_map b) ++ opt_list (bp_to_map b)) (cx_branch c)
  | HComm _ _ => []
  | HMMap _ m => [m]
  end.

(** Two views of one mapping: the same, except that an unnamed mapping at 0x400000
    can be named later. *)
Definition same_object (a b : hmapping) : Prop :=
  hm_start a = hm_start b /\ hm_limit a = hm_limit b /\ hm_off a = hm_off b /\
  hm_md5 a = hm_md5 b /\ hm_build a = hm_build b /\
  (hm_file a = hm_file b \/ (hm_start a = 0x400000 /\ (hm_file a = [] \/ hm_file b = []))).

(** ** Strings *)

(** [needle] occurs in [hay]. *)
Definition occurs (needle hay : list N) : Prop := exists u v, hay = u ++ needle ++ v.

(** [a] is [b] followed by digits '0' only. *)
Definition zero_extends (a b : list N) : Prop := exists n, a = b ++ repeat 48 n.

(** ** The main executable of a process *)

Fixpoint tails {A} (l : list A) : list (list A) :=
  l :: match l with [] => [] | _ :: r => tails r end.
Definition begins (p f : list N) : bool := starts_with p f.
Definition ends (p f : list N) : bool := existsb (list_eqb p) (tails f).
Definition mentions (p f : list N) : bool := existsb (starts_with p) (tails f).

(** ".so" followed by one of ". _ " and blank, and then "(deleted)"; not at the
    very beginning. *)
Definition deleted_library (f : list N) : bool :=
  existsb (fun t => starts_with (str ".so") t &&
                    match skipn 3 t with
                    | c :: v => existsb (N.eqb c) [46; 95; 32] && mentions (str "(deleted)") (c :: v)
                    | [] => false
                    end) (tails (tl f)).

(** A file name that can be the program itself: not a kernel module, a shared
    library (also versioned or deleted), a virtual mapping, the Java class
    archive or the kernel. *)
Definition program_name (f : list N) : bool :=
  negb (ends (str ".ko") f) && negb (ends (str ".so") f) && negb (deleted_library f)
  && negb (mentions (str ".so.") (tl f))
  && negb (begins (str "//") f) && negb (begins (str "[") f && ends (str "]") f)
  && negb (begins (str "/memfd:") f) && negb (begins (str "[anon:") f)
  && negb (ends (str "/classes.jsa") f) && negb (begins (str "[kernel.kallsyms]") f).

(** An mmap event of the process has been seen. *)
Definition had_mmap (h : list perf_event) (pid : N) : bool :=
  existsb (fun ev => match ev_what ev with EvMMap m => mm_pid m =? pid | _ => false end) h.

(** A comm event that stands for an exec: all of them unless the profile says that
    exec is marked; then the marked ones, and those before any mmap. *)
Definition is_exec (marked : bool) (misc : option N) (h : list perf_event) (pid : N) : bool :=
  negb marked || N.testbit (match misc with Some m => m | None => 0 end) 13 || negb (had_mmap h pid).

(** The mapping of the main executable: the latest one at one of the two addresses
    where programs are linked; failing that, the first one with a name that can be
    a program's; for the kernel the latest one with the kernel's name. An exec
    forgets it, a fork copies it. *)
Fixpoint main_of (marked : bool) (h : list perf_event) (pid : N) : option mmap_ev :=
  match h with
  | [] => None
  | ev :: h =>
      let old := main_of marked h pid in
      match announced ev, ev_what ev with
      | Some m, _ =>
          if (mm_pid m =? pid) && negb (mm_len m =? 0) then
            if (start_of m =? 0x8048000) || (start_of m =? 0x400000) then Some m
            else if (pid =? 4294967295) && begins (str "[kernel.kallsyms]") (mm_file m) then Some m
            else match old with
                 | Some _ => old
                 | None => if program_name (mm_file m) then Some m else None
                 end
          else old
      | None, EvFork f =>
          if fk_pid f =? pid then
            match main_of marked h (fk_ppid f) with Some m => Some m | None => old end
          else old
      | None, EvComm c =>
          if (cm_pid c =? pid) && (cm_tid c =? pid) && is_exec marked (ev_misc ev) h pid then None else old
      | None, _ => old
      end
  end.

(** The process's name: its last comm event (of its main thread), or the one it
    inherited at fork. *)
Fixpoint comm_of (h : list perf_event) (pid : N) : option comm_ev :=
  match h with
  | [] => None
  | ev :: h =>
      match ev_what ev with
      | EvComm c => if (cm_pid c =? pid) && (cm_tid c =? pid) then Some c else comm_of h pid
      | EvFork f =>
          if fk_pid f =? pid then
            match comm_of h (fk_ppid f) with Some c => Some c | None => comm_of h pid end
          else comm_of h pid
      | _ => comm_of h pid
      end
  end.

(** The main mapping delivered with a sample of [pid] whose ip has context [c]. *)
Definition main_ok (marked : bool) (e : nenv) (h : list perf_event) (pid : N) (c : actx)
    (o : option mref) : Prop :=
  match main_of marked h pid, c, comm_of h pid with
  | Some ev, _, _ => agrees e o (Some ev)
  | None, CHostKernel, Some cm =>
      exists q m, o = Some (q, m) /\ hm_file m = cm_comm cm /\ hm_md5 m = cm_md5 cm /\
        match main_of marked h 4294967295 with
        | Some k => exists src, get_build_id e k = Ok (fst (hm_build m), src)
        | None => fst (hm_build m) = []
        end
  | None, CHostKernel, None =>
      if pid =? 0 then agrees e o (main_of marked h 4294967295) else o = None
  | None, _, _ => o = None
  end.

(** ** Build ids *)

(** The build id records of the profile for a file name, oldest first. *)
Definition records_of (p : perf_proto) (name : list N) : list build_id_ev :=
  filter (fun b => list_eqb (name_or_md5 (bi_file b) (bi_md5 b)) name) (pp_build_ids p).
Definition hex_of (b : build_id_ev) : list N := raw_to_hex (bi_hash b).

(** The last of them decides; it is ambiguous if the one before disagrees. *)
Definition recorded_build (p : perf_proto) (name : list N) : bid :=
  match rev (records_of p name) with
  | [] => ([], SrcMissing)
  | [b] => (hex_of b, if bi_injected b then SrcInjected else SrcFilename)
  | b :: b' :: _ =>
      (hex_of b, if list_eqb (hex_of b') (hex_of b)
                 then if bi_injected b then SrcInjected else SrcFilename else SrcAmbiguous)
  end.

(** The kernel's: the first non-empty one of a kernel record that is not a module. *)
Definition kernel_record (b : build_id_ev) : bool :=
  (N.land (bi_misc b) 7 =? 1) &&
  (let f := name_or_md5 (bi_file b) (bi_md5 b) in
   existsb (fun p => begins (str p) f)
     ["[kernel.kallsyms]"; "[guest.kernel.kallsyms"; "[vdso]"; "[vsyscall]"]%string
   || negb (ends (str ".ko") f)).
Definition kernel_build (p : perf_proto) : list N :=
  match filter (fun b => kernel_record b && negb (list_eqb (hex_of b) [])) (pp_build_ids p) with
  | [] => []
  | b :: _ => hex_of b
  end.

(** The build id of a mapping: its own if it carries one; else the recorded one of
    its file; else, for the kernel image, the kernel's. *)
Definition expected_build (p : perf_proto) (m : mmap_ev) (b : bid) : Prop :=
  let name := name_or_md5 (mm_file m) (mm_md5 m) in
  match mm_build m with
  | Some (c :: r) =>
      fst b = c :: r /\
      (snd b = SrcMmapSame <->
         zero_extends (c :: r) (fst (recorded_build p name)) \/
         zero_extends (fst (recorded_build p name)) (c :: r)) /\
      (snd b = SrcMmapSame \/ snd b = SrcMmapDiff)
  | _ =>
      if negb (list_eqb (fst (recorded_build p name)) []) then b = recorded_build p name
      else if begins (str "[kernel.kallsyms]") name then b = (kernel_build p, SrcKernelPrefix)
      else b = ([], SrcMissing)
  end.
