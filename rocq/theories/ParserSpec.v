(** Specification for PerfParser (C41, C42, C56, C57): what the events before a given
    one say about processes, their mappings and their commands, and what becomes of
    an event. *)
From Verif Require Import Base BytesModel TextModel Assoc MapperModel MapperSpec ParserModel.
From Coq Require Import String.
Local Open Scope N_scope.
Local Open Scope list_scope.

(** ** What is known before an event *)

(** The mappings of every process that has been mentioned, oldest first; the command
    of every thread; and whether the kernel image is still to come. *)
Record world := mkWorld {
  w_space : N -> option (list call);
  w_command : N * N -> option (list N);
  w_no_kernel : bool }.

(** Mappings a process has when it is looked at: its own, or those of the kernel's
    pseudo process 2^32 - 1 if it has not been mentioned, or none. *)
Definition known_or (w : world) (pid parent : N) : list call :=
  match w_space w pid with
  | Some h => h
  | None => match w_space w parent with
            | Some h => h
            | None => match w_space w kernel_pid with Some h => h | None => [] end
            end
  end.
Definition space_of (w : world) (pid : N) : list call := known_or w pid kernel_pid.

Definition note_space (pid : N) (h : list call) (w : world) : world :=
  mkWorld (fun q => if q =? pid then Some h else w_space w q) (w_command w) (w_no_kernel w).
Definition note_command (pid tid : N) (c : list N) (w : world) : world :=
  mkWorld (w_space w) (fun '(q, t) => if (q =? pid) && (t =? tid) then Some c else w_command w (q, t))
    (w_no_kernel w).

(** The event announces the kernel image: the first mapping in kernel mode. *)
Definition is_mmap (e : pevent) : bool := (e_type e =? 1) || (e_type e =? 10).
Definition kernel_image (w : world) (e : pevent) : bool :=
  w_no_kernel w && (N.land (e_misc e) 7 =? 1).

(** The mapping an event number [i] announces: its own range, file offset and
    number. The kernel image is taken from its pgoff on when that lies inside the
    range, and always has file offset 0. *)
Definition call_of (i : N) (kernel : bool) (m : pmap) : call :=
  if kernel then
    let stop := (m_start m + m_len m) mod two64 in
    if (m_start m <? m_pgoff m) && (m_pgoff m <? stop)
    then mkCall (m_pgoff m) (stop - m_pgoff m) i 0
    else mkCall (m_start m) (m_len m) i 0
  else mkCall (m_start m) (m_len m) i (m_pgoff m).

(** The sample an event is. *)
Definition sample_of (e : pevent) : option psample :=
  if e_type e =? 9 then match e_body e with PSample s => Some s | _ => None end else None.

(** What event number [i] adds. Samples and commands mention a process; a fork (type
    7) of a new process copies the mappings of its parent. *)
Definition see (i : N) (w : world) (e : pevent) : world :=
  match sample_of e with
  | Some s => note_space (s_pid s) (space_of w (s_pid s)) w
  | None =>
      if is_mmap e then
        let m := the_map (e_body e) in
        let k := kernel_image w e in
        let w' := note_space (m_pid m) (space_of w (m_pid m) ++ [call_of i k m]) w in
        mkWorld (w_space w') (w_command w') (w_no_kernel w && negb k)
      else if e_type e =? 7 then
        let '(pid, ppid, tid, ptid) := the_fork (e_body e) in
        let w' := match w_command w (ppid, ptid) with
                  | Some c => note_command pid tid c w
                  | None => w
                  end in
        if ppid =? pid then w' else note_space pid (known_or w pid ppid) w'
      else if e_type e =? 3 then
        let '(pid, tid, c) := the_comm (e_body e) in
        note_command pid tid c (note_space pid (space_of w pid) w)
      else w
  end.

Fixpoint replay (i : N) (w : world) (evs : list pevent) : world :=
  match evs with
  | [] => w
  | e :: r => replay (i + 1) (see i w e) r
  end.

(** At the start only the swapper is known. *)
Definition first_world : world :=
  mkWorld (fun _ => None) (fun '(p, t) => if (p =? 0) && (t =? 0) then Some (str "swapper") else None) true.

(** The events that get a row, and those that are processed: all up to the first one
    of an unknown kind. *)
Definition kept (evs : list pevent) : list pevent := filter (fun e => negb (e_type e =? 68)) evs.
Definition known_event (e : pevent) : bool :=
  (64 <=? e_type e) || existsb (N.eqb (e_type e)) [1; 2; 3; 4; 5; 6; 7; 9; 10; 11; 12; 13; 14; 15; 16; 17; 19].
Fixpoint known_prefix (evs : list pevent) : list pevent :=
  match evs with
  | [] => []
  | e :: r => if known_event e then e :: known_prefix r else []
  end.
Definition processed (evs : list pevent) : list pevent := known_prefix (kept evs).
Definition world_before (evs : list pevent) (n : nat) : world :=
  replay 0 first_world (firstn n (kept evs)).

(** ** Looking up an address *)

(** Synthetic address, number of the mapping event and file offset of an address,
    after the given mappings. C12 and C13 say what this is without the mapper. *)
Definition lookup (page : N) (h : list call) (a : N) : option (N * N * N) :=
  match run_calls (mkMapper [] page) h with
  | Some m => get_mapped m a
  | None => None
  end.
Definition is_mapped (page : N) (h : list call) (a : N) : bool :=
  match lookup page h a with Some _ => true | None => false end.

(** The file name of the mapping event number [i]. *)
Definition file_of (evs : list pevent) (i : N) : list N :=
  match nth_error (kept evs) (N.to_nat i) with
  | Some e => m_file (the_map (e_body e))
  | None => []
  end.

(** Where an address lies: file name and offset. *)
Definition place_of (evs : list pevent) (page : N) (h : list call) (a : N) : loc :=
  match lookup page h a with
  | Some (_, i, off) => (Some (file_of evs i), off)
  | None => (None, 0)
  end.

(** The address that is written: the same one, or when remapping the synthetic one,
    or the low 60 bits marked with the digit 8. *)
Definition marked (a : N) : N := a mod 2 ^ 60 + 8 * 2 ^ 60.
Definition translate (cf : pconfig) (h : list call) (a : N) : N :=
  if pc_remap cf
  then match lookup (pc_page cf) h a with Some (x, _, _) => x | None => marked a end
  else a.

(** ** Samples *)

Definition sample_ip (s : psample) : N := match s_ip s with Some a => a | None => 0 end.

(** Entries of a call chain that are addresses, not markers. *)
Definition is_address (a : N) : bool := a <? 2 ^ 64 - 4095.
(** Those that are looked up: not the address of the sample itself. *)
Definition chain_lookups (s : psample) : list N :=
  filter (fun a => is_address a && negb (a =? sample_ip s)) (s_chain s).

Definition null_entry (b : pbranch) : Prop := b_from b = 0 /\ b_to b = 0.
(** The branch stack is [real] followed by null entries. *)
Definition stack_is (l real nulls : list pbranch) : Prop :=
  l = real ++ nulls /\ Forall (fun b => ~ null_entry b) real /\ Forall null_entry nulls.

(** What becomes of a branch stack. *)
Definition stack_result (f : N -> N) (at_ : N -> loc) (l l' : list pbranch)
    (locs : list (list N * loc * loc)) : Prop :=
  (forall real nulls, stack_is l real nulls ->
     l' = map (fun b => mkPBranch (f (b_from b)) (f (b_to b)) (b_flags b)) real ++ nulls /\
     locs = map (fun b => (b_flags b, at_ (b_from b), at_ (b_to b))) real) /\
  ((forall real nulls, ~ stack_is l real nulls) -> l' = l /\ locs = []).

(** What becomes of a sample, and what is recorded beside it, when [f] is the
    translation of addresses, [at_] the place of an address. *)
Definition sample_result (f : N -> N) (at_ : N -> loc) (command : option (list N))
    (s s' : psample) (i : pinfo) : Prop :=
  s_pid s' = s_pid s /\ s_tid s' = s_tid s /\
  s_ip s' = Some (f (sample_ip s)) /\
  s_addr s' = match s_addr s with
              | Some a => if a =? 0 then Some 0 else Some (f a)
              | None => None
              end /\
  s_chain s' = map (fun a => if is_address a then f a else a) (s_chain s) /\
  stack_result f at_ (s_branch s) (s_branch s') (pi_branch i) /\
  pi_command i = command /\
  pi_code i = at_ (sample_ip s) /\
  pi_data i = match s_addr s with
              | Some a => if a =? 0 then (None, 0) else at_ a
              | None => (None, 0)
              end /\
  pi_chain i = map at_ (chain_lookups s).

(** ** Rows *)

(** Nothing is recorded beside an event that is not a sample. *)
Definition blank (i : pinfo) : Prop :=
  pi_command i = None /\ pi_code i = (None, 0) /\ pi_data i = (None, 0) /\
  pi_chain i = [] /\ pi_branch i = [].

(** The row of event [e], number [n], when [w] is known before it. *)
Definition row_result (cf : pconfig) (evs : list pevent) (n : nat) (w : world) (e : pevent)
    (row : pevent * pinfo) : Prop :=
  let '(e', i) := row in
  e_type e' = e_type e /\ e_misc e' = e_misc e /\
  match sample_of e with
  | Some s =>
      let h := space_of w (s_pid s) in
      exists s', e_body e' = PSample s' /\
        sample_result (translate cf h) (place_of evs (pc_page cf) h)
          (w_command w (s_pid s, s_tid s)) s s' i
  | None =>
      blank i /\
      if is_mmap e then
        let m := the_map (e_body e) in
        let c := call_of (N.of_nat n) (kernel_image w e) m in
        let h := space_of w (m_pid m) ++ [c] in
        e_body e' = PMap (if pc_remap cf
                          then mkPMap (m_pid m) (translate cf h (c_start c)) (c_size c) (c_off c)
                                 (m_file m) (m_maj m) (m_min m) (m_ino m)
                          else m)
      else e_body e' = e_body e
  end.

(** ** Counting *)

(** The non-null entries of an accepted branch stack; none of a rejected one. *)
Definition is_null (b : pbranch) : bool := (b_from b =? 0) && (b_to b =? 0).
Fixpoint real_entries (l : list pbranch) : option (list pbranch) :=
  match l with
  | [] => Some []
  | b :: r => if is_null b then if forallb is_null r then Some [] else None
              else option_map (cons b) (real_entries r)
  end.
Definition branch_lookups (s : psample) : list N :=
  match real_entries (s_branch s) with
  | Some l => flat_map (fun b => [b_from b; b_to b]) l
  | None => []
  end.

(** The data address of a sample, if it has one. *)
Definition data_lookup (s : psample) : list N :=
  match s_addr s with Some a => if a =? 0 then [] else [a] | None => [] end.

(** Everything a sample looks up. *)
Definition lookups (s : psample) : list N :=
  sample_ip s :: data_lookup s ++ chain_lookups s ++ branch_lookups s.

(** The numbers of the mapping events that the addresses of an event fall into, with
    the thread they were seen in. *)
Definition uses_of (page : N) (w : world) (e : pevent) : list (N * (N * N)) :=
  match sample_of e with
  | Some s =>
      flat_map (fun a => match lookup page (space_of w (s_pid s)) a with
                         | Some (_, i, _) => [(i, (s_pid s, s_tid s))]
                         | None => []
                         end) (lookups s)
  | None => []
  end.

(** All uses by the first [n] events. *)
Fixpoint uses (page : N) (evs : list pevent) (n : nat) : list (N * (N * N)) :=
  match n with
  | O => []
  | S k => uses page evs k ++
           match nth_error (kept evs) k with
           | Some e => uses_of page (world_before evs k) e
           | None => []
           end
  end.
Definition hits_of (page : N) (evs : list pevent) (n : nat) (i : N) : N :=
  len (filter (fun u => fst u =? i) (uses page evs n)).

(** Statistics: what an event adds to a counter. *)
Definition adds (page : N) (w : world) (e : pevent) (c : counter) : bool :=
  match c with
  | NSample => e_type e =? 9
  | NMmap => is_mmap e
  | NComm => e_type e =? 3
  | NFork => e_type e =? 7
  | NExit => e_type e =? 4
  | NKsymbol => e_type e =? 17
  | NData => match sample_of e with Some s => negb (len (data_lookup s) =? 0) | None => false end
  | NDataMapped =>
      match sample_of e with
      | Some s => existsb (is_mapped page (space_of w (s_pid s))) (data_lookup s)
      | None => false
      end
  | NSampleMapped =>
      match sample_of e with
      | Some s =>
          let ok := is_mapped page (space_of w (s_pid s)) in
          ok (sample_ip s) && forallb ok (chain_lookups s) && forallb ok (branch_lookups s)
          && match real_entries (s_branch s) with Some _ => true | None => false end
      | None => false
      end
  end.
Fixpoint total (page : N) (evs : list pevent) (c : counter) (n : nat) : N :=
  match n with
  | O => 0
  | S k => total page evs c k +
           match nth_error (kept evs) k with
           | Some e => if adds page (world_before evs k) e c then 1 else 0
           | None => 0
           end
  end.

(** ** Files *)

(** The first mapping of the file [name] among the first [n] events. *)
Definition maps_file (evs : list pevent) (name : list N) (j : nat) (e : pevent) : Prop :=
  nth_error (kept evs) j = Some e /\ is_mmap e = true /\ m_file (the_map (e_body e)) = name.
Definition first_mapping (evs : list pevent) (n : nat) (name : list N) (j : nat) (e : pevent) : Prop :=
  (j < n)%nat /\ maps_file evs name j e /\
  forall i e', (i < j)%nat -> ~ maps_file evs name i e'.

(** What is known about a file after [n] events: nothing unless it was mapped; device
    and inode from the first mapping if that was an MMAP2 event (type 10); whether an
    address fell into it; and the threads, as pid * 2^32 + tid, whose addresses did. *)
Definition file_result (page : N) (evs : list pevent) (n : nat) (name : list N) (o : option dso) : Prop :=
  match o with
  | None => forall j e, (j < n)%nat -> ~ maps_file evs name j e
  | Some d =>
      (exists j e, first_mapping evs n name j e /\
         let m := the_map (e_body e) in
         (d_maj d, d_min d, d_ino d)
         = if e_type e =? 10 then (m_maj m, m_min m, m_ino m) else (0, 0, 0)) /\
      (d_hit d = true <-> exists u, In u (uses page evs n) /\ file_of evs (fst u) = name) /\
      NoDup (d_threads d) /\
      forall t, In t (d_threads d) <->
        exists i pid tid, In (i, (pid, tid)) (uses page evs n) /\ file_of evs i = name /\
          t = merge_u32 pid tid
  end.

(** ** Conditions *)

(** The page size. *)
Definition page_ok (page : N) : Prop := exists k, k <= 60 /\ page = 2 ^ k.

(** The new mapping [c] may be entered after [h]: it lies inside the address space,
    there is room for its synthetic addresses, and where it splits an older mapping
    it does so at page boundaries, unless unaligned splits are allowed. *)
Definition inside (c p : call) : Prop :=
  c_start p <= c_start c /\ c_end c <= c_end p /\ c_size c < c_size p.
Definition splits_at_pages (page : N) (h : list call) (c : call) : Prop :=
  forall p, In p (pieces h) -> inside c p ->
    (c_start p < c_start c -> c_start c mod page = 0) /\
    (c_end c < c_end p -> c_end c mod page = 0).
Definition is_jit (cf : pconfig) (m : pmap) : bool := pc_jit cf && contains (str "jitted-") (m_file m).
Definition mapping_ok (cf : pconfig) (h : list call) (c : call) (m : pmap) : Prop :=
  Forall call_ok (h ++ [c]) /\ all_roomy (mkMapper [] (pc_page cf)) (h ++ [c]) /\
  (is_jit cf m = false -> splits_at_pages (pc_page cf) h c).

(** Every mapping event that is processed is in order. *)
Definition mappings_ok (cf : pconfig) (evs : list pevent) : Prop :=
  forall n e, nth_error (processed evs) n = Some e -> is_mmap e = true ->
    let w := world_before evs n in
    let m := the_map (e_body e) in
    mapping_ok cf (space_of w (m_pid m)) (call_of (N.of_nat n) (kernel_image w e) m) m.

(** ** Places without the mapper *)

(** Where an address lies according to the pieces the mappings leave (C12). *)
Definition place_in (evs : list pevent) (h : list call) (a : N) : loc :=
  match resolve (pieces h) a with
  | Some (i, off) => (Some (file_of evs i), off)
  | None => (None, 0)
  end.

(** Mappings whose synthetic addresses stay in the lower half of the addresses. *)
Definition small_history (page : N) (h : list call) : Prop :=
  exists B, (forall c, In c h -> c_size c <= B) /\ N.of_nat (List.length h) * (B + 6 * page) < 2 ^ 63.

(** ** Discarding *)

(** Mappings without a hit go (the counter has 32 bits), everything else stays. *)
Definition stays (page : N) (evs : list pevent) (n : nat) : bool :=
  match nth_error (kept evs) n with
  | Some e => negb (is_mmap e) || negb (hits_of page evs (List.length (kept evs)) (N.of_nat n) mod 2 ^ 32 =? 0)
  | None => false
  end.
Definition staying (page : N) (evs : list pevent) : list nat :=
  filter (stays page evs) (seq 0 (List.length (kept evs))).

(** The row of event number [n] is as it should be. *)
Definition row_ok (cf : pconfig) (evs : list pevent) (n : nat) (row : pevent * pinfo) : Prop :=
  exists e, nth_error (kept evs) n = Some e /\ row_result cf evs n (world_before evs n) e row.

(** All events are of known kinds, and only mapping events have the body of one. *)
Definition well_formed (evs : list pevent) : Prop :=
  forall e, In e (kept evs) ->
    known_event e = true /\
    match e_body e with PMap _ => is_mmap e = true | _ => True end.
