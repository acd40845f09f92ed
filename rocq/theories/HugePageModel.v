(** Model of src/quipper/huge_page_deducer.cc. *)
From Coq Require Import String.
From Verif Require Import Base BytesModel TextModel Assoc.
Local Open Scope N_scope.
Local Open Scope list_scope.

(** perf_data.proto, MMapEvent: the fields the code reads or writes. Optional
    fields whose presence is tested are options. *)
Record vmap := {
  v_pid : option N; v_start : N; v_len : N; v_pgoff : N;
  v_file : list N; v_md5 : N; v_build : option (list N);
  v_prot : N; v_flags : N;
  v_maj : option N; v_min : option N; v_ino : option N; v_gen : option N }.

(** perf_data.proto, PerfEvent: timestamp, header.size, the mmap_event if it is
    one, and everything else ([e_other], not interpreted). *)
Record pevent := { e_time : N; e_size : N; e_map : option vmap; e_other : N }.

Definition set_map (m : vmap) (e : pevent) : pevent :=
  {| e_time := e_time e; e_size := e_size e; e_map := Some m; e_other := e_other e |}.
Definition set_size (n : N) (e : pevent) : pevent :=
  {| e_time := e_time e; e_size := n; e_map := e_map e; e_other := e_other e |}.
Definition set_file f md5 m :=
  {| v_pid := v_pid m; v_start := v_start m; v_len := v_len m; v_pgoff := v_pgoff m;
     v_file := f; v_md5 := md5; v_build := v_build m; v_prot := v_prot m; v_flags := v_flags m;
     v_maj := v_maj m; v_min := v_min m; v_ino := v_ino m; v_gen := v_gen m |}.
Definition set_build b m :=
  {| v_pid := v_pid m; v_start := v_start m; v_len := v_len m; v_pgoff := v_pgoff m;
     v_file := v_file m; v_md5 := v_md5 m; v_build := b; v_prot := v_prot m; v_flags := v_flags m;
     v_maj := v_maj m; v_min := v_min m; v_ino := v_ino m; v_gen := v_gen m |}.
Definition set_pgoff x m :=
  {| v_pid := v_pid m; v_start := v_start m; v_len := v_len m; v_pgoff := x;
     v_file := v_file m; v_md5 := v_md5 m; v_build := v_build m; v_prot := v_prot m; v_flags := v_flags m;
     v_maj := v_maj m; v_min := v_min m; v_ino := v_ino m; v_gen := v_gen m |}.
Definition set_len x m :=
  {| v_pid := v_pid m; v_start := v_start m; v_len := x; v_pgoff := v_pgoff m;
     v_file := v_file m; v_md5 := v_md5 m; v_build := v_build m; v_prot := v_prot m; v_flags := v_flags m;
     v_maj := v_maj m; v_min := v_min m; v_ino := v_ino m; v_gen := v_gen m |}.
Definition set_dev maj mi ino gen m :=
  {| v_pid := v_pid m; v_start := v_start m; v_len := v_len m; v_pgoff := v_pgoff m;
     v_file := v_file m; v_md5 := v_md5 m; v_build := v_build m; v_prot := v_prot m; v_flags := v_flags m;
     v_maj := maj; v_min := mi; v_ino := ino; v_gen := gen |}.

(** ** Predicates *)

(** huge_page_deducer.cc:24-29, IsAnon. *)
Definition is_anon (m : vmap) : bool :=
  list_eqb (v_file m) (str "//anon") || list_eqb (v_file m) (str "/anon_hugepage")
  || list_eqb (v_file m) (str "/anon_hugepage (deleted)").

(** huge_page_deducer.cc:32-34, HasExecuteProtection (PROT_EXEC = 4). *)
Definition executable (m : vmap) : bool := N.testbit (v_prot m) 2.

(** [m.pid()]: 0 if absent. *)
Definition pid_of (m : vmap) : N := match v_pid m with Some p => p | None => 0 end.

(** huge_page_deducer.cc:38-40, IsVmaContiguous. *)
Definition vma_contiguous (a b : vmap) : bool :=
  (pid_of a =? pid_of b) && (w64 (v_start a + v_len a) =? v_start b).

(** std::string::rfind of a character, and find of a string from a position. *)
Fixpoint rfind_char (c : N) (s : list N) : option nat :=
  match s with
  | [] => None
  | x :: r => match rfind_char c r with
              | Some n => Some (S n)
              | None => if x =? c then Some O else None
              end
  end.
Fixpoint find_str (needle hay : list N) : option nat :=
  if starts_with needle hay then Some O
  else match hay with
       | [] => None
       | _ :: r => option_map S (find_str needle r)
       end.
Definition find_str_from (needle hay : list N) (pos : nat) : option nat :=
  option_map (fun d => (pos + d)%nat) (find_str needle (skipn pos hay)).

(** huge_page_deducer.cc:46-64, IsHugePage. *)
Definition is_huge (m : vmap) : bool :=
  if is_anon m then true
  else match rfind_char 47 (v_file m) with
       | None => false
       | Some file_start =>
           match find_str_from (str ".buildid_") (v_file m) file_start with
           | None => false
           | Some buildid_start => (buildid_start + 9 <? List.length (v_file m))%nat
           end
       end.

(** huge_page_deducer.cc:77-87, IsFileContiguous. *)
Definition file_contiguous (a b : vmap) : bool :=
  ((w64 (v_pgoff a + v_len a) =? v_pgoff b) && negb (is_anon a))
  || (negb (executable a) && negb (is_anon a) && is_anon b).

(** huge_page_deducer.cc:91-96, IsEquivalentFile. *)
Definition equivalent_file (a b : vmap) : bool :=
  list_eqb (v_file a) (v_file b) || is_huge a || is_huge b.

(** huge_page_deducer.cc:102-120, IsEquivalentProtection (PROT_READ = 1,
    PROT_WRITE = 2, MAP_TYPE = 15). *)
Definition equivalent_protection (a b : vmap) : bool :=
  ((N.land (v_flags a) 15 =? N.land (v_flags b) 15) || executable a) &&
  ((v_prot a =? v_prot b) || ((v_prot a =? 1) && (v_prot b =? 3)) || ((v_prot a =? 3) && (v_prot b =? 1))).

(** huge_page_deducer.cc:125-130, IsCombinableFile. *)
Definition combinable (m : vmap) : bool := negb (starts_with (str "/dev/") (v_file m)).

(** huge_page_deducer.cc:134-144, SetMmapFilename; header.size is a uint32. The
    event is given with its mmap ([has_mmap_event] is checked by every caller). *)
Definition set_filename (e : pevent) (m : vmap) (f : list N) (md5 : N) : pevent :=
  set_size (w32 (sub64 (w64 (e_size e + aligned_string_length (len f)))
                       (aligned_string_length (len (v_file m)))))
    (set_map (set_file f md5 m) e).

(** ** Ranges *)

(** huge_page_deducer.cc:249-252 and 189-192: the key is an int32, -1 if the pid
    is absent; here the same as a uint32. *)
Definition key_of (m : vmap) : N := match v_pid m with Some p => w32 p | None => max32 end.

Definition of_key (k : N) (e : pevent) : bool :=
  match e_map e with Some m => key_of m =? k | None => false end.
(** huge_page_deducer.cc:238-248: mmap events that open or extend a range. *)
Definition opens (k : N) (e : pevent) : bool := of_key k e && (e_time e =? 0).

(** huge_page_deducer.cc:235-261 and 183-201: the events the range of a process
    iterates over, as a mask: mmap events of the process between the first and the
    last one that has no timestamp. *)
Fixpoint mask (k : N) (started : bool) (evs : list pevent) : list bool :=
  match evs with
  | [] => []
  | e :: r =>
      let started := started || opens k e in
      (started && of_key k e && existsb (opens k) (e :: r)) :: mask k started r
  end.

(** The mmap events under the mask, and the event list with them replaced. *)
Fixpoint take_mask (ms : list bool) (evs : list pevent) : list (pevent * vmap) :=
  match ms, evs with
  | true :: ms, e :: r => match e_map e with Some m => (e, m) :: take_mask ms r | None => take_mask ms r end
  | false :: ms, _ :: r => take_mask ms r
  | _, _ => []
  end.
Fixpoint put_mask (ms : list bool) (evs new : list pevent) : list pevent :=
  match ms, evs, new with
  | true :: ms, _ :: r, x :: new => x :: put_mask ms r new
  | _ :: ms, e :: r, new => e :: put_mask ms r new
  | _, evs, _ => evs
  end.

(** ** UpdateRangeFromNext, huge_page_deducer.cc:270-314 *)

Definition or_else {A} (o d : option A) : option A := match o with Some _ => o | None => d end.

(** huge_page_deducer.cc:279-312: one event of the range. *)
Definition update_one (e : pevent) (m : vmap) (next : vmap) (pgoff : N) : pevent :=
  if is_huge m || (v_pgoff m =? 0) then
    let e := set_filename e m (v_file next) (v_md5 next) in
    let m := set_file (v_file next) (v_md5 next) m in
    let m := set_build (or_else (v_build next) (v_build m)) m in
    let m := if v_pgoff m =? 0 then set_pgoff pgoff m else m in
    let m := set_dev (or_else (v_maj next) (v_maj m)) (or_else (v_min next) (v_min m))
                     (or_else (v_ino next) (v_ino m)) (or_else (v_gen next) (v_gen m)) m in
    set_map m e
  else e.

Fixpoint update_loop (rng : list (pevent * vmap)) (next : vmap) (pgoff : N) : list pevent * N :=
  match rng with
  | [] => ([], pgoff)
  | (e, m) :: r =>
      let e' := update_one e m next pgoff in
      let '(out, pg) := update_loop r next (w64 (pgoff + v_len m)) in
      (e' :: out, pg)
  end.

(** The length of a range, from its first and last mapping. *)
Definition range_length (first last : vmap) : N := w64 (sub64 (v_start last) (v_start first) + v_len last).

Definition update_range (first last : vmap) (rng : list (pevent * vmap)) (next : vmap)
  : outcome (list pevent) :=
  let l := range_length first last in
  let start_pgoff := sub64 (v_pgoff next) l in
  let '(out, pg) := update_loop rng next start_pgoff in
  if pg =? w64 (start_pgoff + l) then Ok out else Abort.

(** ** DeduceHugePages, huge_page_deducer.cc:318-389 *)

(** huge_page_deducer.cc:342-347: the current huge page continues the range.
    (IsMergeableAnon is constantly false.) *)
Definition continues (last cur : vmap) : bool :=
  vma_contiguous last cur && list_eqb (v_file last) (v_file cur) &&
  (file_contiguous last cur || ((v_pgoff last =? 0) && (v_pgoff cur =? 0))).

(** huge_page_deducer.cc:363-378: the range is text of the file mapped next. *)
Definition belongs (pre : option vmap) (first last cur : vmap) : bool :=
  let l := range_length first last in
  let start_pgoff :=
    match pre with
    | Some p => if vma_contiguous p first && equivalent_file p first && equivalent_file p cur
                then w64 (v_pgoff p + v_len p) else 0
    | None => 0
    end in
  vma_contiguous last cur && equivalent_file last cur && (l <=? v_pgoff cur) &&
  (sub64 (v_pgoff cur) l =? start_pgoff).

(** huge_page_deducer.cc:334-388: the events of one process. [pre] is
    pre_mmap_range_last, [rng] the range from huge_mmap_range_first to
    huge_mmap_range_last (empty if there is none): these iterators always delimit
    consecutive events of the process that end right before the current one. *)
Fixpoint deduce_loop (pre : option vmap) (rng : list (pevent * vmap)) (l : list (pevent * vmap))
  : outcome (list pevent) :=
  match l with
  | [] => Ok (map fst rng)
  | (e, m) :: r =>
      if is_huge m then
        match rng with
        | [] => deduce_loop pre [(e, m)] r
        | (_, first) :: _ =>
            if continues (snd (last rng (e, m))) m then deduce_loop pre (rng ++ [(e, m)]) r
            else let! out := deduce_loop None [(e, m)] r in Ok (map fst rng ++ out)
        end
      else
        let! rng' :=
          match rng with
          | [] => Ok []
          | (_, first) :: _ =>
              let lst := snd (last rng (e, m)) in
              if belongs pre first lst m then update_range first lst rng m else Ok (map fst rng)
          end in
        let! out := deduce_loop (Some m) [] r in
        Ok (rng' ++ e :: out)
  end.

Definition deduce_key (k : N) (evs : list pevent) : outcome (list pevent) :=
  let ms := mask k false evs in
  let! new := deduce_loop None [] (take_mask ms evs) in
  Ok (put_mask ms evs new).

(** The processes are visited in the order of an unordered_map, here any [order]. *)
Fixpoint deduce (order : list N) (evs : list pevent) : outcome (list pevent) :=
  match order with
  | [] => Ok evs
  | k :: r => let! evs := deduce_key k evs in deduce r evs
  end.

(** ** CombineMappings, huge_page_deducer.cc:391-448 *)

(** huge_page_deducer.cc:420-425, should_merge. *)
Definition mergeable (a b : vmap) : bool :=
  combinable b && combinable a && equivalent_file a b && equivalent_protection a b &&
  file_contiguous a b && vma_contiguous a b.

(** huge_page_deducer.cc:426-437: [b] merged into the earlier event [ea] with
    mapping [a]. *)
Definition merge_into (ea : pevent) (a b : vmap) : pevent :=
  let '(ea, a) :=
    if is_huge a && negb (is_huge b) then
      let ea := set_filename ea a (v_file b) (v_md5 b) in
      let a := set_file (v_file b) (v_md5 b) (set_pgoff (sub64 (v_pgoff b) (v_len a)) a) in
      (ea, set_build (or_else (v_build b) (v_build a)) a)
    else (ea, a) in
  set_map (set_len (w64 (v_len a + v_len b)) a) ea.

Fixpoint replace_nth {A} (n : nat) (x : A) (l : list A) : list A :=
  match l, n with
  | [], _ => []
  | _ :: r, O => x :: r
  | y :: r, S n => y :: replace_nth n x r
  end.

(** The loop: [out] is new_events, [prev] is pid_to_prev_map. *)
Fixpoint combine_loop (evs out : list pevent) (prev : list (N * nat)) : outcome (list pevent) :=
  match evs with
  | [] => Ok out
  | e :: r =>
      match e_map e with
      | None => combine_loop r (out ++ [e]) prev
      | Some m =>
          let append := combine_loop r (out ++ [e]) (aset (key_of m) (List.length out) prev) in
          match aget N.eqb (key_of m) prev with
          | None => append
          | Some i =>
              match nth_error out i with
              | Some ea =>
                  match e_map ea with
                  | Some a => if mergeable a m then combine_loop r (replace_nth i (merge_into ea a m) out) prev
                              else append
                  | None => UB
                  end
              | None => UB
              end
          end
      end
  end.

Definition combine_mappings (evs : list pevent) : outcome (list pevent) := combine_loop evs [] [].
