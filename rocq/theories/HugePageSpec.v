(** What combining mappings and deducing huge pages promise. *)
From Coq Require Import String.
From Verif Require Import Base BytesModel TextModel HugePageModel.
Local Open Scope N_scope.
Local Open Scope list_scope.

(** ** Address spaces *)

(** The mappings of a process, in event order. *)
Definition maps_of (k : N) (evs : list pevent) : list vmap :=
  flat_map (fun e => match e_map e with Some m => if key_of m =? k then [m] else [] | None => [] end) evs.

Definition covers (m : vmap) (a : N) : Prop := v_start m <= a < v_start m + v_len m.
Definition coversb (m : vmap) (a : N) : bool := (v_start m <=? a) && (a <? v_start m + v_len m).

(** The mapping an address belongs to: the last one over it. *)
Definition owner (k a : N) (evs : list pevent) : option vmap :=
  find (fun m => coversb m a) (rev (maps_of k evs)).

(** The file offset of an address in a mapping. *)
Definition offset (m : vmap) (a : N) : N := (v_pgoff m + (a - v_start m)) mod 2 ^ 64.

(** The mapping ends below 2^64. *)
Definition ends_in_memory (e : pevent) : Prop :=
  match e_map e with Some m => v_start m + v_len m < 2 ^ 64 | None => True end.

(** Field types. *)
Definition typed (e : pevent) : Prop :=
  match e_map e with
  | Some m => v_start m < 2 ^ 64 /\ v_len m < 2 ^ 64 /\ v_pgoff m < 2 ^ 64
  | None => True
  end.

Definition anonymous (f : list N) : Prop :=
  f = str "//anon" \/ f = str "/anon_hugepage" \/ f = str "/anon_hugepage (deleted)".

(** The output keeps the order of the input; only mmap events are dropped; those
    kept are unchanged or, unless of anonymous memory, may change in length, name,
    offset and build id. *)
Definition same_object (m m' : vmap) : Prop :=
  v_pid m' = v_pid m /\ v_start m' = v_start m /\ v_prot m' = v_prot m /\ v_flags m' = v_flags m /\
  v_maj m' = v_maj m /\ v_min m' = v_min m /\ v_ino m' = v_ino m /\ v_gen m' = v_gen m.
Inductive thinned : list pevent -> list pevent -> Prop :=
| thin_nil : thinned [] []
| thin_same e l l' : thinned l l' -> thinned (e :: l) (e :: l')
| thin_map e e' m m' l l' :
    e_map e = Some m -> e_map e' = Some m' -> e_time e' = e_time e -> e_other e' = e_other e ->
    ~ anonymous (v_file m) -> same_object m m' -> thinned l l' -> thinned (e :: l) (e' :: l')
| thin_drop e m l l' : e_map e = Some m -> thinned l l' -> thinned (e :: l) l'.

(** ** Huge page names *)

(** Anonymous memory, or a file <dir>/<x>.buildid_<y>. *)
Definition huge_name (f : list N) : Prop :=
  f = str "//anon" \/ f = str "/anon_hugepage" \/ f = str "/anon_hugepage (deleted)" \/
  exists dir x y, f = dir ++ str "/" ++ x ++ str ".buildid_" ++ y /\ y <> [] /\ ~ In 47 x /\ ~ In 47 y.

(** [e'] is [e], a mapping [m], renamed after [next], a mapping at a higher address
    of the same process: it gets its name, its build id and device data where it
    has some, and, if the file offset was 0, the offset of that file at the same
    distance. *)
Definition given {A} (o d : option A) : option A := match o with Some x => Some x | None => d end.
Definition renamed (e : pevent) (m next : vmap) (e' : pevent) : Prop :=
  exists m', e_map e' = Some m' /\ e_time e' = e_time e /\ e_other e' = e_other e /\
    e_size e' = (e_size e + aligned_string_length (len (v_file next)) + 2 ^ 64 - aligned_string_length (len (v_file m)))
                  mod 2 ^ 64 mod 2 ^ 32 /\
    v_pid m' = v_pid m /\ v_start m' = v_start m /\ v_len m' = v_len m /\ v_prot m' = v_prot m /\ v_flags m' = v_flags m /\
    v_file m' = v_file next /\ v_md5 m' = v_md5 next /\ v_build m' = given (v_build next) (v_build m) /\
    v_maj m' = given (v_maj next) (v_maj m) /\ v_min m' = given (v_min next) (v_min m) /\
    v_ino m' = given (v_ino next) (v_ino m) /\ v_gen m' = given (v_gen next) (v_gen m) /\
    (v_pgoff m = 0 -> v_pgoff m' < 2 ^ 64 /\ (v_pgoff m' + (v_start next + 2 ^ 64 - v_start m)) mod 2 ^ 64 = v_pgoff next) /\
    (v_pgoff m <> 0 -> v_pgoff m' = v_pgoff m).

(** Event [i] of [evs], as it is in [evs']: unchanged, or a huge page of a process
    renamed after a later mapping of it which is no huge page and is unchanged. *)
Definition deduced (evs evs' : list pevent) (i : nat) (e e' : pevent) : Prop :=
  e' = e \/
  exists m j en next, e_map e = Some m /\ huge_name (v_file m) /\
    (i < j)%nat /\ nth_error evs j = Some en /\ nth_error evs' j = Some en /\ e_map en = Some next /\
    key_of next = key_of m /\ ~ huge_name (v_file next) /\ renamed e m next e'.

(** A synthesized mapping (no timestamp) of process [k]. *)
Definition synthesized (k : N) (x : pevent * vmap) : Prop :=
  e_map (fst x) = Some (snd x) /\ v_pid (snd x) = Some k /\ e_time (fst x) = 0.

(** Mappings one right after the other, up to address [stop]. *)
Fixpoint adjoin (l : list vmap) (stop : N) : Prop :=
  match l with
  | [] => True
  | m :: r => v_start m + v_len m = match r with [] => stop | x :: _ => v_start x end /\ adjoin r stop
  end.

(** The file offset a run of pages that starts at [start] must have to be text of
    the file of [next]: it continues the mapping before it if that is of the same
    file and ends there, otherwise it is the start of the file. *)
Definition base_offset (before : option vmap) (start : N) (next : vmap) (base : N) : Prop :=
  match before with
  | Some p => (v_start p + v_len p = start /\ v_file p = v_file next /\ base = v_pgoff p + v_len p)
              \/ ((v_start p + v_len p) mod 2 ^ 64 <> start \/ v_file p <> v_file next) /\ base = 0
  | None => base = 0
  end.

(** ** Split mappings *)

(** The piece of [m] that starts [at_] bytes in and is [n] bytes long. *)
Definition piece (m : vmap) (at_ n : N) : vmap :=
  {| v_pid := v_pid m; v_start := v_start m + at_; v_len := n; v_pgoff := v_pgoff m + at_;
     v_file := v_file m; v_md5 := v_md5 m; v_build := v_build m; v_prot := v_prot m; v_flags := v_flags m;
     v_maj := v_maj m; v_min := v_min m; v_ino := v_ino m; v_gen := v_gen m |}.
(** Events that map consecutive pieces of [m] of the given lengths, from [at_] on. *)
Fixpoint pieces (m : vmap) (at_ : N) (cuts : list (pevent * N)) : list pevent :=
  match cuts with
  | [] => []
  | (e, n) :: r => set_map (piece m at_ n) e :: pieces m (at_ + n) r
  end.
Definition total (cuts : list (pevent * N)) : N := fold_right (fun x a => snd x + a) 0 cuts.

(** The event maps a device file. *)
Definition deviceb (e : pevent) : bool := match e_map e with Some m => starts_with (str "/dev/") (v_file m) | None => false end.
