(** C62: what the profiles made of a perf.data file add up to, in terms of the
    messages of its records. *)
From Coq Require Import Permutation.
From Verif Require Import Base Assoc PerfProto SerializerModel.
From Verif Require FileModel AttrModel ReaderOpsModel.
Local Open Scope N_scope.
Local Open Scope list_scope.

(** ** Which event a sample belongs to *)

(** The last of the lists, numbered from [n] on, that has the id. *)
Fixpoint last_with (id : N) (n : nat) (ids : list (list N)) : option nat :=
  match ids with
  | [] => None
  | l :: r => match last_with id (S n) r with
              | Some i => Some i
              | None => if existsb (N.eqb id) l then Some n else None
              end
  end.
(** The event of an id: the only one, or the last one that owns the id. *)
Definition event_of (ids : list (list N)) (id : option N) : option nat :=
  match ids, id with
  | [_], _ => Some O
  | _, Some id => last_with id 0 ids
  | _, None => None
  end.
Definition is_event (i : nat) (o : option nat) : bool := match o with Some j => (i =? j)%nat | None => false end.

(** The samples of event [i], and the numbers of samples lost of it. From perf 6.1 on
    ([new]) the LOST_SAMPLES records tell, before that the LOST records. *)
Definition samples_of (ids : list (list N)) (i : nat) (xs : list x_event) : list x_sample :=
  flat_map (fun x => match xe_body x with
                     | XBSample s => if is_event i (event_of ids (xsa_id s)) then [s] else []
                     | _ => []
                     end) xs.
Definition lost_of (ids : list (list N)) (i : nat) (new : bool) (xs : list x_event) : list N :=
  flat_map (fun x => match xe_body x, new with
                     | XBLostSamples l, true =>
                         if is_event i (event_of ids (Some (dflt (xi_id (xls_info l))))) then [xls_lost l] else []
                     | XBLost l, false => if is_event i (event_of ids (Some (xl_id l))) then [xl_lost l] else []
                     | _, _ => []
                     end) xs.
Definition total_of (l : list N) : N := fold_right N.add 0 l.

(** A period as the signed number it is stored as; and what a sample weighs: its
    period, or that of its event, or 1. *)
Definition signed (x : N) : Z := if x mod 2 ^ 64 <? 2 ^ 63 then Z.of_N (x mod 2 ^ 64) else (Z.of_N (x mod 2 ^ 64) - 2 ^ 64)%Z.
Definition weighs (event_period period : N) : Z :=
  if 0 <? period then signed period else if 0 <? event_period then signed event_period else 1%Z.
Definition total_z (l : list Z) : Z := fold_right Z.add 0%Z l.

(** No record says that the data has traces of the Arm SPE, from which further
    samples are made. *)
Definition no_spe (xs : list x_event) : Prop :=
  forall x a, In x xs -> xe_body x = XBAuxInfo a -> xai_type a <> 4.

(** ** Order *)

(** The messages, sorted by time if all events record it; those of the same time stay
    in order. *)
Definition all_timed (st : FileModel.fstate) : Prop :=
  forall a, In a (FileModel.fs_attrs st) -> N.testbit (FileModel.attr_sample_type (FileModel.fa_attr a)) 2 = true.
Definition ordered (xs : list x_event) : Prop :=
  forall i j x y, (i < j)%nat -> nth_error xs i = Some x -> nth_error xs j = Some y -> xe_time x <= xe_time y.
Definition at_time (t : N) (xs : list x_event) : list x_event := filter (fun x => xe_time x =? t) xs.
Definition arranged (st : FileModel.fstate) (xs ys : list x_event) : Prop :=
  (all_timed st /\ Permutation xs ys /\ ordered ys /\ forall t, at_time t ys = at_time t xs) \/
  (~ all_timed st /\ ys = xs).

(** Messages that are not mappings. *)
Definition is_map (x : x_event) : bool := match xe_body x with XBMmap _ => true | _ => false end.
Definition others (xs : list x_event) : list x_event := filter (fun x => negb (is_map x)) xs.

(** ** Mappings *)

(** The last mapping of process [pid] over address [a], among messages and among the
    events that are converted. *)
Definition mappings (xs : list x_event) : list x_mmap :=
  flat_map (fun x => match xe_body x with XBMmap m => [m] | _ => [] end) xs.
Definition message_map (pid a : N) (xs : list x_event) : option x_mmap :=
  find (fun m => (xm_pid m =? pid) && (xm_start m <=? a) && (a <? xm_start m + xm_len m)) (rev (mappings xs)).
Definition event_maps (evs : list perf_event) : list mmap_ev :=
  flat_map (fun e => match ev_what e with EvMMap m => [m] | _ => [] end) evs.
Definition event_map (pid a : N) (evs : list perf_event) : option mmap_ev :=
  find (fun m => (mm_pid m =? pid) && (mm_start m <=? a) && (a <? mm_start m + mm_len m)) (rev (event_maps evs)).
(** The mappings end below 2^64. Offsets and process ids are of their types. *)
Definition maps_end_in_memory (xs : list x_event) : Prop :=
  forall m, In m (mappings xs) -> xm_start m + xm_len m < 2 ^ 64 /\ xm_pgoff m < 2 ^ 64 /\ xm_pid m < 2 ^ 32.
