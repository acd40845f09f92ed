(** Independent vocabulary for the PerfReader operations. *)
From Coq Require Import Permutation.
From Verif Require Import Base BytesModel TextModel Assoc ReaderOpsModel.
Local Open Scope N_scope.

(** Times never decrease from an event to any later one. *)
Definition in_time_order (l : list revent) : Prop :=
  forall l1 a l2 b l3, l = l1 ++ a :: l2 ++ b :: l3 -> rv_time a <= rv_time b.

(** For every time, the events with that time, in order, are the same. *)
Definition same_order_per_time (l l' : list revent) : Prop :=
  forall t, filter (fun e => rv_time e =? t) l = filter (fun e => rv_time e =? t) l'.

(** Each attribute records times. *)
Definition all_record_time (p : rproto) : Prop :=
  Forall (fun st => N.testbit st 2 = true) (rp_sample_types p).

(** A request to inject build ids that makes sense: a map (distinct names) from
    names without NUL to the hex text of some bytes. *)
Definition injectable (m : list (list N * list N)) : Prop :=
  NoDup (map fst m) /\
  forall f id, In (f, id) m ->
    ~ In 0 f /\ exists d, bytes_ok d = true /\ id = raw_to_hex d.

(** The two entries agree on everything but the id and the injected mark. *)
Definition same_but_id (b b' : rbuild) : Prop :=
  rb_misc b' = rb_misc b /\ rb_pid b' = rb_pid b /\ rb_file b' = rb_file b /\
  rb_md5 b' = rb_md5 b /\ rb_size b' = rb_size b.

(** The state is the same apart from the build ids and the feature mask. *)
Definition same_but_builds (p p' : rproto) : Prop :=
  rp_sample_types p' = rp_sample_types p /\ rp_info_reader p' = rp_info_reader p /\
  rp_events p' = rp_events p.

(** The event announces a mapping: its type is PERF_RECORD_MMAP (1) or
    PERF_RECORD_MMAP2 (10). *)
Definition announces_mapping (e : revent) : bool := (rv_type e =? 1) || (rv_type e =? 10).

(** The last mapping event of a file, if any. *)
Fixpoint last_mapping_of (f : list N) (evs : list revent) : option revent :=
  match evs with
  | [] => None
  | e :: r =>
      match last_mapping_of f r with
      | Some x => Some x
      | None => if announces_mapping e && list_eqb f (rv_file e) then Some e else None
      end
  end.

(** Space taken by a string of [n] characters: with its NUL, rounded up to a
    multiple of 8. *)
Definition text_space (n : N) : N := 8 * ((n + 8) / 8).

(** The two events agree on everything but name and size. *)
Definition same_but_name (e e' : revent) : Prop :=
  rv_type e' = rv_type e /\ rv_misc e' = rv_misc e /\ rv_time e' = rv_time e /\
  rv_md5 e' = rv_md5 e /\ rv_rest e' = rv_rest e.

(** The event's size covers its name and no name is unreasonably long. *)
Definition sizes_fit (m : list (list N * list N)) (e : revent) : Prop :=
  text_space (len (rv_file e)) <= rv_size e < 2 ^ 31 /\
  (forall f, In f (map snd m) -> len f < 2 ^ 30).

(** Strictly increasing in the order of std::string. *)
Definition sorted_strings (l : list (list N)) : Prop :=
  forall l1 a l2 b l3, l = l1 ++ a :: l2 ++ b :: l3 -> string_less a b = true.
