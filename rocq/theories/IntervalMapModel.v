(** Model of src/intervalmap.h (class IntervalMap<V>). *)
From Verif Require Import Base.
Local Open Scope N_scope.

Section Model.
Context {V : Type}.

(** intervalmap.h:53-56,106 — [btree_map<uint64_t, Value>] from the start of an
    interval to its limit and value, as a list in key order. *)
Definition imap := list (N * (N * V)).

(** [btree_map::lower_bound]: index of the first key >= k (used at
    intervalmap.h:169-170). *)
Fixpoint lower_bound (m : imap) (k : N) : nat :=
  match m with
  | [] => O
  | (s, _) :: r => if s <? k then S (lower_bound r k) else O
  end.

(** [btree_map::upper_bound]: index of the first key > k (used at
    intervalmap.h:65, 76, 132). *)
Fixpoint upper_bound (m : imap) (k : N) : nat :=
  match m with
  | [] => O
  | (s, _) :: r => if s <=? k then S (upper_bound r k) else O
  end.

(** [btree_map::emplace] of a (key, value) pair: inserts in key order, and does
    nothing if the key is already present (intervalmap.h:205-208, Insert). *)
Fixpoint insert (m : imap) (s l : N) (v : V) : imap :=
  match m with
  | [] => [(s, (l, v))]
  | (s0, lv) :: r =>
      if s <? s0 then (s, (l, v)) :: m
      else if s =? s0 then m
      else (s0, lv) :: insert r s l v
  end.

(** intervalmap.h:187-203, Decrement: [None] when the iterator is begin(). *)
Definition decrement (i : nat) : option nat :=
  match i with O => None | S j => Some j end.

(** intervalmap.h:64-84, GetContainingInterval: index of the interval containing
    [point], [None] for end(). *)
Definition get_containing (m : imap) (point : N) : option nat :=
  match decrement (upper_bound m point) with
  | None => None
  | Some i =>
      match nth_error m i with
      | None => None
      | Some (_, (l, _)) => if l <=? point then None else Some i
      end
  end.

(** [iter->second.limit = point] at index i (intervalmap.h:183). *)
Fixpoint set_limit (m : imap) (i : nat) (l : N) : imap :=
  match m, i with
  | [], _ => []
  | (s, (_, v)) :: r, O => (s, (l, v)) :: r
  | e :: r, S j => e :: set_limit r j l
  end.

(** intervalmap.h:176-185, SplitInterval. *)
Definition split_interval (m : imap) (iter : option nat) (point : N) : imap :=
  match iter with
  | None => m
  | Some i =>
      match nth_error m i with
      | None => m
      | Some (s, (l, v)) =>
          if (point <=? s) || (l <=? point) then m
          else insert (set_limit m i point) point l v
      end
  end.

(** [btree_map::erase(first, last)] with indices (intervalmap.h:173); the
    iterator pair is valid only if first <= last. *)
Definition erase_range (m : imap) (a b : nat) : outcome imap :=
  if (a <=? b)%nat then Ok (firstn a m ++ skipn b m) else UB.

(** intervalmap.h:158-174, RemoveInterval. *)
Definition remove_interval (m : imap) (rs rl : N) : outcome imap :=
  if rl <=? rs then Ok m
  else
    let m1 := split_interval m (get_containing m rl) rl in
    let m2 := split_interval m1 (get_containing m1 rs) rs in
    erase_range m2 (lower_bound m2 rs) (lower_bound m2 rl).

(** intervalmap.h:112-117, Set: CHECK_LT(start, limit). *)
Definition im_set (m : imap) (s l : N) (v : V) : outcome imap :=
  if s <? l then
    let! m' := remove_interval m s l in Ok (insert m' s l v)
  else Abort.

(** intervalmap.h:119-127, Lookup. *)
Definition im_lookup (m : imap) (k : N) : option V :=
  match get_containing m k with
  | None => None
  | Some i =>
      match nth_error m i with
      | Some (_, (_, v)) => Some v
      | None => None
      end
  end.

(** intervalmap.h:129-140, FindNext. *)
Definition im_find_next (m : imap) (k : N) : option (N * N * V) :=
  match nth_error m (upper_bound m k) with
  | None => None
  | Some (s, (l, v)) => Some (s, l, v)
  end.

(** intervalmap.h:142-145, Clear. *)
Definition im_clear (m : imap) : imap := [].

(** intervalmap.h:147-151, ClearInterval: CHECK_LT(clear_start, clear_limit). *)
Definition im_clear_interval (m : imap) (s l : N) : outcome imap :=
  if s <? l then remove_interval m s l else Abort.

(** intervalmap.h:153-156, Size. *)
Definition im_size (m : imap) : nat := length m.

(** Client operations of the class, in call order (public API,
    intervalmap.h:25-50). *)
Inductive im_op :=
| OpSet (s l : N) (v : V)
| OpClearInterval (s l : N)
| OpClear.

Definition im_step (m : imap) (o : im_op) : outcome imap :=
  match o with
  | OpSet s l v => im_set m s l v
  | OpClearInterval s l => im_clear_interval m s l
  | OpClear => Ok (im_clear m)
  end.

Fixpoint im_run (m : imap) (ops : list im_op) : outcome imap :=
  match ops with
  | [] => Ok m
  | o :: r => let! m' := im_step m o in im_run m' r
  end.

End Model.
Arguments imap V : clear implicits.
Arguments im_op V : clear implicits.
