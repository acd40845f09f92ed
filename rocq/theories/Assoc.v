(** Association lists standing for the maps and sets of the code. *)
From Verif Require Import Base.
Local Open Scope N_scope.

(** Unordered maps (absl::flat_hash_map, std::unordered_map) of which only
    lookup and insertion are used: newest entry first, looked up by key. *)
Section Assoc.
Context {K V : Type}.
Variable eqb : K -> K -> bool.

Fixpoint aget (k : K) (m : list (K * V)) : option V :=
  match m with
  | [] => None
  | (k', v) :: r => if eqb k k' then Some v else aget k r
  end.

(** [m[k] = v] *)
Definition aset (k : K) (v : V) (m : list (K * V)) : list (K * V) := (k, v) :: m.

(** [m.emplace(k, v)] / [m.insert({k, v})]: keeps an existing entry; returns the
    map, the value now stored under the key and whether it was inserted. *)
Definition aemplace (k : K) (v : V) (m : list (K * V)) : list (K * V) * V * bool :=
  match aget k m with
  | Some v0 => (m, v0, false)
  | None => ((k, v) :: m, v, true)
  end.

(** [m.erase(k)] *)
Fixpoint aerase (k : K) (m : list (K * V)) : list (K * V) :=
  match m with
  | [] => []
  | (k', v) :: r => if eqb k k' then aerase k r else (k', v) :: aerase k r
  end.
End Assoc.

(** Sets: membership in a list. *)
Definition mem_by {A} (eqb : A -> A -> bool) (x : A) (l : list A) : bool := existsb (eqb x) l.

(** Ordered maps with integer keys (std::map<uint64_t, V>): sorted list. *)
Section OMap.
Context {V : Type}.

(** [m[k] = v] *)
Fixpoint omset (k : N) (v : V) (m : list (N * V)) : list (N * V) :=
  match m with
  | [] => [(k, v)]
  | (k', v') :: r =>
      if k <? k' then (k, v) :: m
      else if k =? k' then (k, v) :: r
      else (k', v') :: omset k v r
  end.

(** [it = m.upper_bound(k); if (it == m.begin()) none; else --it]: the entry
    with the greatest key <= k. *)
Fixpoint omfloor (k : N) (m : list (N * V)) : option (N * V) :=
  match m with
  | [] => None
  | (k', v') :: r =>
      if k' <=? k then match omfloor k r with Some e => Some e | None => Some (k', v') end
      else None
  end.
End OMap.
