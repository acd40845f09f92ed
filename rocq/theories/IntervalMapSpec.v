(** What IntervalMap promises, stated on the history of calls only. *)
From Verif Require Import Base IntervalMapModel.
Local Open Scope N_scope.

Section Spec.
Context {V : Type}.

(** The effect of one call on one key: [None] = key untouched,
    [Some None] = key unset, [Some (Some v)] = key set to v. *)
Definition op_effect (o : im_op V) (k : N) : option (option V) :=
  match o with
  | OpSet s l v => if (s <=? k) && (k <? l) then Some (Some v) else None
  | OpClearInterval s l => if (s <=? k) && (k <? l) then Some None else None
  | OpClear => Some None
  end.

(** Value of a key after the calls [ops] (oldest first), starting from value
    [v0]: the effect of the last call that touches the key. *)
Definition value_after (v0 : option V) (ops : list (im_op V)) (k : N)
  : option V :=
  fold_left (fun cur o => match op_effect o k with Some r => r | None => cur end)
            ops v0.

(** A call respects the precondition (non-empty range). *)
Definition op_valid (o : im_op V) : bool :=
  match o with
  | OpSet s l _ | OpClearInterval s l => s <? l
  | OpClear => true
  end.

End Spec.
