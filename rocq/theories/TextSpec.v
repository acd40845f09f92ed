(** Independent vocabulary for the text properties. *)
From Coq Require Import String.
From Verif Require Import Base BytesModel TextModel.
Local Open Scope N_scope.

(** The list is strictly increasing. *)
Fixpoint strictly_increasing (l : list N) : bool :=
  match l with
  | a :: ((b :: _) as r) => (a <? b) && strictly_increasing r
  | _ => true
  end.

(** Lower-case hexadecimal digit characters: 0-9, a-f. *)
Definition is_lower_hex (c : N) : bool :=
  ((48 <=? c) && (c <=? 57)) || ((97 <=? c) && (c <=? 102)).

(** Joining with a separator. *)
Fixpoint join (sep : N) (l : list (list N)) : list N :=
  match l with
  | [] => []
  | [t] => t
  | t :: r => t ++ sep :: join sep r
  end.

(** [n] characters '0'. *)
Definition zeros (n : nat) : list N := repeat 48 n.

(** Paths that are not one of RootPath's special cases (anonymous memory,
    memfd, /tmp). *)
Definition generic_path (f : list N) : Prop :=
  starts_with (str "[anon:") f = false /\ starts_with (str "/memfd:") f = false /\
  starts_with (str "/tmp/") f = false.

