(** What is in a file system. *)
From Verif Require Import Base TextModel TempModel.
Local Open Scope N_scope.
Local Open Scope list_scope.

(** The kind of what is at a path, with the content of a file and the target of a link. *)
Definition at_path (e : entries) (p : path) : option kind := option_map fst (node_at e p).

(** A directory has no two entries of one name, and only directories have entries. *)
Fixpoint names (e : entries) : list (list N) := match e with ENone => [] | EMore n _ _ rest => n :: names rest end.
Fixpoint proper (e : entries) : Prop :=
  match e with
  | ENone => True
  | EMore n k inside rest => ~ In n (names rest) /\ (is_dir k = false -> inside = ENone) /\ proper inside /\ proper rest
  end.

(** [q] is [p] or something in the directory [p]. *)
Definition below (p q : path) : Prop := exists r, q = p ++ r.
