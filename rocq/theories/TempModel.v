(** Model of the removal of temporary files and directories: scoped_temp_path.cc. *)
From Verif Require Import Base TextModel.
Local Open Scope N_scope.
Local Open Scope list_scope.

(** ** A file system *)

(** A file, a symbolic link or a directory. *)
Inductive kind := KFile (data : list N) | KLink (target : list N) | KDir.
(** The entries of a directory, in the order in which they are read: name, kind and
    (for a directory) its own entries. *)
Inductive entries := ENone | EMore (n : list N) (k : kind) (inside rest : entries).
Definition path := list (list N).

Definition is_dir (k : kind) : bool := match k with KDir => true | _ => false end.
Definition is_empty (e : entries) : bool := match e with ENone => true | _ => false end.

(** What is at a path; symbolic links are not followed. *)
Fixpoint node_at (e : entries) (p : path) : option (kind * entries) :=
  match e, p with
  | EMore n k inside rest, x :: p' =>
      if list_eqb n x then
        match p' with [] => Some (k, inside) | _ => if is_dir k then node_at inside p' else None end
      else node_at rest p
  | _, _ => None
  end.

(** remove() of the C library: a file or a link is taken away, a directory only if it
    is empty. *)
Fixpoint remove (e : entries) (p : path) : entries :=
  match e, p with
  | EMore n k inside rest, x :: p' =>
      if list_eqb n x then
        match p' with
        | [] => if is_dir k && negb (is_empty inside) then e else rest
        | _ => if is_dir k then EMore n k (remove inside p') rest else e
        end
      else EMore n k inside (remove rest p)
  | _, _ => e
  end.

(** nftw() with FTW_DEPTH and FTW_PHYS, below a directory: all entries, the inside of a
    directory before it, links as such. Simplification: all directories can be read,
    and no other process changes the directory meanwhile. *)
Fixpoint walk (e : entries) : list path :=
  match e with
  | ENone => []
  | EMore n k inside rest => map (cons n) (if is_dir k then walk inside else []) ++ [[n]] ++ walk rest
  end.
Definition walk_from (e : entries) (p : path) : list path :=
  match node_at e p with
  | None => []
  | Some (k, inside) => map (app p) (if is_dir k then walk inside else []) ++ [p]
  end.

(** scoped_temp_path.cc:25-30, FileDeletionCallback: an error of remove() is only
    logged. [deny]: the system refuses to remove the path. *)
Definition remove_if (deny : path -> bool) (e : entries) (p : path) : entries := if deny p then e else remove e p.

(** scoped_temp_path.cc:65-73, ~ScopedTempPath; [None]: path_ is empty, as no
    temporary file could be made (scoped_temp_path.cc:50-63). *)
Definition destroy (deny : path -> bool) (e : entries) (p : option path) : entries :=
  match p with
  | None => e
  | Some p => fold_left (remove_if deny) (walk_from e p) e
  end.
