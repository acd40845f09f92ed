(** Model of the making of temporary files and directories: scoped_temp_path.cc. *)
From Verif Require Import Base TextModel TempModel.
Local Open Scope N_scope.
Local Open Scope list_scope.

(** open() with O_CREAT and O_EXCL, or mkdir(): an empty file or directory where there
    is nothing yet, in a directory that is there. Simplification: the directories that
    lead to it are not symbolic links. *)
Fixpoint add (e : entries) (p : path) (k : kind) : option entries :=
  match e, p with
  | _, [] => None
  | ENone, x :: p' => match p' with [] => Some (EMore x k ENone ENone) | _ => None end
  | EMore n k' inside rest, x :: p' =>
      if list_eqb n x then
        match p' with
        | [] => None
        | _ => if is_dir k' then option_map (fun i => EMore n k' i rest) (add inside p' k) else None
        end
      else option_map (EMore n k' inside) (add rest p k)
  end.

(** mkstemp() or mkdtemp(), called with a template (scoped_temp_path.cc:38-42,
    MakeTempfileTemplate) that is a directory and the beginning of a name, followed by
    six letters X: names are tried in turn ([tries], the letters that take the place of
    the X) while there is something of that name; any other error ends the attempt.
    [deny]: the system refuses to make the path. *)
Fixpoint make (deny : path -> bool) (e : entries) (d : path) (base : list N) (k : kind) (tries : list (list N)) :
  option (path * entries) :=
  match tries with
  | [] => None
  | letters :: more =>
      let p := d ++ [base ++ letters] in
      match node_at e p with
      | Some _ => make deny e d base k more
      | None => if deny p then None else option_map (fun e' => (p, e')) (add e p k)
      end
  end.

(** scoped_temp_path.cc:50-56, ScopedTempFile, and 60-64, ScopedTempDir: the path the
    object has then, [None] if it is empty, and the file system. *)
Definition construct (deny : path -> bool) (e : entries) (d : path) (base : list N) (dir : bool) (tries : list (list N)) :
  option path * entries :=
  match make deny e d base (if dir then KDir else KFile []) tries with
  | None => (None, e)
  | Some (p, e') => (Some p, e')
  end.
