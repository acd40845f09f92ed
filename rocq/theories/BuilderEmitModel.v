(** Model of the storing of profiles by src/builder.cc. *)
From Verif Require Import Base BytesModel TextModel ProfileModel BuilderModel ToolModel.
Local Open Scope N_scope.
Local Open Scope list_scope.

Section Emit.
(** What the protobuf library and its gzip stream make of a profile; [None] if they
    report an error (a profile of more than 2 GB). *)
Variable encode : profile -> option (list N).

(** builder.cc:127-136, Marshal: whether it succeeded and the output. On an error the
    output is not valid data; it is taken as empty. *)
Definition marshal (p : profile) : bool * list N :=
  match encode p with Some d => (true, d) | None => (false, []) end.

(** builder.cc:119-125, Emit: also the builder afterwards. *)
Definition emit (b : builder) : builder * (bool * list N) :=
  let '(b', ok) := finalize b in
  (b', if ok then marshal (b_profile b') else (false, [])).

(** builder.cc:138-146, MarshalToFile with a descriptor: the compressed data goes
    through a FileOutputStream, which hands 8192 bytes at a time to write(). The error
    of a write is seen when the next block is asked for; the last block is written by
    the destructor, whose result nobody sees. The device has room for [room] bytes. *)
Definition stream_block : N := 8192.
Definition marshal_fd (p : profile) (room : nat) : bool * list N :=
  match encode p with
  | None => (false, [])
  | Some d =>
      let n := N.of_nat (List.length d) in
      let checked := (n - 1) - (n - 1) mod stream_block in
      (checked <=? N.of_nat room, firstn room d)
  end.

(** builder.cc:148-160, MarshalToFile with a name; open() is repeated while it is
    interrupted. *)
Definition marshal_file (p : profile) (f : files) (path : list N) : bool * files :=
  if negb (fl_writable f path) then (false, f)
  else let '(ok, d) := marshal_fd p (fl_room f) in (ok, write_file f path d).
End Emit.
