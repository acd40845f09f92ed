(** Small perf.data inputs, written byte by byte, for the examples beside the
    theorems about reading. *)
From Verif Require Import Base BytesModel FileModel FileSpec.
Local Open Scope N_scope.

(** A number of [n] bytes in either byte order. *)
Definition num (sw : bool) (n : nat) (v : N) : list N :=
  if sw then rev (le_bytes n v) else le_bytes n v.

(** An attribute: hardware event (type 1), sampling ip and tid (sample type 3),
    padded to 96 bytes. *)
Definition ex_attr (sw : bool) : list N :=
  num sw 4 1 ++ num sw 4 96 ++ num sw 8 0 ++ num sw 8 1000 ++ num sw 8 3 ++ repeat 0 64.

(** A record. *)
Definition ex_record (sw : bool) (ty misc : N) (body : list N) : list N :=
  num sw 4 ty ++ num sw 2 misc ++ num sw 2 (8 + len body) ++ body.
Definition ex_comm (sw : bool) : list N :=
  ex_record sw 3 0 (num sw 4 12 ++ num sw 4 13 ++ [115; 104; 0; 0; 0; 0; 0; 0]).
Definition ex_round (sw : bool) : list N := ex_record sw 68 0 [].
Definition ex_unknown (sw : bool) : list N := ex_record sw 200 0 (repeat 7 16).
(** An auxtrace record with trace data. *)
Definition ex_auxtrace (sw : bool) (trace : list N) : list N :=
  ex_record sw 71 0 (num sw 8 (len trace) ++ repeat 0 32) ++ trace.

(** A file with that attribute, the given data and features (mask, and the text
    of each section). *)
Fixpoint ex_sections (sw : bool) (at_ : N) (l : list (list N)) : list N :=
  match l with
  | [] => []
  | t :: r => num sw 8 at_ ++ num sw 8 (len t) ++ ex_sections sw (at_ + len t) r
  end.
Definition ex_file (sw : bool) (mask : list N) (data : list N) (features : list (list N)) : list N :=
  magic_bytes sw ++ num sw 8 104 ++ num sw 8 112 ++
  num sw 8 104 ++ num sw 8 112 ++ num sw 8 216 ++ num sw 8 (len data) ++ num sw 8 0 ++ num sw 8 0 ++
  mask ++ repeat 0 24 ++
  ex_attr sw ++ num sw 8 0 ++ num sw 8 0 ++ data ++
  ex_sections sw (216 + len data + 16 * len features) features ++ concat features.
(** Piped data. *)
Definition ex_pipe (sw : bool) (records : list N) : list N :=
  magic_bytes sw ++ num sw 8 16 ++ ex_record sw 64 0 (ex_attr sw ++ num sw 8 1) ++ records.
(** A host name, as a string with its length in front. *)
Definition ex_host (sw : bool) : list N := num sw 4 8 ++ [104; 111; 115; 116; 0; 0; 0; 0].

(** A reader that keeps everything but the given types, and whose serializer
    accepts every event. *)
Definition ex_config (skip : list N) : fconfig :=
  mkFConfig (fun ty => existsb (N.eqb ty) skip) false (fun _ _ => true).
