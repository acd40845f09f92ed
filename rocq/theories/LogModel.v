(** Model of log messages and checks: base/logging.h, base/logging.cc,
    compat/log_level.cc. *)
From Verif Require Import Base.
Local Open Scope Z_scope.
Local Open Scope list_scope.

(** base/logging.h:18-23, LogLevel: INFO 0, WARNING 1, ERROR 2, FATAL 3. *)
Definition fatal : Z := 3.
Definition int_least : Z := -2147483648.

(** A statement of a program as far as messages go; a message is any [T]. *)
Inductive statement (T : Type) :=
  | Log (level : Z) (text : T)
  | PLog (level : Z) (text : T)
  | VLog (level : Z) (text : T)
  | Check (holds : bool) (text : T)
  | SetVerbosity (level : Z).
Arguments Log {T}. Arguments PLog {T}. Arguments VLog {T}. Arguments Check {T}. Arguments SetVerbosity {T}.

(** How far the program gets: it goes on with a least level, has ended (exit), or its
    behaviour is undefined. *)
Inductive going := Going (least : Z) | Ended | Undefined.

(** The negation of an int. *)
Definition negate (z : Z) : option Z := if z =? int_least then None else Some (- z).

(** base/logging.h:70-73, ~Log. *)
Definition log {T} (least level : Z) (text : T) : list T * going :=
  (if least <=? level then [text] else [], if fatal <=? level then Ended else Going least).

(** One statement. base/logging.h:85-92, ~PLog: errnum_ has no value when it is read,
    as no constructor gives it one. base/logging.h:103-105, ~VLog. CHECK
    (base/logging.h:121-122) is LOG(FATAL) unless it holds. compat/log_level.cc:11-14,
    SetVerbosityLevel. *)
Definition execute {T} (least : Z) (s : statement T) : list T * going :=
  match s with
  | Log level text => log least level text
  | PLog level text => if least <=? level then ([], Undefined) else log least level text
  | VLog level text =>
      match negate least with
      | None => ([], Undefined)
      | Some v => (if level <=? v then [text] else [], Going least)
      end
  | Check holds text => if holds then ([], Going least) else log least fatal text
  | SetVerbosity level => match negate level with None => ([], Undefined) | Some l => ([], Going l) end
  end.

(** The statements of a program in order: what is printed and how far it gets. *)
Fixpoint messages {T} (least : Z) (l : list (statement T)) : list T * going :=
  match l with
  | [] => ([], Going least)
  | s :: r =>
      match execute least s with
      | (out, Going least') => let '(out', g) := messages least' r in (out ++ out', g)
      | (out, g) => (out, g)
      end
  end.
(** base/logging.cc:13: INFO. *)
Definition start : Z := 0.
