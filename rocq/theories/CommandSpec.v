(** C68: what running a command promises. *)
From Verif Require Import Base CommandModel.
Local Open Scope N_scope.
Local Open Scope list_scope.

(** RunCommand has returned. *)
Definition returned (s : sys) (r : result) : Prop := p_pc (s_parent s) = PDone r.

(** The status told for the end of a command: its exit status; 0 if SIGINT (2) or
    SIGTERM (15) ended it; else minus the signal. *)
Definition told (w : ending) : Z :=
  match w with
  | Exited n => Z.of_N n
  | Signaled 2 | Signaled 15 => 0
  | Signaled n => - Z.of_N n
  end%Z.

(** The parent ignores or passes on SIGINT: from the start of RunCommand, with SIGINT
    blocked, to the end of the process. *)
Definition guarded (s : sys) : Prop := p_pc (s_parent s) <> PBegin /\ p_pc (s_parent s) <> PDone RNothing.

(** RunCommand waits: it has set up the handler and not yet got the end of the child. *)
Definition waits (s : sys) : Prop :=
  match p_pc (s_parent s) with PErrno | PReap _ | POutput | PWait => True | _ => False end.

(** SIGINT, as sent to the parent in [s], was passed on to the child: it is kept until
    the child takes signals, its handler got one more, the child has ended, or it
    ignores SIGINT. *)
Definition passed_on (s s' : sys) : Prop :=
  let c := s_child s in let c' := s_child s' in
  c_pending c' = true \/ c_ints c' = S (c_ints c) \/ c_alive c' = false \/ (c_disp c = DIgnore /\ c_blocked c = false).

(** The child has ended, waited for or not. *)
Definition over (c : child) : Prop := exists w, c_pc c = CEnded w \/ c_pc c = CReaped w.

(** The command cannot start any more: the child ended before exec, or SIGINT waits for
    it and ends it. *)
Definition never_starts (s : sys) : Prop :=
  let c := s_child s in
  c_ran c = false /\
  (over c \/
   c_pending c = true /\ c_blocked c = true /\ c_disp c = DDefault /\ (c_pc c = CGroup \/ c_pc c = CPrctl \/ c_pc c = CUnblock)).

(** A step of RunCommand itself: of the parent, or of its child before the command. *)
Inductive own_step (want : bool) (s s' : sys) : Prop :=
| own_parent : p_alive (s_parent s) = true -> parent_step want s s' -> own_step want s s'
| own_child : child_step s s' -> own_step want s s'.

(** The child is on its own until the command ends or writes. *)
Definition command_runs (s : sys) : Prop := c_pc (s_child s) = CRun /\ (p_pc (s_parent s) = POutput -> s_pipe s = []).

(** The death of the parent in [s] reached the child: it has ended, or the command got
    SIGTERM. *)
Definition learns_death (s : sys) : Prop :=
  let c := s_child s in let c' := s_child (die s) in c_alive c' = false \/ c_terms c' = S (c_terms c).
