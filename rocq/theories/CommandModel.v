(** Running a command: src/quipper/run_command.cc.

    Parent (quipper) and child (the command) are two programs that run in any
    interleaving, with signals from outside at any point. What the operating system
    does is modelled as POSIX says; simplifications are said at the definitions. *)
From Verif Require Import Base.
Local Open Scope N_scope.
Local Open Scope list_scope.

(** Dispositions of SIGINT: SIG_DFL, SIG_IGN, a handler. *)
Inductive disposition := DDefault | DIgnore | DHandler.

(** What waitpid reports: WEXITSTATUS or WTERMSIG. *)
Inductive ending := Exited (n : N) | Signaled (s : N).
Definition sigint : N := 2.
Definition sigabrt : N := 6.
Definition sigterm : N := 15.

(** What RunCommand returns: -1 with the errno of exec (line 265), -1 before anything
    ran (lines 178, 186, 188), or the status of the child. *)
Inductive result := RExec (errno : N) | RNothing | RStatus (z : Z).

(** Where the parent is: before the pipes (174-188), before fork (195), before
    sigaction (83), before unblocking SIGINT (104), at the read of the errno pipe
    (246-258), at the wait after a failed exec (260-263), at the read of the output
    (269-274), at the wait for the child (277-279), before the destructor (108-122);
    returned, dead, or in undefined behaviour. *)
Inductive ppc :=
| PBegin | PFork | PSigaction | PUnblock | PErrno | PReap (errno : N) | POutput | PWait | PLeave (r : result)
| PDone (r : result) | PDead | PUndefined.

(** Where the child is: not there, before setpgid (90), before prctl (97), before
    unblocking SIGINT (104), before its file descriptors are set up (199-222), before
    exec (224), before writing errno (229-232), before _Exit (234), in the command;
    ended but not waited for, waited for. *)
Inductive cpc :=
| CNone | CGroup | CPrctl | CUnblock | CSetup | CExec | CWrite (errno : N) | CQuit | CRun
| CEnded (w : ending) | CReaped (w : ending).

Record parent := {
  p_pc : ppc;
  p_blocked : bool;              (* SIGINT is blocked *)
  p_pending : bool;              (* SIGINT is pending *)
  p_disp : disposition;
  p_registered : bool;           (* g_signal_handler is set *)
  p_buffer : list N;             (* *output *)
  p_offset : nat }.              (* read_off *)
Record child := {
  c_pc : cpc;
  c_blocked : bool; c_pending : bool; c_disp : disposition;
  c_group : bool;                (* leads its own process group *)
  c_tied : bool;                 (* gets SIGTERM when the parent dies *)
  c_ints : nat;                  (* SIGINTs its handler got *)
  c_terms : nat;                 (* SIGTERMs of the parent's death *)
  c_failed : option N;           (* exec failed with this errno *)
  c_ran : bool;                  (* exec succeeded *)
  c_out : list N }.              (* what the command wrote to stdout *)
(** [s_errno]: what is in the errno pipe, [s_pipe]: in the output pipe; [s_stray]:
    SIGINT was sent to a process group whose leader had been waited for. *)
Record sys := { s_parent : parent; s_child : child; s_errno : option N; s_pipe : list N; s_stray : bool }.

Definition at_parent (pc : ppc) (p : parent) : parent :=
  {| p_pc := pc; p_blocked := p_blocked p; p_pending := p_pending p; p_disp := p_disp p; p_registered := p_registered p;
     p_buffer := p_buffer p; p_offset := p_offset p |}.
Definition p_signals (blocked pending : bool) (d : disposition) (registered : bool) (p : parent) : parent :=
  {| p_pc := p_pc p; p_blocked := blocked; p_pending := pending; p_disp := d; p_registered := registered;
     p_buffer := p_buffer p; p_offset := p_offset p |}.
Definition p_output (buffer : list N) (offset : nat) (p : parent) : parent :=
  {| p_pc := p_pc p; p_blocked := p_blocked p; p_pending := p_pending p; p_disp := p_disp p; p_registered := p_registered p;
     p_buffer := buffer; p_offset := offset |}.
Definition at_child (pc : cpc) (c : child) : child :=
  {| c_pc := pc; c_blocked := c_blocked c; c_pending := c_pending c; c_disp := c_disp c; c_group := c_group c; c_tied := c_tied c;
     c_ints := c_ints c; c_terms := c_terms c; c_failed := c_failed c; c_ran := c_ran c; c_out := c_out c |}.
Definition c_signals (blocked pending : bool) (d : disposition) (ints terms : nat) (c : child) : child :=
  {| c_pc := c_pc c; c_blocked := blocked; c_pending := pending; c_disp := d; c_group := c_group c; c_tied := c_tied c;
     c_ints := ints; c_terms := terms; c_failed := c_failed c; c_ran := c_ran c; c_out := c_out c |}.
Definition c_ties (group tied : bool) (c : child) : child :=
  {| c_pc := c_pc c; c_blocked := c_blocked c; c_pending := c_pending c; c_disp := c_disp c; c_group := group; c_tied := tied;
     c_ints := c_ints c; c_terms := c_terms c; c_failed := c_failed c; c_ran := c_ran c; c_out := c_out c |}.
Definition c_does (failed : option N) (ran : bool) (out : list N) (c : child) : child :=
  {| c_pc := c_pc c; c_blocked := c_blocked c; c_pending := c_pending c; c_disp := c_disp c; c_group := c_group c; c_tied := c_tied c;
     c_ints := c_ints c; c_terms := c_terms c; c_failed := failed; c_ran := ran; c_out := out |}.
Definition with_parent (p : parent) (s : sys) : sys :=
  {| s_parent := p; s_child := s_child s; s_errno := s_errno s; s_pipe := s_pipe s; s_stray := s_stray s |}.
Definition with_child (c : child) (s : sys) : sys :=
  {| s_parent := s_parent s; s_child := c; s_errno := s_errno s; s_pipe := s_pipe s; s_stray := s_stray s |}.
Definition stray (s : sys) : sys :=
  {| s_parent := s_parent s; s_child := s_child s; s_errno := s_errno s; s_pipe := s_pipe s; s_stray := true |}.
Definition with_pipes (e : option N) (l : list N) (s : sys) : sys :=
  {| s_parent := s_parent s; s_child := s_child s; s_errno := e; s_pipe := l; s_stray := s_stray s |}.

(** The child runs: it is there and has not ended. *)
Definition c_alive (c : child) : bool :=
  match c_pc c with CNone | CEnded _ | CReaped _ => false | _ => true end.
(** The parent is a process, also after RunCommand returned. *)
Definition p_alive (p : parent) : bool :=
  match p_pc p with PDead | PUndefined => false | _ => true end.

(** ** Signals *)

(** SIGINT to the child: kept while blocked, else its disposition. *)
Definition int_child (c : child) : child :=
  if negb (c_alive c) then c
  else if c_blocked c then c_signals true true (c_disp c) (c_ints c) (c_terms c) c
  else match c_disp c with
       | DDefault => at_child (CEnded (Signaled sigint)) c
       | DIgnore => c
       | DHandler => c_signals false (c_pending c) DHandler (S (c_ints c)) (c_terms c) c
       end.
(** SIGTERM by the death of the parent. Simplified: a command is only said to have got
    it, what it does with it is up to it. *)
Definition term_child (c : child) : child :=
  if negb (c_alive c) then c
  else match c_pc c with
       | CRun => c_signals (c_blocked c) (c_pending c) (c_disp c) (c_ints c) (S (c_terms c)) c
       | _ => at_child (CEnded (Signaled sigterm)) c
       end.
(** The parent ends by a signal: PR_SET_PDEATHSIG. *)
Definition die (s : sys) : sys :=
  let s' := with_parent (at_parent PDead (s_parent s)) s in
  if c_tied (s_child s) then with_child (term_child (s_child s)) s' else s'.

(** run_command.cc:140-149, HandleSignal: killpg. The group is there from setpgid of
    the child until the child is waited for (simplified: members of the group other
    than the child are left out). Without g_signal_handler it reads through a null
    pointer. *)
Definition handle_signal (s : sys) : sys :=
  if negb (p_registered (s_parent s)) then with_parent (at_parent PUndefined (s_parent s)) s
  else match c_pc (s_child s) with
       | CReaped _ => stray s
       | _ => if c_group (s_child s) then with_child (int_child (s_child s)) s else s
       end.
(** SIGINT to the parent. *)
Definition int_parent (s : sys) : sys :=
  let p := s_parent s in
  if negb (p_alive p) then s
  else if p_blocked p then with_parent (p_signals true true (p_disp p) (p_registered p) p) s
  else match p_disp p with
       | DDefault => die s
       | DIgnore => s
       | DHandler => handle_signal s
       end.
(** CTRL-C in the terminal: SIGINT to the parent and, if it is still in the group of
    the parent, to the child. *)
Definition int_terminal (s : sys) : sys :=
  int_parent (if c_group (s_child s) then s else with_child (int_child (s_child s)) s).

(** sigprocmask(SIG_UNBLOCK), line 104: what is pending is delivered before it
    returns. *)
Definition unblock_parent (s : sys) : sys :=
  let p := s_parent s in
  let s' := with_parent (at_parent PErrno (p_signals false false (p_disp p) (p_registered p) p)) s in
  if p_pending p then int_parent s' else s'.
Definition unblock_child (c : child) : child :=
  let c' := at_child CSetup (c_signals false false (c_disp c) (c_ints c) (c_terms c) c) in
  if c_pending c then int_child c' else c'.

(** ** Results *)

(** Lines 127-137, GetSignaledExitStatus, and 282-287. *)
Definition signaled_status (s : N) : Z := if (s =? sigterm) || (s =? sigint) then 0%Z else (- Z.of_N s)%Z.
Definition status_of (w : ending) : result :=
  match w with Exited n => RStatus (Z.of_N n) | Signaled s => RStatus (signaled_status s) end.

(** Lines 37-52, ReadFromFd: the vector is made 4096 longer before each read, and cut
    at the end. *)
Definition read_size : nat := 4096.
Definition resize (n : nat) (l : list N) : list N := firstn n (l ++ repeat 0 (n - List.length l)).
Definition store (off : nat) (chunk l : list N) : list N := firstn off l ++ chunk ++ skipn (off + List.length chunk) l.
Definition read_chunk (chunk : list N) (p : parent) : parent :=
  p_output (store (p_offset p) chunk (resize (p_offset p + read_size) (p_buffer p))) (p_offset p + List.length chunk) p.
Definition read_end (p : parent) : parent :=
  p_output (resize (p_offset p) (resize (p_offset p + read_size) (p_buffer p))) (p_offset p) p.
(** Where the read of the output starts: read_off = output->size(). *)
Definition read_start (p : parent) : parent := p_output (p_buffer p) (List.length (p_buffer p)) p.

(** A child just forked: SIGINT blocked and its disposition as in the parent, nothing
    pending. *)
Definition forked (p : parent) : child :=
  {| c_pc := CGroup; c_blocked := p_blocked p; c_pending := false; c_disp := p_disp p; c_group := false; c_tied := false;
     c_ints := 0; c_terms := 0; c_failed := None; c_ran := false; c_out := [] |}.

(** The write end of the errno pipe is closed: exec closed it (FD_CLOEXEC, lines 24-35)
    or the child ended; the parent closed its own (237). *)
Definition errno_closed (c : child) : bool :=
  match c_pc c with CQuit | CRun | CEnded _ | CReaped _ => true | _ => false end.

(** ** Steps *)

(** [want]: output is asked for; [room]: how much a pipe holds. *)
Section Steps.
Context (want : bool) (room : nat).

(** Of the parent. The output pipe is at its end when the child has ended (simplified: a
    command that closes stdout, or leaves it to another process, is left out). EINTR is left out, as each of the calls that can wait is done again
    then (lines 252, 262, 45, 278): the parent stays where it is. *)
Inductive parent_step : sys -> sys -> Prop :=
| step_no_pipe s : p_pc (s_parent s) = PBegin -> (* lines 174-188; no SigintHandler yet *)
    parent_step s (with_parent (at_parent (PDone RNothing) (s_parent s)) s)
| step_block s : p_pc (s_parent s) = PBegin -> (* lines 57-68, the constructor; the pipes before it do not matter *)
    parent_step s (with_parent (at_parent PFork (p_signals true (p_pending (s_parent s)) (p_disp (s_parent s))
      (p_registered (s_parent s)) (s_parent s))) s)
| step_fork s : p_pc (s_parent s) = PFork ->
    parent_step s (with_parent (at_parent PSigaction (s_parent s)) (with_child (forked (s_parent s)) s))
| step_no_fork s : p_pc (s_parent s) = PFork -> (* fork gives -1; in the end exit_status is read though waitpid(-1) did not set it *)
    parent_step s (with_parent (at_parent PUndefined (s_parent s)) s)
| step_sigaction s : p_pc (s_parent s) = PSigaction -> (* lines 74, 82-83 *)
    parent_step s (with_parent (at_parent PUnblock (p_signals (p_blocked (s_parent s)) (p_pending (s_parent s)) DHandler true
      (s_parent s))) s)
| step_unblock s : p_pc (s_parent s) = PUnblock -> parent_step s (unblock_parent s)
| step_errno s e : p_pc (s_parent s) = PErrno -> s_errno s = Some e -> (* lines 260-265 *)
    parent_step s (with_parent (at_parent (PReap e) (s_parent s)) s)
| step_no_errno s : p_pc (s_parent s) = PErrno -> s_errno s = None -> errno_closed (s_child s) = true -> (* line 269 *)
    parent_step s (with_parent (if want then read_start (at_parent POutput (s_parent s)) else at_parent PWait (s_parent s)) s)
| step_reap s e w : p_pc (s_parent s) = PReap e -> c_pc (s_child s) = CEnded w ->
    parent_step s (with_parent (at_parent (PLeave (RExec e)) (s_parent s)) (with_child (at_child (CReaped w) (s_child s)) s))
| step_read s chunk rest : p_pc (s_parent s) = POutput -> s_pipe s = chunk ++ rest ->
    (0 < List.length chunk <= read_size)%nat -> (* read gives what is there, at most so much *)
    parent_step s (with_pipes (s_errno s) rest (with_parent (read_chunk chunk (s_parent s)) s))
| step_read_end s : p_pc (s_parent s) = POutput -> s_pipe s = [] -> c_alive (s_child s) = false ->
    parent_step s (with_parent (at_parent PWait (read_end (s_parent s))) s)
| step_wait s w : p_pc (s_parent s) = PWait -> c_pc (s_child s) = CEnded w ->
    parent_step s (with_parent (at_parent (PLeave (status_of w)) (s_parent s)) (with_child (at_child (CReaped w) (s_child s)) s))
| step_leave s r : p_pc (s_parent s) = PLeave r -> (* the destructor, lines 108-122 *)
    parent_step s (with_parent (at_parent (PDone r) (p_signals (p_blocked (s_parent s)) (p_pending (s_parent s)) DIgnore false
      (s_parent s))) s).

(** Of the child before the command. *)
Inductive child_step : sys -> sys -> Prop :=
| step_group s : c_pc (s_child s) = CGroup -> (* setpgid(0, 0) *)
    child_step s (with_child (at_child CPrctl (c_ties true (c_tied (s_child s)) (s_child s))) s)
| step_prctl s : c_pc (s_child s) = CPrctl -> (* PR_SET_PDEATHSIG; a parent that is dead already is not noticed *)
    child_step s (with_child (at_child CUnblock (c_ties (c_group (s_child s)) true (s_child s))) s)
| step_child_unblock s : c_pc (s_child s) = CUnblock -> child_step s (with_child (unblock_child (s_child s)) s)
| step_setup s : c_pc (s_child s) = CSetup -> child_step s (with_child (at_child CExec (s_child s)) s)
| step_setup_fails s : c_pc (s_child s) = CSetup -> (* PLOG(FATAL) *)
    child_step s (with_child (at_child (CEnded (Signaled sigabrt)) (s_child s)) s)
| step_exec s : c_pc (s_child s) = CExec ->
    child_step s (with_child (at_child CRun (c_does None true (c_out (s_child s)) (s_child s))) s)
| step_exec_fails s e : c_pc (s_child s) = CExec ->
    child_step s (with_child (at_child (CWrite e) (c_does (Some e) (c_ran (s_child s)) (c_out (s_child s)) (s_child s))) s)
| step_write_errno s e : c_pc (s_child s) = CWrite e -> (* lines 229-232 *)
    child_step s (with_pipes (Some e) (s_pipe s) (with_child (at_child CQuit (s_child s)) s))
| step_quit s : c_pc (s_child s) = CQuit -> (* EXIT_FAILURE *)
    child_step s (with_child (at_child (CEnded (Exited 1)) (s_child s)) s).

(** Of the command, which is any program: it writes, chooses a disposition, exits. *)
Inductive command_step : sys -> sys -> Prop :=
| step_write s bytes : c_pc (s_child s) = CRun -> (want = true -> (List.length (s_pipe s ++ bytes) <= room)%nat) ->
    command_step s (with_pipes (s_errno s) (if want then s_pipe s ++ bytes else s_pipe s)
      (with_child (c_does (c_failed (s_child s)) (c_ran (s_child s)) (c_out (s_child s) ++ bytes) (s_child s)) s))
| step_choose s d : c_pc (s_child s) = CRun ->
    command_step s (with_child (c_signals (c_blocked (s_child s)) (c_pending (s_child s)) d (c_ints (s_child s)) (c_terms (s_child s))
      (s_child s)) s)
| step_exit s n : c_pc (s_child s) = CRun -> n < 256 -> command_step s (with_child (at_child (CEnded (Exited n)) (s_child s)) s).

(** From outside: SIGINT to the parent alone, CTRL-C, a signal that ends the child, or
    one that ends the parent (SIGKILL). *)
Inductive outside_step : sys -> sys -> Prop :=
| step_int s : outside_step s (int_parent s)
| step_terminal s : outside_step s (int_terminal s)
| step_killed s n : c_alive (s_child s) = true -> 0 < n <= 64 ->
    outside_step s (with_child (at_child (CEnded (Signaled n)) (s_child s)) s)
| step_crash s : p_alive (s_parent s) = true -> outside_step s (die s).

Inductive step (s s' : sys) : Prop :=
| by_parent : p_alive (s_parent s) = true -> parent_step s s' -> step s s'
| by_child : child_step s s' -> step s s'
| by_command : command_step s s' -> step s s'
| by_outside : outside_step s s' -> step s s'.

(** [d]: SIGINT as it is when RunCommand is called: default, or ignored after an earlier
    call. [buffer]: what is in the output vector. *)
Definition started (d : disposition) (buffer : list N) : sys :=
  {| s_parent := {| p_pc := PBegin; p_blocked := false; p_pending := false; p_disp := d; p_registered := false; p_buffer := buffer;
                    p_offset := 0 |};
     s_child := {| c_pc := CNone; c_blocked := false; c_pending := false; c_disp := d; c_group := false; c_tied := false;
                   c_ints := 0; c_terms := 0; c_failed := None; c_ran := false; c_out := [] |};
     s_errno := None; s_pipe := []; s_stray := false |}.

Inductive run (s : sys) : sys -> Prop :=
| run_here : run s s
| run_step s1 s2 : run s s1 -> step s1 s2 -> run s s2.
End Steps.
