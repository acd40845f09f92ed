(** C68: running a command (src/quipper/run_command.cc). *)
From Verif Require Import Base CommandModel CommandSpec CommandProofs CommandStepProofs.
Local Open Scope N_scope.
Local Open Scope list_scope.

Lemma told_status w : status_of w = RStatus (told w).
Proof.
  destruct w as [n|n]; [reflexivity|]. cbn. f_equal. unfold signaled_status, sigterm, sigint.
  destruct n as [|[[[[p|p|]|[p|p|]|]|[[p|p|]|[p|p|]|]|]|[[[p|p|]|[p|p|]|]|[[p|p|]|[p|p|]|]|]|]]; reflexivity.
Qed.

(** ** What is returned *)
(** Whatever the interleaving and the signals: when RunCommand has returned, the child
    has been waited for; -1 with an errno means that the command did not run and that
    exec failed so; else the result is the status of the child, and if exec failed
    then, a signal ended the child before it could say so. *)
Theorem C68_result want room d buffer s r :
  d <> DHandler -> run want room (started d buffer) s -> returned s r ->
  match r with
  | RNothing => c_pc (s_child s) = CNone
  | RExec e => (exists w, c_pc (s_child s) = CReaped w) /\ c_ran (s_child s) = false /\ c_failed (s_child s) = Some e
  | RStatus z => exists w, c_pc (s_child s) = CReaped w /\ z = told w /\
      (c_failed (s_child s) <> None -> c_ran (s_child s) = false /\ exists n, w = Signaled n)
  end.
Proof.
  intros Hd R T. destruct (inv_run _ _ _ _ _ Hd R) as [A B C]. unfold returned in T. unfold data_inv in B. rewrite T in B.
  unfold returning in B. destruct r as [e| |z].
  - destruct B as ((w & P) & E & _). unfold child_inv in A. rewrite P in A. destruct A as (_ & A2 & _ & A4).
    assert (F : c_failed (s_child s) = Some e) by (rewrite A4; congruence).
    split; [now exists w|]. split; [apply A2; congruence|exact F].
  - exact (proj1 B).
  - destruct B as ((w & P & Z) & E & _). unfold child_inv in A. rewrite P in A. destruct A as (A1 & A2 & _ & _).
    exists w. split; [exact P|]. rewrite told_status in Z. split; [congruence|]. intros F. split; [exact (A2 F)|].
    destruct A1 as [A1|(_ & A1)]; [congruence|exact A1].
Qed.

(** A command that ran and exited tells its exit status, and nothing else does. *)
Theorem C68_status want room d buffer s r :
  d <> DHandler -> run want room (started d buffer) s -> returned s r -> c_ran (s_child s) = true ->
  exists w, c_pc (s_child s) = CReaped w /\ r = RStatus (told w).
Proof.
  intros Hd R T Rn. pose proof (C68_result _ _ _ _ _ _ Hd R T) as X. destruct r as [e| |z].
  - destruct X as (_ & X & _). congruence.
  - destruct (inv_run _ _ _ _ _ Hd R) as [A _ _]. unfold child_inv in A. rewrite X in A. destruct A as (_ & A & _). congruence.
  - destruct X as (w & X & -> & _). now exists w.
Qed.

(** ** The output *)
(** All the command wrote is in the output, after what was in it before, however the
    pipe was read; without a status to return, or if no output is asked for, the output
    is as it was. *)
Theorem C68_output want room d buffer s r :
  d <> DHandler -> run want room (started d buffer) s -> returned s r ->
  p_buffer (s_parent s) = buffer ++ (if want then c_out (s_child s) else []) /\
  ((forall z, r <> RStatus z) -> p_buffer (s_parent s) = buffer).
Proof.
  intros Hd R T. destruct (inv_run _ _ _ _ _ Hd R) as [A B C]. unfold returned in T. unfold data_inv in B. rewrite T in B.
  unfold returning in B. destruct r as [e| |z].
  - destruct B as ((w & P) & E & B). unfold child_inv in A. rewrite P in A. destruct A as (_ & A2 & A3 & A4).
    rewrite A3; [|apply A2; rewrite A4; congruence]. rewrite B. split; [destruct want; now rewrite app_nil_r|auto].
  - destruct B as (P & B). unfold child_inv in A. rewrite P in A. destruct A as (_ & _ & A & _). rewrite A, B.
    split; [destruct want; now rewrite app_nil_r|auto].
  - destruct B as (_ & _ & B). split; [exact B|]. intros H. now specialize (H z).
Qed.

(** ** SIGINT does not end the parent *)
(** From the moment SIGINT is blocked, neither SIGINT to the parent nor CTRL-C moves
    it; only another signal or a failed fork ends it, and this stays so to the end of
    the process. *)
Theorem C68_survives want room d buffer s :
  d <> DHandler -> run want room (started d buffer) s -> guarded s ->
  p_pc (s_parent (int_parent s)) = p_pc (s_parent s) /\ p_pc (s_parent (int_terminal s)) = p_pc (s_parent s) /\
  (forall s', p_alive (s_parent s) = true -> step want room s s' ->
    (p_alive (s_parent s') = true /\ guarded s') \/ s' = die s \/ (p_pc (s_parent s) = PFork /\ p_pc (s_parent s') = PUndefined)).
Proof.
  intros Hd R G. pose proof (inv_run _ _ _ _ _ Hd R) as I.
  split; [now apply (int_kept want d buffer)|]. split; [now apply (terminal_kept want d buffer)|].
  intros s' Al St. destruct (stays_alive _ _ _ _ _ _ Hd I G Al St) as [X|X]; [|right; exact X].
  left. split; [exact X|]. exact (guarded_step _ _ _ _ _ _ G X Hd I St).
Qed.

(** ** SIGINT reaches the command *)
(** While RunCommand waits and the child is past setpgid, SIGINT to the parent and
    CTRL-C are passed on to the child, once; so is SIGINT that came earlier, when the
    parent takes signals again. *)
Theorem C68_forwarded want room d buffer s :
  d <> DHandler -> run want room (started d buffer) s -> c_alive (s_child s) = true -> c_pc (s_child s) <> CGroup ->
  (waits s ->
     passed_on s (int_parent s) /\ passed_on s (int_terminal s) /\
     (c_ints (s_child (int_terminal s)) <= S (c_ints (s_child s)))%nat) /\
  (p_pc (s_parent s) = PUnblock -> p_pending (s_parent s) = true -> passed_on s (unblock_parent s)).
Proof.
  intros Hd R Al N0. pose proof (inv_run _ _ _ _ _ Hd R) as I. pose proof (csig_run _ _ _ _ _ Hd R) as S.
  pose proof (group_closed d s S Al N0) as Gr. split.
  - intros W. assert (T : int_terminal s = int_parent s) by (unfold int_terminal; now rewrite Gr).
    rewrite T. unfold passed_on. rewrite (waits_int _ _ _ _ I W Gr Al). pose proof (child_int _ Al) as X.
    split; [exact X|]. split; [exact X|].
    unfold int_child. rewrite Al. cbn [negb]. destruct (c_blocked (s_child s)); [cbn; lia|]. destruct (c_disp (s_child s)); cbn; lia.
  - intros P Q. destruct I as [_ _ C]. unfold signal_inv in C. rewrite P in C. destruct C as (C1 & C2 & C3).
    unfold unblock_parent. rewrite Q. unfold int_parent. cbn [with_parent s_parent p_alive at_parent p_pc negb p_blocked p_signals p_disp].
    rewrite C2. unfold passed_on. rewrite handle_passes by assumption. cbn [with_parent s_child]. exact (child_int _ Al).
Qed.

(** Passed on before exec, SIGINT keeps the command from starting, for good. *)
Theorem C68_never_starts want room buffer s :
  run want room (started DDefault buffer) s -> waits s -> c_alive (s_child s) = true -> c_pc (s_child s) <> CGroup ->
  c_ran (s_child s) = false ->
  never_starts (int_parent s) /\ never_starts (int_terminal s).
Proof.
  intros R W Al N0 Rn. assert (Hd : DDefault <> DHandler) by discriminate.
  pose proof (inv_run _ _ _ _ _ Hd R) as I. pose proof (csig_run _ _ _ _ _ Hd R) as S.
  pose proof (group_closed _ s S Al N0) as Gr.
  assert (T : int_terminal s = int_parent s) by (unfold int_terminal; now rewrite Gr). rewrite T.
  assert (X : never_starts (int_parent s)); [|now split].
  unfold never_starts. rewrite (waits_int _ _ _ _ I W Gr Al). apply int_never; try assumption.
  intros P. pose proof (i_child _ _ _ _ I) as A. unfold child_inv in A. rewrite P in A. destruct A as (_ & A & _). congruence.
Qed.
Theorem C68_never_starts_later want room d buffer s s' :
  d <> DHandler -> run want room (started d buffer) s -> never_starts s -> run want room s s' -> c_ran (s_child s') = false.
Proof.
  intros Hd R H R'.
  enough (X : run want room (started d buffer) s' /\ never_starts s') by (destruct X as (_ & X & _); exact X).
  induction R' as [|s1 s2 R' IH St]; [now split|]. destruct IH as (IH1 & IH2).
  split; [eapply run_step; eassumption|]. exact (never_step _ _ _ _ _ _ (inv_run _ _ _ _ _ Hd IH1) IH2 St).
Qed.

(** ** RunCommand goes on *)
(** Its own steps cannot go on forever, from any state; and a step is there unless it
    has returned or the command runs, with nothing to read. So RunCommand returns once
    the command has ended, and a command with much to write is not held up. *)
Theorem C68_progress want room d buffer s :
  d <> DHandler -> run want room (started d buffer) s ->
  Acc (fun s' s => own_step want s s') s /\
  (p_alive (s_parent s) = true -> (exists r, returned s r) \/ (exists s', own_step want s s') \/ command_runs s).
Proof.
  intros Hd R. split; [apply own_acc|]. intros Al. exact (own_or _ _ _ _ (inv_run _ _ _ _ _ Hd R) Al).
Qed.

(** ** No command without parent *)
(** A child past prctl learns of the death of the parent. *)
Theorem C68_tied want room d buffer s :
  d <> DHandler -> run want room (started d buffer) s -> c_alive (s_child s) = true ->
  c_pc (s_child s) <> CGroup -> c_pc (s_child s) <> CPrctl -> learns_death s.
Proof.
  intros Hd R Al N1 N2. pose proof (csig_run _ _ _ _ _ Hd R) as S.
  assert (T : c_tied (s_child s) = true).
  { unfold csig in S. unfold c_alive in Al. destruct (c_pc (s_child s)); try discriminate Al; try congruence; tauto. }
  unfold learns_death, die. rewrite T. cbn [with_child s_child]. unfold term_child. rewrite Al. cbn [negb].
  destruct (c_pc (s_child s)); try (left; reflexivity). right. reflexivity.
Qed.

(** ** What does not hold *)
Ltac adv R tac :=
  match type of R with run ?w ?r ?a ?s =>
    let R' := fresh "R'" in
    eassert (R' : run w r a _) by (eapply run_step; [exact R|tac]); vm_compute in R'; clear R; rename R' into R end.
Ltac parent c := apply by_parent; [reflexivity|eapply c; try reflexivity].
Ltac own c := apply by_child; eapply c; try reflexivity.
Ltac begin w r d b R := pose proof (run_here w r (started d b)) as R; vm_compute in R.

(** SIGINT that comes when the parent takes signals again but the child has not yet
    called setpgid is lost: the process group is not there yet. *)
Theorem C68_interrupt_lost_refuted :
  ~ (forall want room d buffer s, d <> DHandler -> run want room (started d buffer) s -> waits s -> c_alive (s_child s) = true ->
       passed_on s (int_parent s)).
Proof.
  intros H. begin false 0%nat DDefault (@nil N) R.
  adv R ltac:(parent step_block). adv R ltac:(parent step_fork). adv R ltac:(parent step_sigaction). adv R ltac:(parent step_unblock).
  specialize (H false 0%nat DDefault [] _ ltac:(discriminate) R Logic.I eq_refl). vm_compute in H.
  destruct H as [H|[H|[H|(H & _)]]]; discriminate.
Qed.

(** RunCommand may return 0 for a command that never ran. *)
Theorem C68_success_unrun_refuted :
  ~ (forall want room d buffer s, d <> DHandler -> run want room (started d buffer) s -> returned s (RStatus 0) ->
       c_ran (s_child s) = true).
Proof.
  intros H. begin false 0%nat DDefault (@nil N) R.
  adv R ltac:(parent step_block). adv R ltac:(parent step_fork). adv R ltac:(parent step_sigaction). adv R ltac:(parent step_unblock).
  adv R ltac:(own step_group). adv R ltac:(apply by_outside; apply step_int). adv R ltac:(own step_prctl).
  adv R ltac:(own step_child_unblock). adv R ltac:(parent step_no_errno). adv R ltac:(parent step_wait). adv R ltac:(parent step_leave).
  specialize (H false 0%nat DDefault [] _ ltac:(discriminate) R eq_refl). vm_compute in H. discriminate.
Qed.

(** A parent that dies before the child has called prctl leaves it running. *)
Theorem C68_orphan_refuted :
  ~ (forall want room d buffer s, d <> DHandler -> run want room (started d buffer) s -> p_alive (s_parent s) = true ->
       c_alive (s_child s) = true -> learns_death s).
Proof.
  intros H. begin false 0%nat DDefault (@nil N) R.
  adv R ltac:(parent step_block). adv R ltac:(parent step_fork). adv R ltac:(own step_group).
  specialize (H false 0%nat DDefault [] _ ltac:(discriminate) R eq_refl eq_refl). vm_compute in H.
  destruct H as [H|H]; discriminate.
Qed.

(** A fork that fails is not noticed, and a status that was never set is looked at. *)
Theorem C68_fork_failure_refuted :
  ~ (forall want room d buffer s, d <> DHandler -> run want room (started d buffer) s -> p_pc (s_parent s) <> PUndefined).
Proof.
  intros H. begin false 0%nat DDefault (@nil N) R.
  adv R ltac:(parent step_block). adv R ltac:(parent step_no_fork).
  exact (H false 0%nat DDefault [] _ ltac:(discriminate) R eq_refl).
Qed.

(** In a later call SIGINT is ignored already, and so it is in the child: SIGINT does
    not keep the command from starting. *)
Theorem C68_second_call_refuted :
  ~ (forall want room d buffer s, d <> DHandler -> run want room (started d buffer) s -> waits s -> c_alive (s_child s) = true ->
       c_pc (s_child s) <> CGroup -> c_ran (s_child s) = false -> never_starts (int_parent s)).
Proof.
  intros H. begin false 0%nat DIgnore (@nil N) R.
  adv R ltac:(parent step_block). adv R ltac:(parent step_fork). adv R ltac:(parent step_sigaction). adv R ltac:(parent step_unblock).
  adv R ltac:(own step_group). adv R ltac:(own step_prctl). adv R ltac:(own step_child_unblock).
  specialize (H false 0%nat DIgnore [] _ ltac:(discriminate) R Logic.I eq_refl ltac:(discriminate) eq_refl). vm_compute in H.
  destruct H as (_ & [(w & [H|H])|(H & _)]); discriminate.
Qed.

(** SIGINT may be sent to a process group that is not the command's any more. *)
Theorem C68_stale_group_refuted :
  ~ (forall want room d buffer s, d <> DHandler -> run want room (started d buffer) s -> s_stray s = false).
Proof.
  intros H. begin false 0%nat DDefault (@nil N) R.
  adv R ltac:(parent step_block). adv R ltac:(parent step_fork). adv R ltac:(parent step_sigaction). adv R ltac:(parent step_unblock).
  adv R ltac:(own step_group). adv R ltac:(own step_prctl). adv R ltac:(own step_child_unblock). adv R ltac:(own step_setup).
  adv R ltac:(own step_exec). adv R ltac:(parent step_no_errno).
  adv R ltac:(apply by_command; apply (step_exit _ _ _ 0); reflexivity).
  adv R ltac:(parent step_wait). adv R ltac:(apply by_outside; apply step_int).
  specialize (H false 0%nat DDefault [] _ ltac:(discriminate) R). vm_compute in H. discriminate.
Qed.

(** ** Examples *)
(** A command that writes [1 2], then [3], is interrupted, and exits with status 7:
    the output is appended to what was there. *)
Example C68_example : exists s,
  run true 4096 (started DDefault [9]) s /\ returned s (RStatus 7) /\ c_ran (s_child s) = true /\
  p_buffer (s_parent s) = [9; 1; 2; 3] /\ c_ints (s_child s) = 1%nat.
Proof.
  begin true 4096%nat DDefault [9] R.
  adv R ltac:(parent step_block). adv R ltac:(parent step_fork). adv R ltac:(own step_group). adv R ltac:(parent step_sigaction).
  adv R ltac:(own step_prctl). adv R ltac:(parent step_unblock). adv R ltac:(own step_child_unblock). adv R ltac:(own step_setup).
  adv R ltac:(own step_exec). adv R ltac:(apply by_command; apply (step_choose _ _ _ DHandler); reflexivity).
  adv R ltac:(apply by_command; apply (step_write _ _ _ [1; 2]); [reflexivity|cbn; lia]).
  adv R ltac:(parent step_no_errno).
  adv R ltac:(apply by_parent; [reflexivity|apply (step_read _ _ [1] [2]); [reflexivity|reflexivity|cbn; unfold read_size; lia]]).
  adv R ltac:(apply by_outside; apply step_terminal).
  adv R ltac:(apply by_command; apply (step_write _ _ _ [3]); [reflexivity|cbn; lia]).
  adv R ltac:(apply by_command; apply (step_exit _ _ _ 7); reflexivity).
  adv R ltac:(apply by_parent; [reflexivity|apply (step_read _ _ [2; 3] []); [reflexivity|reflexivity|cbn; unfold read_size; lia]]).
  adv R ltac:(parent step_read_end). adv R ltac:(parent step_wait). adv R ltac:(parent step_leave).
  eexists. split; [exact R|]. now repeat split.
Qed.
(** A command that is not there: -1 with the errno of exec. *)
Example C68_example_no_command : exists s,
  run true 4096 (started DDefault [9]) s /\ returned s (RExec 2) /\ p_buffer (s_parent s) = [9].
Proof.
  begin true 4096%nat DDefault [9] R.
  adv R ltac:(parent step_block). adv R ltac:(parent step_fork). adv R ltac:(own step_group). adv R ltac:(parent step_sigaction).
  adv R ltac:(own step_prctl). adv R ltac:(parent step_unblock). adv R ltac:(own step_child_unblock). adv R ltac:(own step_setup).
  adv R ltac:(apply by_child; apply (step_exec_fails _ 2); reflexivity). adv R ltac:(own step_write_errno).
  adv R ltac:(parent step_errno). adv R ltac:(own step_quit). adv R ltac:(parent step_reap). adv R ltac:(parent step_leave).
  eexists. split; [exact R|]. now repeat split.
Qed.
(** Interrupted while it waits and before exec (C68_survives, C68_forwarded,
    C68_never_starts, C68_tied). *)
Example C68_example_waiting : exists s,
  run true 4096 (started DDefault [9]) s /\ waits s /\ guarded s /\ c_alive (s_child s) = true /\ c_pc (s_child s) = CExec /\
  c_ran (s_child s) = false.
Proof.
  begin true 4096%nat DDefault [9] R.
  adv R ltac:(parent step_block). adv R ltac:(parent step_fork). adv R ltac:(own step_group). adv R ltac:(parent step_sigaction).
  adv R ltac:(own step_prctl). adv R ltac:(parent step_unblock). adv R ltac:(own step_child_unblock). adv R ltac:(own step_setup).
  eexists. split; [exact R|]. repeat split; discriminate.
Qed.

Print Assumptions C68_result.
Print Assumptions C68_status.
Print Assumptions C68_output.
Print Assumptions C68_survives.
Print Assumptions C68_forwarded.
Print Assumptions C68_never_starts.
Print Assumptions C68_never_starts_later.
Print Assumptions C68_progress.
Print Assumptions C68_tied.
Print Assumptions C68_interrupt_lost_refuted.
Print Assumptions C68_success_unrun_refuted.
Print Assumptions C68_orphan_refuted.
Print Assumptions C68_fork_failure_refuted.
Print Assumptions C68_second_call_refuted.
Print Assumptions C68_stale_group_refuted.
