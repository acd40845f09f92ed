(** C68: what signals do, and that RunCommand goes on. *)
From Verif Require Import Base CommandModel CommandSpec CommandProofs.
Local Open Scope N_scope.
Local Open Scope list_scope.

Section Steps.
Context (want : bool) (room : nat) (d : disposition) (buffer : list N).

(** ** The parent lives *)
Lemma handle_alive s : p_registered (s_parent s) = true -> s_parent (handle_signal s) = s_parent s.
Proof.
  intros R. unfold handle_signal. rewrite R. cbn [negb].
  destruct (c_pc (s_child s)); try reflexivity; destruct (c_group (s_child s)); reflexivity.
Qed.
Lemma int_kept s : d <> DHandler -> inv want d buffer s -> guarded s -> p_pc (s_parent (int_parent s)) = p_pc (s_parent s).
Proof.
  intros Hd [_ _ C] (G1 & G2). unfold int_parent. destruct (p_alive (s_parent s)) eqn:Al; cbn [negb]; [|reflexivity].
  destruct (p_blocked (s_parent s)) eqn:B; [reflexivity|].
  unfold signal_inv in C. unfold p_alive in Al.
  destruct (p_pc (s_parent s)) as [| | | | |e| | |r|r| |] eqn:P; try discriminate Al; try congruence.
  all: try (destruct C as (C1 & C2); congruence).
  - destruct C as (C1 & C2 & C3). rewrite C2, handle_alive by exact C3. exact P.
  - destruct C as (C1 & C2 & C3). rewrite C2, handle_alive by exact C3. exact P.
  - destruct C as (C1 & C2 & C3). rewrite C2, handle_alive by exact C3. exact P.
  - destruct C as (C1 & C2 & C3). rewrite C2, handle_alive by exact C3. exact P.
  - destruct C as (C1 & C2 & C3 & _). rewrite C2, handle_alive by exact C3. exact P.
  - destruct r; [| |]; try congruence; destruct C as (C1 & C2); rewrite C2; exact P.
Qed.

Lemma int_alive s : d <> DHandler -> inv want d buffer s -> guarded s -> p_alive (s_parent (int_parent s)) = p_alive (s_parent s).
Proof. intros Hd I G. unfold p_alive. now rewrite (int_kept _ Hd I G). Qed.
Lemma terminal_kept s : d <> DHandler -> inv want d buffer s -> guarded s -> p_pc (s_parent (int_terminal s)) = p_pc (s_parent s).
Proof.
  intros Hd I G. unfold int_terminal. destruct (c_group (s_child s)); [now apply int_kept|].
  rewrite int_kept; [reflexivity|exact Hd| |exact G]. apply inv_disturbed; [apply int_disturbed|exact I].
Qed.
Lemma unblock_kept s : inv want d buffer s -> p_pc (s_parent s) = PUnblock -> p_pc (s_parent (unblock_parent s)) = PErrno.
Proof.
  intros [_ _ C] P. unfold signal_inv in C. rewrite P in C. destruct C as (C1 & C2 & C3).
  unfold unblock_parent. destruct (p_pending (s_parent s)); [|reflexivity].
  unfold int_parent. cbn [with_parent s_parent p_alive at_parent p_pc negb p_blocked p_signals p_disp]. rewrite C2.
  rewrite handle_alive by exact C3. reflexivity.
Qed.
Lemma stays_alive s s' : d <> DHandler -> inv want d buffer s -> guarded s -> p_alive (s_parent s) = true -> step want room s s' ->
  p_alive (s_parent s') = true \/ s' = die s \/ (p_pc (s_parent s) = PFork /\ p_pc (s_parent s') = PUndefined).
Proof.
  intros Hd I G Al [_ St|St|St|St].
  - destruct St; try (left; reflexivity); try (left; cbn; unfold p_alive; cbn; rewrite H; reflexivity).
    + right. right. split; [exact H|reflexivity].
    + left. unfold p_alive. now rewrite (unblock_kept _ I H).
    + left. destruct want; reflexivity.
  - left. destruct St; exact Al.
  - left. destruct St; exact Al.
  - destruct St.
    + left. now rewrite (int_alive _ Hd I G).
    + left. unfold p_alive. rewrite (terminal_kept _ Hd I G). exact Al.
    + left. exact Al.
    + right. left. reflexivity.
Qed.
Lemma guarded_step s s' : guarded s -> p_alive (s_parent s') = true -> d <> DHandler -> inv want d buffer s -> step want room s s' -> guarded s'.
Proof.
  intros G Al Hd I [Al0 St|St|St|St].
  - destruct G as (G1 & G2). unfold guarded. destruct St; try congruence; try (split; discriminate).
    + rewrite (unblock_kept _ I H). split; discriminate.
    + destruct want; split; discriminate.
    + cbn. rewrite H. split; discriminate.
    + pose proof (i_signal _ _ _ _ I) as C. unfold signal_inv in C. rewrite H in C. destruct C as (_ & _ & _ & C).
      split; [discriminate|]. cbn. congruence.
  - destruct St; exact G.
  - destruct St; exact G.
  - destruct St.
    + unfold guarded. now rewrite (int_kept _ Hd I G).
    + unfold guarded. now rewrite (terminal_kept _ Hd I G).
    + exact G.
    + unfold die in Al. exfalso. destruct (c_tied (s_child s)); discriminate Al.
Qed.

(** ** Interrupts are passed on *)
Lemma child_int c : c_alive c = true ->
  let c' := int_child c in
  c_pending c' = true \/ c_ints c' = S (c_ints c) \/ c_alive c' = false \/ (c_disp c = DIgnore /\ c_blocked c = false).
Proof.
  intros Al. unfold int_child. rewrite Al. cbn [negb]. destruct (c_blocked c) eqn:B; [left; reflexivity|].
  destruct (c_disp c); [right; right; left; reflexivity|right; right; right; auto|right; left; reflexivity].
Qed.
Lemma alive_there c : c_alive c = true -> forall w, c_pc c <> CReaped w.
Proof. intros Al w P. unfold c_alive in Al. rewrite P in Al. discriminate. Qed.
Lemma handle_passes s : p_registered (s_parent s) = true -> c_group (s_child s) = true -> c_alive (s_child s) = true ->
  s_child (handle_signal s) = int_child (s_child s).
Proof.
  intros R Gr Al. unfold handle_signal. rewrite R, Gr. cbn [negb]. pose proof (alive_there _ Al) as X.
  destruct (c_pc (s_child s)) as [| | | | | | | | |w|w]; try reflexivity. now specialize (X w).
Qed.
Lemma waits_signal s : inv want d buffer s -> waits s ->
  p_alive (s_parent s) = true /\ p_blocked (s_parent s) = false /\ p_disp (s_parent s) = DHandler /\ p_registered (s_parent s) = true.
Proof.
  intros [_ _ C] W. unfold waits in W. unfold signal_inv in C. unfold p_alive. destruct (p_pc (s_parent s)); try contradiction; tauto.
Qed.
Lemma waits_int s : inv want d buffer s -> waits s -> c_group (s_child s) = true -> c_alive (s_child s) = true ->
  s_child (int_parent s) = int_child (s_child s).
Proof.
  intros I W Gr Al. destruct (waits_signal _ I W) as (A & B & D & R). unfold int_parent. rewrite A, B, D. cbn [negb].
  now apply handle_passes.
Qed.
Lemma group_closed s : csig d (s_child s) -> c_alive (s_child s) = true -> c_pc (s_child s) <> CGroup -> c_group (s_child s) = true.
Proof. unfold csig, c_alive. intros H Al N0. destruct (c_pc (s_child s)); try discriminate Al; try congruence; tauto. Qed.

(** ** A command that was interrupted before it started *)
Lemma int_never c : csig DDefault c -> c_alive c = true -> c_ran c = false -> c_pc c <> CRun ->
  let c' := int_child c in
  c_ran c' = false /\ (over c' \/ c_pending c' = true /\ c_blocked c' = true /\ c_disp c' = DDefault /\
   (c_pc c' = CGroup \/ c_pc c' = CPrctl \/ c_pc c' = CUnblock)).
Proof.
  intros S Al Rn N0. unfold int_child. rewrite Al. cbn [negb]. unfold csig, c_alive in *.
  destruct (c_pc c) eqn:P; try discriminate Al; try congruence; rewrite (proj1 S).
  all: try (split; [exact Rn|]; right; cbn; rewrite P; tauto).
  all: rewrite (proj1 (proj2 S)); split; [exact Rn|]; left; eexists; left; reflexivity.
Qed.
Lemma over_disturbed c c' : disturbed c c' -> over c -> over c'.
Proof.
  intros (_ & _ & _ & _ & P) (w & O). destruct P as [P|(Al & _)]; [exists w; now rewrite P|].
  unfold c_alive in Al. destruct O as [O|O]; rewrite O in Al; discriminate.
Qed.
Lemma never_disturbed c' s : disturbed (s_child s) c' ->
  (c_pc c' = c_pc (s_child s) -> c_pending (s_child s) = true -> c_blocked (s_child s) = true ->
    c_pending c' = true /\ c_blocked c' = true /\ c_disp c' = c_disp (s_child s)) ->
  forall s', s_child s' = c' -> never_starts s -> never_starts s'.
Proof.
  intros D K s' E (Rn & H). unfold never_starts. rewrite E. pose proof D as (_ & R & _ & _ & P).
  split; [congruence|]. destruct H as [H|(H1 & H2 & H3 & H4)]; [left; now apply (over_disturbed (s_child s))|].
  destruct P as [P|(_ & n & P)].
  - right. destruct (K P H1 H2) as (K1 & K2 & K3). rewrite K1, K2, K3, P. auto.
  - left. eexists. left. exact P.
Qed.
Lemma never_int s s' : s_child s' = int_child (s_child s) -> never_starts s -> never_starts s'.
Proof.
  intros E. apply (never_disturbed (int_child (s_child s))); [apply int_disturbed| |exact E].
  intros P H1 H2. unfold int_child in *. destruct (c_alive (s_child s)); cbn [negb] in *; [|auto]. rewrite H2 in *. auto.
Qed.
Lemma never_same s s' : s_child s' = s_child s -> never_starts s -> never_starts s'.
Proof. intros E. unfold never_starts. now rewrite E. Qed.
Lemma never_die s : never_starts s -> never_starts (die s).
Proof.
  intros H. unfold die. destruct (c_tied (s_child s)); [|now apply (never_same s)].
  revert H. apply (never_disturbed (term_child (s_child s))); [apply term_disturbed| |reflexivity].
  unfold term_child. destruct (c_alive (s_child s)) eqn:Al; cbn [negb]; [|auto].
  destruct (c_pc (s_child s)); cbn; auto.
Qed.
Lemma never_int_parent s : never_starts s -> never_starts (int_parent s).
Proof.
  intros H. unfold int_parent. destruct (p_alive (s_parent s)); cbn [negb]; [|exact H].
  destruct (p_blocked (s_parent s)); [now apply (never_same s)|]. destruct (p_disp (s_parent s)); [now apply never_die|exact H|].
  unfold handle_signal. destruct (p_registered (s_parent s)); cbn [negb]; [|now apply (never_same s)].
  destruct (c_pc (s_child s)); try (now apply (never_same s)).
  all: destruct (c_group (s_child s)); [now apply (never_int s)|now apply (never_same s)].
Qed.
Lemma never_step s s' : inv want d buffer s -> never_starts s -> step want room s s' -> never_starts s'.
Proof.
  intros I H [Al St|St|St|St].
  - destruct St; try (now apply (never_same s)).
    + pose proof (i_data _ _ _ _ I) as B. unfold data_inv in B. rewrite H0 in B. destruct B as (B & _).
      exfalso. destruct H as (_ & [(w & [O|O])|(_ & _ & _ & O)]); [congruence|congruence|]. destruct O as [O|[O|O]]; congruence.
    + unfold unblock_parent. destruct (p_pending (s_parent s)); [apply never_int_parent|]; now apply (never_same s).
    + destruct H as (R & H). split; [exact R|]. left. eexists. right. reflexivity.
    + destruct H as (R & H). split; [exact R|]. left. eexists. right. reflexivity.
  - destruct H as (R & [(w & [O|O])|(H1 & H2 & H3 & O)]); [destruct St; congruence|destruct St; congruence|].
    destruct St; try (destruct O as [O|[O|O]]; congruence).
    + split; [exact R|]. right. cbn. tauto.
    + split; [exact R|]. right. cbn. tauto.
    + unfold unblock_child. rewrite H1. unfold never_starts, int_child, over. cbn. rewrite H3. cbn. split; [exact R|]. left. eexists. left. reflexivity.
  - destruct H as (R & [(w & [O|O])|(H1 & H2 & H3 & O)]); destruct St; try congruence; destruct O as [O|[O|O]]; congruence.
  - destruct St.
    + now apply never_int_parent.
    + unfold int_terminal. apply never_int_parent. destruct (c_group (s_child s)); [exact H|now apply (never_int s)].
    + destruct H as (R & H). split; [exact R|]. left. eexists. left. reflexivity.
    + now apply never_die.
Qed.

(** ** RunCommand goes on *)
Definition prank (p : ppc) : nat :=
  match p with
  | PBegin => 22 | PFork => 21 | PSigaction => 6 | PUnblock => 5 | PErrno => 4 | PReap _ => 2 | POutput => 3 | PWait => 2 | PLeave _ => 1
  | PDone _ | PDead | PUndefined => 0
  end%nat.
Definition crank (c : cpc) : nat :=
  match c with
  | CGroup => 9 | CPrctl => 8 | CUnblock => 7 | CSetup => 6 | CExec => 5 | CWrite _ => 4 | CQuit => 3 | CRun => 2 | CEnded _ => 1
  | CNone | CReaped _ => 0
  end%nat.
Definition rank (s : sys) : nat := (prank (p_pc (s_parent s)) + crank (c_pc (s_child s)) + List.length (s_pipe s))%nat.
Lemma crank_disturbed c c' : disturbed c c' -> (crank (c_pc c') <= crank (c_pc c))%nat.
Proof.
  intros (_ & _ & _ & _ & [P|(Al & n & P)]); rewrite P; [lia|]. unfold c_alive in Al. destruct (c_pc c); try discriminate Al; cbn; lia.
Qed.
Lemma rank_int_parent s : (rank (int_parent s) <= rank s)%nat.
Proof.
  unfold int_parent. destruct (p_alive (s_parent s)) eqn:Al; cbn [negb]; [|lia].
  destruct (p_blocked (s_parent s)); [reflexivity|]. destruct (p_disp (s_parent s)); [|lia|].
  - unfold die, rank. pose proof (crank_disturbed _ _ (term_disturbed (s_child s))). destruct (c_tied (s_child s)); cbn; lia.
  - unfold handle_signal, rank. pose proof (crank_disturbed _ _ (int_disturbed (s_child s))).
    destruct (p_registered (s_parent s)); cbn [negb]; [|cbn; lia].
    destruct (c_pc (s_child s)) eqn:P; cbn; rewrite ?P; try lia.
    all: destruct (c_group (s_child s)); cbn [with_child s_child s_parent s_pipe]; rewrite ?P in *; cbn in *; lia.
Qed.
Lemma own_rank s s' : own_step want s s' -> (rank s' < rank s)%nat.
Proof.
  intros [_ St|St].
  - destruct St; unfold rank in *; cbn; try (rewrite ?H; cbn; lia).
    + unfold unblock_parent. rewrite H.
      set (s1 := with_parent _ _). assert (R1 : (rank s1 + 1 = rank s)%nat) by (unfold s1, rank; cbn; rewrite H; cbn; lia).
      pose proof (rank_int_parent s1). unfold rank in *. rewrite H in R1. destruct (p_pending (s_parent s)); lia.
    + rewrite H. destruct want; cbn; lia.
    + rewrite H, H0, ?app_length. cbn in *. lia.
  - destruct St; unfold rank; cbn; rewrite ?H; cbn; try lia.
    assert (L : (crank (c_pc (unblock_child (s_child s))) <= 6)%nat).
    { unfold unblock_child. set (c1 := at_child _ _). pose proof (crank_disturbed _ _ (int_disturbed c1)) as X.
      assert (Y : crank (c_pc c1) = 6%nat) by reflexivity. destruct (c_pending (s_child s)); lia. }
    lia.
Qed.
Lemma own_acc : forall s, Acc (fun s' s => own_step want s s') s.
Proof.
  intros s. remember (rank s) as n eqn:E. revert s E. induction n as [n IH] using lt_wf_ind. intros s ->.
  constructor. intros s' St. exact (IH _ (own_rank _ _ St) s' eq_refl).
Qed.
Lemma own_or s : inv want d buffer s -> p_alive (s_parent s) = true ->
  (exists r, returned s r) \/ (exists s', own_step want s s') \/ (c_pc (s_child s) = CRun /\ (p_pc (s_parent s) = POutput -> s_pipe s = [])).
Proof.
  intros [A B C] Al. unfold returned.
  destruct (p_pc (s_parent s)) as [| | | | |e| | |r|r| |] eqn:P;
    try (right; left; eexists; apply own_parent; [exact Al|]; econstructor; eassumption); try (unfold p_alive in Al; rewrite P in Al; discriminate Al).
  - (* the errno pipe *)
    right. destruct (s_errno s) as [e|] eqn:E; [left; eexists; apply own_parent; [exact Al|]; eapply step_errno; eassumption|].
    unfold data_inv in B. rewrite P in B. destruct B as ((B1 & B2) & _).
    destruct (c_pc (s_child s)) eqn:Q; try congruence; left.
    all: try (eexists; apply own_child; econstructor; eassumption).
    all: eexists; apply own_parent; [exact Al|]; apply step_no_errno; [exact P|exact E|unfold errno_closed; now rewrite Q].
  - right. unfold data_inv in B. rewrite P in B. destruct B as ((B1 & B2) & _ & B3). unfold child_inv in A.
    destruct (c_pc (s_child s)) eqn:Q; try congruence; try (left; eexists; apply own_child; econstructor; eassumption).
    + right. split; [reflexivity|discriminate].
    + left. eexists. apply own_parent; [exact Al|]. eapply step_reap; eassumption.
  - right. unfold data_inv in B. rewrite P in B. destruct B as ((B1 & B2) & _ & _).
    destruct (s_pipe s) as [|x l] eqn:L.
    + destruct (c_pc (s_child s)) eqn:Q; try congruence; try (left; eexists; apply own_child; econstructor; eassumption).
      * right. split; [reflexivity|reflexivity].
      * left. eexists. apply own_parent; [exact Al|]. apply step_read_end; [exact P|exact L|]. unfold c_alive. now rewrite Q.
    + left. eexists. apply own_parent; [exact Al|]. apply (step_read want s [x] l); [exact P|exact L|]. cbn. unfold read_size. lia.
  - right. unfold data_inv in B. rewrite P in B. destruct B as ((B1 & B2) & _).
    destruct (c_pc (s_child s)) eqn:Q; try congruence; try (left; eexists; apply own_child; econstructor; eassumption).
    + right. split; [reflexivity|discriminate].
    + left. eexists. apply own_parent; [exact Al|]. eapply step_wait; eassumption.
  - left. exists r. reflexivity.
Qed.
End Steps.
