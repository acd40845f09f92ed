(** C63: sound mappings do not stop the parser. *)
From Verif Require Import Base BytesModel TextModel Assoc MapperModel MapperSpec MapperProps ParserModel ParserSpec
  ParserOkProofs ParserEndProofs.
Local Open Scope N_scope.
Local Open Scope list_scope.

Section Parser.
Variable cf : pconfig.
Hypothesis Page : pc_page cf = 4096.
Variable B : N.

Definition sound_pmap (m : pmap) : Prop :=
  0 < m_len m /\ m_start m + m_len m < two64 /\ m_start m mod 4096 = 0 /\ m_len m mod 4096 = 0 /\
  m_pgoff m mod 4096 = 0 /\ m_pgoff m < two64 /\ m_len m <= B.
Definition sound_pevent (e : pevent) : Prop := is_mmap e = true -> sound_pmap (the_map (e_body e)).
Definition good_call (c : call) : Prop :=
  call_ok c /\ c_start c mod 4096 = 0 /\ c_size c mod 4096 = 0 /\ c_size c <= B.

Lemma pages_sub a b : a mod 4096 = 0 -> b mod 4096 = 0 -> (a - b) mod 4096 = 0.
Proof.
  intros P Q. apply N.mod_divide in P; [|discriminate]. apply N.mod_divide in Q; [|discriminate]. apply N.mod_divide; [discriminate|].
  destruct P as (p & ->), Q as (q & ->). exists (p - q). nia.
Qed.
Lemma pages_sum a b : a mod 4096 = 0 -> b mod 4096 = 0 -> (a + b) mod 4096 = 0.
Proof. intros P Q. rewrite N.add_mod, P, Q by discriminate. reflexivity. Qed.

Lemma call_good i k m : sound_pmap m -> good_call (call_of i k m).
Proof.
  intros (S1 & S2 & S3 & S4 & S5 & S6 & S7). unfold call_of, good_call, call_ok, c_end.
  destruct k; [|cbn [c_start c_size c_off]; repeat split; try assumption; lia].
  rewrite (N.mod_small _ _ S2). destruct ((m_start m <? m_pgoff m) && (m_pgoff m <? m_start m + m_len m)) eqn:X;
    cbn [c_start c_size c_off]; [|repeat split; try assumption; unfold two64 in *; lia].
  apply andb_true_iff in X as (X & Y). apply N.ltb_lt in X. apply N.ltb_lt in Y.
  split; [unfold two64 in *; lia|]. split; [assumption|]. split; [|lia]. apply pages_sub; [now apply pages_sum|assumption].
Qed.

Definition mmaps (evs : list pevent) : nat := List.length (filter is_mmap evs).
Definition inv (n : nat) (w : world) : Prop :=
  forall pid h, w_space w pid = Some h -> Forall good_call h /\ (List.length h <= n)%nat.

Lemma inv_known n w pid par : inv n w -> Forall good_call (known_or w pid par) /\ (List.length (known_or w pid par) <= n)%nat.
Proof.
  intros I. unfold known_or. destruct (w_space w pid) eqn:E; [exact (I _ _ E)|].
  destruct (w_space w par) eqn:E1; [exact (I _ _ E1)|].
  destruct (w_space w kernel_pid) eqn:E2; [exact (I _ _ E2)|]. split; [constructor|cbn; lia].
Qed.
Lemma inv_note n w pid h : inv n w -> Forall good_call h -> (List.length h <= n)%nat -> inv n (note_space pid h w).
Proof.
  intros I F L q g. unfold note_space. cbn [w_space]. destruct (q =? pid); [|apply I]. intros E. injection E as <-. auto.
Qed.
Lemma inv_same n w w' : w_space w' = w_space w -> inv n w -> inv n w'.
Proof. intros E I q h. rewrite E. apply I. Qed.
Lemma inv_more n n' w : (n <= n')%nat -> inv n w -> inv n' w.
Proof. intros L I q h E. destruct (I q h E). split; auto. lia. Qed.

Lemma inv_see n w i e : inv n w -> sound_pevent e -> inv (n + mmaps [e]) (see i w e).
Proof.
  intros I S. unfold see. unfold mmaps. cbn [filter].
  destruct (sample_of e) as [sm|] eqn:Sa.
  { destruct (inv_known n w (s_pid sm) kernel_pid I) as (F & L). apply inv_more with n; [lia|]. now apply inv_note. }
  destruct (is_mmap e) eqn:M.
  - cbn [List.length]. set (m := the_map (e_body e)) in *. destruct (inv_known n w (m_pid m) kernel_pid I) as (F & L).
    eapply inv_same; [reflexivity|]. apply inv_note; [apply inv_more with n; [lia|exact I]| |].
    + apply Forall_app. split; [exact F|]. constructor; [|constructor]. apply call_good. exact (S M).
    + rewrite app_length. cbn [List.length]. unfold space_of. lia.
  - cbn [List.length]. rewrite Nat.add_0_r. destruct (e_type e =? 7).
    + destruct (the_fork (e_body e)) as (((pid, ppid), tid), ptid).
      assert (X : forall w', w_space w' = w_space w ->
                inv n (if ppid =? pid then w' else note_space pid (known_or w pid ppid) w')).
      { intros w' Ew. destruct (ppid =? pid); [now apply inv_same with w|]. destruct (inv_known n w pid ppid I).
        apply inv_note; auto. now apply inv_same with w. }
      destruct (w_command w (ppid, ptid)); apply X; reflexivity.
    + destruct (e_type e =? 3); [|exact I]. destruct (the_comm (e_body e)) as ((pid, tid), c).
      destruct (inv_known n w pid kernel_pid I). eapply inv_same; [reflexivity|]. now apply inv_note.
Qed.
Lemma inv_replay evs : forall n w i, inv n w -> Forall sound_pevent evs -> inv (n + mmaps evs) (replay i w evs).
Proof.
  induction evs as [|e evs IH]; intros n w i I F; cbn [replay]; [unfold mmaps; cbn; now rewrite Nat.add_0_r|].
  inversion F; subst. apply inv_more with (n + mmaps [e] + mmaps evs)%nat.
  - unfold mmaps. cbn [filter]. destruct (is_mmap e); cbn [List.length]; lia.
  - apply IH; auto. now apply inv_see.
Qed.

Lemma known_prefix_firstn evs : exists k, known_prefix evs = firstn k evs.
Proof.
  induction evs as [|e evs (k & IH)]; [now exists O|]. cbn [known_prefix]. destruct (known_event e).
  - exists (S k). cbn. now rewrite IH.
  - now exists O.
Qed.
Lemma mmaps_app a b : mmaps (a ++ b) = (mmaps a + mmaps b)%nat.
Proof. unfold mmaps. now rewrite filter_app, app_length. Qed.
Lemma kept_mmaps evs : mmaps (kept evs) = mmaps evs.
Proof.
  unfold mmaps, kept. induction evs as [|e evs IH]; [reflexivity|]. cbn [filter]. destruct (e_type e =? 68) eqn:T; cbn [negb].
  - apply N.eqb_eq in T. unfold is_mmap at 2. rewrite T. cbn. exact IH.
  - cbn [filter]. destruct (is_mmap e); cbn [List.length]; now rewrite IH.
Qed.

Lemma sound_mappings_ok evs :
  Forall sound_pevent evs -> N.of_nat (mmaps evs) * (B + 6 * 4096) < two64 -> mappings_ok cf evs.
Proof using Page.
  intros F R n e Hn M. cbn zeta. set (m := the_map (e_body e)). set (w := world_before evs n).
  assert (Hk : nth_error (kept evs) n = Some e).
  { destruct (known_prefix_firstn (kept evs)) as (k & K). unfold processed in Hn. rewrite K in Hn.
    destruct (Nat.lt_ge_cases n k) as [L|L].
    - rewrite <- (firstn_skipn k (kept evs)), nth_error_app1; [exact Hn|]. apply nth_error_Some. congruence.
    - assert (nth_error (firstn k (kept evs)) n = None) by (apply nth_error_None; rewrite firstn_length; lia). congruence. }
  assert (Fk : Forall sound_pevent (kept evs)).
  { rewrite Forall_forall in *. intros x I. apply filter_In in I. now apply F. }
  destruct (nth_error_split _ _ Hk) as (l1 & l2 & E & L1).
  assert (W : w = replay 0 first_world l1).
  { unfold w, world_before. rewrite E, <- L1, firstn_app, firstn_all, Nat.sub_diag. cbn [firstn]. now rewrite app_nil_r. }
  rewrite E in Fk. apply Forall_app in Fk as (F1 & F2). inversion F2 as [|? ? Se _]; subst.
  assert (I : inv (mmaps l1) w).
  { rewrite W. apply (inv_replay l1 0 first_world 0); auto. intros q h Q. discriminate Q. }
  destruct (inv_known _ w (m_pid m) kernel_pid I) as (Gh & Lh). fold (space_of w (m_pid m)) in Gh, Lh.
  set (c := call_of _ _ m). assert (Gc : good_call c) by (apply call_good; exact (Se M)).
  assert (Cnt : (mmaps l1 + 1 <= mmaps evs)%nat).
  { rewrite <- (kept_mmaps evs), E, mmaps_app. unfold mmaps at 3. cbn [filter]. rewrite M. cbn [List.length]. lia. }
  assert (All : Forall good_call (space_of w (m_pid m) ++ [c])) by (apply Forall_app; auto).
  assert (Ok1 : Forall call_ok (space_of w (m_pid m) ++ [c])).
  { rewrite Forall_forall in *. intros x Ix. exact (proj1 (All x Ix)). }
  split; [exact Ok1|]. split.
  - apply C12_bounded_histories_fit; [right; exists 12; rewrite Page; split; reflexivity|exact Ok1|].
    exists B. split; [intros x Ix; rewrite Forall_forall in All; apply (All x Ix)|]. rewrite app_length, Page. cbn [List.length].
    apply N.le_lt_trans with (2 := R). apply N.mul_le_mono_r. lia.
  - intros _ p _ _. rewrite Page. destruct Gc as (_ & G1 & G2 & _). split; intros _; [exact G1|]. unfold c_end. now apply pages_sum.
Qed.
Lemma sound_parsed evs :
  pc_discard cf = false ->
  Forall sound_pevent evs -> N.of_nat (mmaps evs) * (B + 6 * 4096) < two64 ->
  exists out, parse_raw_events cf evs = Ok out.
Proof using Page.
  intros D F R. assert (P : page_ok (pc_page cf)) by (exists 12; rewrite Page; split; [discriminate|reflexivity]).
  destruct (process_events_progress cf evs P (sound_mappings_ok evs F R)) as (b & s & E).
  unfold parse_raw_events. rewrite E. cbn [obind]. rewrite D. eauto.
Qed.
End Parser.
