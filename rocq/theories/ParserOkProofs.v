(** Proofs about the parser: when it comes to the end of the events; discarding. *)
From Verif Require Import Base BytesModel BytesProofs BytesMoreProofs TextModel TextProofs Assoc MapperModel MapperSpec MapperProofs
  MapperStepProofs ParserModel ParserSpec ParserMapperProofs ParserProofs ParserRunProofs ParserLoopProofs.
From Coq Require Import String Permutation.
Local Open Scope N_scope.
Local Open Scope list_scope.

Lemma collect_old real size : forall c old dels o dels',
  collect c real size old dels = (Some o, dels') ->
  old = Some o \/ (In o c /\ covers o real size && (size <? r_size o) = true).
Proof.
  induction c as [|e c IH]; intros old dels o dels' E; cbn in E; [left; congruence|].
  destruct (negb _); [destruct (IH _ _ _ _ E) as [|(? & ?)]; [now left|right; split; [now right|auto]]|].
  destruct old as [o'|].
  - destruct (IH _ _ _ _ E) as [|(? & ?)]; [now left|right; split; [now right|auto]].
  - destruct (covers e real size && (size <? r_size e)) eqn:C.
    + destruct (IH _ _ _ _ E) as [H|(? & ?)]; right; [injection H as <-; split; [now left|auto]|].
      split; [now right|auto].
    + destruct (IH _ _ _ _ E) as [H|(? & ?)]; [easy|right; split; [now right|auto]].
Qed.

Lemma clean_call page k h c m :
  page = 2 ^ k -> k < 64 -> Inv m -> m_align m = page -> call_ok c ->
  Permutation (map as_call (m_ranges m)) (pieces h) -> splits_at_pages page h c ->
  map_with_id m (c_start c) (c_size c) (c_id c) (c_off c) false
  = map_with_id m (c_start c) (c_size c) (c_id c) (c_off c) true.
Proof.
  intros Hp Hk I Ha (C1 & C2 & C3) P S. unfold map_with_id.
  destruct (bad_range _ _); auto. destruct (candidates m _ _) as [l| | | |] eqn:Ec; cbn [obind]; auto.
  destruct (collect l _ _ None []) as ([o|] & dels) eqn:Co; auto.
  destruct (collect_old _ _ _ _ _ _ _ Co) as [|(Ho & Cv)]; [easy|].
  apply (candidates_in 0 (fun _ => True) _ _ _ _ _ Ec) in Ho.
  assert (Ro : rok page o).
  { destruct I as (_ & (G & _) & _). rewrite Forall_forall in G. rewrite <- Ha. auto. }
  rewrite (covers_spec page) in Cv by auto.
  assert (Hin : In (as_call o) (pieces h)) by now apply (call_perm_in _ _ _ P).
  assert (Inside : inside c (as_call o)).
  { unfold strict in Cv. unfold inside, c_end. cbn. lia. }
  destruct (S _ Hin Inside) as (S1 & S2). destruct Ro as (R1 & R2 & R3 & R4).
  unfold strict in Cv. unfold c_end in *. cbn in S1, S2.
  unfold split_over. cbn [negb andb m_align m_ranges]. rewrite Ha.
  rewrite !(align_land page k) by auto.
  assert (B : r_real o < c_start c + 1 /\ c_start c + c_size c <= r_real o + r_size o) by (clear - Cv C1; lia).
  clear Cv Inside. destruct B as (B1 & B2).
  rewrite !w64_small by (clear - R2 B2; lia).
  set (g1 := sub64 (c_start c) (r_real o)).
  set (g2 := sub64 (r_real o + r_size o) (c_start c + c_size c)).
  assert (G1 : g1 = c_start c - r_real o) by (apply sub64_le; clear - B1 B2 R2 C1; lia).
  assert (G2 : g2 = r_real o + r_size o - (c_start c + c_size c)) by (apply sub64_le; clear - B2 R2; lia).
  clearbody g1 g2.
  replace (negb (page =? 0) && _) with false; auto.
  symmetry. apply andb_false_intro2. apply orb_false_intro.
  - destruct (g1 =? 0) eqn:E; auto. cbn [negb andb]. rewrite S1 by (apply N.eqb_neq in E; clear - E G1; lia). reflexivity.
  - destruct (g2 =? 0) eqn:E; auto. cbn [negb andb]. rewrite S2 by (apply N.eqb_neq in E; clear - E G2; lia). reflexivity.
Qed.

Section Run.
Variable cf : pconfig.
Variable evs : list pevent.
Hypothesis Hpage : page_ok (pc_page cf).
Let page := pc_page cf.
Let K := kept evs.

Lemma all_roomy_app h c : forall m, all_roomy m (h ++ [c]) -> all_roomy m h.
Proof.
  induction h as [|d h IH]; intros m H; [exact I|]. destruct H as (H1 & H2). split; auto.
Qed.

Lemma mapping_enters h c m mp :
  mapping_ok cf h c m -> run_calls (mkMapper [] page) h = Some mp ->
  exists mp', map_with_id mp (c_start c) (c_size c) (c_id c) (c_off c) (is_jit cf m) = Ok (true, mp') /\
    get_mapped mp' (c_start c) <> None.
Proof.
  intros (F & R & S) Hr. fold page in R, S.
  pose proof (page_align cf Hpage) as Al. fold page in Al.
  destruct (page_lt _ Hpage) as (k & Hp & Hk). fold page in Hp.
  destruct (run_spec _ _ (fresh_inv page Al) F R) as (mp' & E' & I' & A' & P').
  assert (F1 : Forall call_ok h) by (apply Forall_app in F; tauto).
  assert (Fc : call_ok c) by (apply Forall_app in F as (_ & F); now inversion F).
  destruct (run_spec _ _ (fresh_inv page Al) F1 (all_roomy_app _ _ _ R)) as (mp1 & E1 & I1 & A1 & P1).
  assert (mp1 = mp) by congruence. subst mp1.
  pose proof E' as E. rewrite run_snoc, Hr in E.
  destruct (map_with_id mp (c_start c) (c_size c) (c_id c) (c_off c) true) as [([|] & mp2)| | | |] eqn:M;
    try discriminate. injection E as ->.
  exists mp'. split.
  - destruct (is_jit cf m) eqn:J; auto. rewrite (clean_call page k h c mp); auto.
  - destruct (history_untouched page h c [] mp' (c_start c) Al F R E') as (mx & ->); try easy.
    + destruct Fc as (C1 & C2 & C3). unfold c_end in C2. lia.
    + destruct Fc as (C1 & C2 & C3). unfold in_call, c_end. lia.
Qed.

Lemma process_progress n s e :
  rel cf evs n s -> nth_error K n = Some e ->
  (known_event e = true -> is_mmap e = true ->
   let w := world_before evs n in
   let m := the_map (e_body e) in
   mapping_ok cf (space_of w (m_pid m)) (call_of (N.of_nat n) (kernel_image w e) m) m) ->
  exists r, process_event cf n (w_no_kernel (world_before evs n)) s = Ok r.
Proof.
  intros R Hn Ok_. pose proof (kept_row cf evs n s e R Hn) as Hrow.
  unfold process_event. rewrite Hrow. set (w := world_before evs n) in *.
  destruct (64 <=? e_type e) eqn:E64; [eauto|].
  destruct (e_type e =? 9) eqn:E9.
  { destruct (sample_of e) as [sm|] eqn:Hs.
    - assert (Hb : e_body e = PSample sm).
      { unfold sample_of in Hs. rewrite E9 in Hs. destruct (e_body e); try easy. congruence. }
      assert (Sp : spaces_ok cf evs n (w_space w) (count NSample s)) by exact (rl_spaces _ _ _ _ R).
      destruct (process_mapper_ok cf evs Hpage n w (s_pid sm) kernel_pid _ Sp)
        as (mp & s0 & P1 & P2 & P3 & P4 & P5 & P6 & P7 & P8).
      rewrite (map_sample_ok cf evs Hpage n (count NSample s) e new_info sm (space_of w (s_pid sm)) s0 mp); auto.
      cbn [obind]. eauto.
    - assert (Hb : map_sample cf n (count NSample s) = Ok (count NSample s)).
      { unfold map_sample. cbn [count ps_rows]. rewrite Hrow. unfold sample_of in Hs. rewrite E9 in Hs.
        now destruct (e_body e). }
      rewrite Hb. cbn [obind]. eauto. }
  fold (is_mmap e). destruct (is_mmap e) eqn:Hm.
  { set (m := the_map (e_body e)) in *. fold (kernel_image w e).
    assert (Ke : known_event e = true).
    { unfold known_event. unfold is_mmap in Hm. apply orb_prop in Hm as [H|H]; apply N.eqb_eq in H; rewrite H; reflexivity. }
    specialize (Ok_ Ke eq_refl). cbv zeta in Ok_.
    assert (Sp : spaces_ok cf evs n (w_space w) (count NMmap s)) by exact (rl_spaces _ _ _ _ R).
    destruct (map_mmap_ok cf evs Hpage n w m (kernel_image w e) _ Sp) as (mp & s0 & M1 & M2 & M3).
    cbv zeta in M3. rewrite M3.
    destruct (mapping_enters _ _ _ mp Ok_ M2) as (mp' & E1 & E2). rewrite E1. cbn [obind negb].
    destruct (pc_remap cf); [|cbn [obind]; eauto].
    destruct (get_mapped mp' _); [|easy]. cbn [obind]. eauto. }
  destruct (e_type e =? 7) eqn:E7.
  { destruct (the_fork (e_body e)) as (((pid & ppid) & tid) & ptid) eqn:Ef.
    unfold map_fork.
    set (s1 := if pair_eqb (ppid, ptid) (pid, tid) then count NFork s else _).
    destruct (ppid =? pid); [cbn [obind]; eauto|].
    assert (Sp : spaces_ok cf evs n (w_space w) s1).
    { assert (S1 : ps_rows s1 = ps_rows s /\ ps_dsos s1 = ps_dsos s /\ ps_mappers s1 = ps_mappers s).
      { unfold s1. destruct (pair_eqb _ _); auto. destruct (aget pair_eqb _ _); auto. }
      destruct S1 as (Sr & Sd & Sm).
      apply (spaces_mono cf evs n n _ s); auto; [|exact (rl_spaces _ _ _ _ R)].
      intros id _ (e1 & inf & pm & hh & d & H1). exists e1, inf, pm, hh, d. now rewrite Sr, Sd. }
    destruct (process_mapper_ok cf evs Hpage n w pid ppid _ Sp) as (mp & s0 & P1 & _).
    rewrite P1. cbn [obind]. eauto. }
  destruct (e_type e =? 4); [eauto|].
  destruct (e_type e =? 3) eqn:E3.
  { destruct (the_comm (e_body e)) as ((pid & tid) & comm) eqn:Ec.
    assert (Sp : spaces_ok cf evs n (w_space w) (count NComm s)) by exact (rl_spaces _ _ _ _ R).
    destruct (process_mapper_ok cf evs Hpage n w pid kernel_pid _ Sp) as (mp & s0 & P1 & _).
    rewrite P1. cbn [obind]. eauto. }
  destruct (e_type e =? 17); [eauto|]. destruct (existsb _ idle_types); eauto.
Qed.

Lemma known_prefix_nth l : forall n e,
  (forall j f, (j < n)%nat -> nth_error l j = Some f -> known_event f = true) ->
  nth_error l n = Some e -> known_event e = true -> nth_error (known_prefix l) n = Some e.
Proof.
  induction l as [|x l IH]; intros [|n] e H Hn He; cbn in Hn; try easy; cbn.
  - injection Hn as <-. now rewrite He.
  - rewrite (H O x) by (auto; lia). cbn. apply IH; auto.
    intros j f Hj Hf. apply (H (S j) f); auto. lia.
Qed.

Lemma process_rows_progress : mappings_ok cf evs -> forall k n s,
  rel cf evs n s -> (n + k = List.length K)%nat ->
  (forall j f, (j < n)%nat -> nth_error K j = Some f -> known_event f = true) ->
  exists r, process_rows cf k n (w_no_kernel (world_before evs n)) s = Ok r.
Proof.
  intros Hok. induction k as [|k IH]; intros n s R Hk Hkn; cbn [process_rows]; [eauto|].
  destruct (nth_error K n) as [e|] eqn:He.
  2:{ apply nth_error_None in He. lia. }
  destruct (process_progress n s e R He) as ((r & s1) & Pe).
  { intros Ke Hm. apply (Hok n e); auto. now apply known_prefix_nth. }
  rewrite Pe. cbn [obind]. pose proof (process_known cf evs Hpage n s e r s1 R He Pe) as P.
  destruct (known_event e) eqn:Ke.
  - destruct P as (-> & R1). apply IH; auto; [lia|].
    intros j f Hj Hf. destruct (Nat.eq_dec j n) as [->|]; [congruence|]. apply (Hkn j f); auto. lia.
  - destruct P as (-> & ->). eauto.
Qed.

Theorem process_events_progress : mappings_ok cf evs -> exists b s, process_events cf evs = Ok (b, s).
Proof.
  intros H. unfold process_events. cbv zeta.
  assert (L : List.length (ps_rows (start_state evs)) = List.length K).
  { cbn [start_state ps_rows]. unfold rows_of. apply map_length. }
  rewrite L. destruct (process_rows_progress H (List.length K) 0 _ (start_rel cf evs)) as ((b & s) & E); auto; [lia|].
  exists b, s. exact E.
Qed.
End Run.
