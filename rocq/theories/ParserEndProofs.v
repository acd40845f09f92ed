(** Proofs about the parser: places, marks, and what is handed back. *)
From Verif Require Import Base BytesModel BytesProofs BytesMoreProofs TextModel TextProofs Assoc MapperModel
  MapperSpec MapperProofs MapperPlaceProofs MapperStepProofs ParserModel ParserSpec ParserMapperProofs ParserProofs
  ParserRunProofs ParserLoopProofs ParserOkProofs.
From Coq Require Import String Permutation.
Local Open Scope N_scope.
Local Open Scope list_scope.

(** * Synthetic addresses below a bound *)

Lemma bounded_top B h : forall m n m',
  Inv m -> Forall call_ok h -> (forall c, In c h -> c_size c <= B) ->
  (forall e, In e (m_ranges m) -> r_size e <= B) ->
  top_of (m_ranges m) <= n * (B + 6 * m_align m) ->
  (n + N.of_nat (List.length h)) * (B + 6 * m_align m) < two64 ->
  run_calls m h = Some m' ->
  top_of (m_ranges m') <= (n + N.of_nat (List.length h)) * (B + 6 * m_align m).
Proof.
  induction h as [|c h IH]; intros m n m' I F HB HM Ht Hn E.
  { injection E as <-. cbn. now rewrite N.add_0_r. }
  inversion F as [|? ? Hc Fh]; subst.
  assert (R : roomy m c) by (eapply (bounded_roomy B (c :: h) m n); eauto).
  destruct (step_spec m c I Hc R) as (m1 & E1 & I1 & A1 & P1 & k & Hk & T1).
  cbn [run_calls] in E. rewrite E1 in E.
  assert (HkB : k <= B).
  { destruct Hk as [->|(e & He & ->)]; [apply HB; now left|auto]. }
  assert (G : top_of (m_ranges m') <= (n + 1 + N.of_nat (List.length h)) * (B + 6 * m_align m1)).
  { apply (IH m1 (n + 1)); auto.
    - intros d Hd. apply HB. now right.
    - intros e He. apply (call_perm_in _ _ _ P1) in He. destruct He as [He|He].
      + assert (c_size c = r_size e) by exact (f_equal c_size He).
        specialize (HB c (or_introl eq_refl)). lia.
      + apply in_flat_map in He as (f & Hf & He). apply in_map_iff in Hf as (g & <- & Hg).
        specialize (HM g Hg). unfold cut in He.
        destruct (negb (overlapb (as_call g) c)).
        * destruct He as [He|[]]. assert (r_size g = r_size e) by exact (f_equal c_size He). lia.
        * destruct ((_ && _) && _) eqn:S; [|easy]. unfold c_end in *. cbn in S.
          apply in_app_or in He as [He|He]; destruct (_ <? _) eqn:L in He; try easy;
            destruct He as [He|[]]; pose proof (f_equal c_size He) as X; cbn in X; cbn in L; lia.
    - rewrite A1. nia.
    - rewrite A1. cbn [List.length] in Hn. nia. }
  rewrite A1 in G. cbn [List.length]. nia.
Qed.

Lemma small_roomy a h : align_ok a -> Forall call_ok h -> small_history a h -> all_roomy (mkMapper [] a) h.
Proof.
  intros Ha F (B & HB & Hn). apply fits_roomy; auto. exists B. split; auto.
  unfold two64. change (2 ^ 63) with 9223372036854775808 in Hn. lia.
Qed.

Lemma small_low a h m x mx i o :
  align_ok a -> Forall call_ok h -> small_history a h ->
  run_calls (mkMapper [] a) h = Some m -> x < two64 -> get_mapped m x = Some (mx, i, o) -> mx < 2 ^ 63.
Proof.
  intros Ha F S E Hx G. pose proof (small_roomy a h Ha F S) as R. destruct S as (B & HB & Hn).
  destruct (run_spec h _ (fresh_inv a Ha) F R) as (m' & E' & I & _ & P).
  assert (m' = m) by congruence. subst m'.
  assert (T : top_of (m_ranges m) <= (0 + N.of_nat (List.length h)) * (B + 6 * a)).
  { apply (bounded_top B h (mkMapper [] a)); auto; [now apply fresh_inv|easy|cbn; lia|].
    cbn [m_align]. unfold two64. change (2 ^ 63) with 9223372036854775808 in Hn. lia. }
  unfold get_mapped in G. pose proof (range_containing_spec m x I Hx) as C.
  destruct (range_containing m x) as [e|]; [|easy]. destruct C as (He & Hr). injection G as <- _ _.
  pose proof (top_in _ _ He) as Te. rewrite N.add_0_l in T.
  rewrite sub64_le by lia. assert (M : x - r_real e + r_mapped e < 2 ^ 63) by lia.
  rewrite w64_small; auto. unfold two64. change (2 ^ 63) with 9223372036854775808 in M. lia.
Qed.

Lemma marked_high a : 2 ^ 63 <= marked a < two64.
Proof.
  unfold marked. assert (a mod 2 ^ 60 < 2 ^ 60) by (apply N.mod_lt; discriminate).
  unfold two64. change (8 * 2 ^ 60) with (2 ^ 63).
  change (2 ^ 60) with 1152921504606846976 in *. change (2 ^ 63) with 9223372036854775808. lia.
Qed.

(** * Address spaces met on the way *)
Section Run.
Variable cf : pconfig.
Variable evs : list pevent.
Hypothesis Hpage : page_ok (pc_page cf).
Hypothesis Hok : mappings_ok cf evs.
Let page := pc_page cf.
Let K := kept evs.

Definition good (h : list call) : Prop := Forall call_ok h /\ all_roomy (mkMapper [] page) h.

Lemma good_nil : good [].
Proof. split; [constructor|exact I]. Qed.

Definition good_world (w : world) : Prop := forall pid h, w_space w pid = Some h -> good h.

Lemma good_or w pid q : good_world w -> good (known_or w pid q).
Proof.
  intros G. unfold known_or. destruct (w_space w pid) eqn:E1; [eauto|].
  destruct (w_space w q) eqn:E2; [eauto|]. destruct (w_space w kernel_pid) eqn:E3; [eauto|]. apply good_nil.
Qed.
Lemma good_note pid h w : good h -> good_world w -> good_world (note_space pid h w).
Proof. intros Hh G q g. cbn. destruct (q =? pid); [intros E; injection E as <-; auto|apply G]. Qed.
Lemma good_command pid tid c w : good_world w -> good_world (note_command pid tid c w).
Proof. intros G q g. cbn. apply G. Qed.

Lemma processed_nth n e : nth_error (processed evs) n = Some e -> nth_error K n = Some e.
Proof.
  unfold processed. fold K. revert n. generalize K. intros l. induction l as [|x l IH]; intros n H; [now destruct n|].
  cbn in H. destruct (known_event x); [|now destruct n]. destruct n; auto. cbn in *. auto.
Qed.

Lemma worlds_good : forall n, (n <= List.length (processed evs))%nat -> good_world (world_before evs n).
Proof.
  induction n as [|n IH]; intros Hn.
  - intros pid h H. discriminate H.
  - assert (G : good_world (world_before evs n)) by (apply IH; lia).
    destruct (nth_error (processed evs) n) as [e|] eqn:He.
    2:{ apply nth_error_None in He. lia. }
    pose proof (processed_nth n e He) as Hk.
    rewrite (world_step evs n e Hk). set (w := world_before evs n) in *.
    unfold see. destruct (sample_of e) as [sm|] eqn:Hs.
    + apply good_note; auto. now apply good_or.
    + destruct (is_mmap e) eqn:Hm.
      * pose proof (Hok n e He Hm) as M. cbv zeta in M. fold w in M. destruct M as (M1 & M2 & _).
        intros q g. cbn. destruct (q =? _); [intros E; injection E as <-; split; auto|apply G].
      * destruct (e_type e =? 7).
        { destruct (the_fork (e_body e)) as (((pid & ppid) & tid) & ptid).
          assert (G' : good_world (match w_command w (ppid, ptid) with
                                   | Some c => note_command pid tid c w | None => w end)).
          { destruct (w_command w _); auto; now apply good_command. }
          destruct (ppid =? pid); auto. apply good_note; auto. now apply good_or. }
        destruct (e_type e =? 3); auto.
        destruct (the_comm (e_body e)) as ((pid & tid) & c).
        apply good_command, good_note; auto. now apply good_or.
Qed.

Lemma spaces_good n pid : (n <= List.length (processed evs))%nat -> good (space_of (world_before evs n) pid).
Proof. intros Hn. apply good_or. now apply worlds_good. Qed.

Lemma place_pieces n pid a : (n <= List.length (processed evs))%nat -> a < two64 ->
  let h := space_of (world_before evs n) pid in place_of evs page h a = place_in evs h a.
Proof.
  intros Hn Ha h. destruct (spaces_good n pid Hn) as (F & R). fold h in F, R.
  pose proof (page_align cf Hpage) as Al.
  destruct (history_succeeds page h Al F R) as (m & E).
  pose proof (history_lookup page h m a Al F R E Ha) as L.
  unfold place_of, place_in. rewrite (lookup_known page h m a E). rewrite <- L.
  destruct (get_mapped m a) as [((x & i) & o)|]; reflexivity.
Qed.
End Run.

(** * Injectivity and marks *)
Section Translate.
Variable cf : pconfig.
Hypothesis Hpage : page_ok (pc_page cf).
Let page := pc_page cf.
Variable h : list call.
Hypothesis F : Forall call_ok h.

Lemma lookup_resolve a : all_roomy (mkMapper [] page) h -> a < two64 ->
  option_map (fun '(_, i, o) => (i, o)) (lookup page h a) = resolve (pieces h) a.
Proof.
  intros R Ha. pose proof (page_align cf Hpage) as Al. destruct (history_succeeds page h Al F R) as (m & E).
  rewrite (lookup_known page h m a E). apply (history_lookup page h m a); auto.
Qed.

Lemma translate_injective a b :
  pc_remap cf = true -> all_roomy (mkMapper [] page) h -> a < two64 -> b < two64 ->
  resolve (pieces h) a <> None -> resolve (pieces h) b <> None ->
  translate cf h a = translate cf h b -> a = b.
Proof.
  intros Rm R Ha Hb Ra Rb. rewrite <- (lookup_resolve a R Ha) in Ra. rewrite <- (lookup_resolve b R Hb) in Rb.
  unfold translate. rewrite Rm. fold page.
  pose proof (page_align cf Hpage) as Al. destruct (history_succeeds page h Al F R) as (m & E).
  rewrite !(lookup_known page h m _ E) in *.
  destruct (get_mapped m a) as [((x & i) & o)|] eqn:Ga; [|easy].
  destruct (get_mapped m b) as [((y & j) & q)|] eqn:Gb; [|easy].
  intros <-. destruct (N.eq_dec a b) as [|Hne]; auto. exfalso.
  exact (history_injective page h m a b x i o x j q Al F R E Ha Hb Hne Ga Gb eq_refl).
Qed.

Lemma translate_distance a b c :
  pc_remap cf = true -> all_roomy (mkMapper [] page) h -> a <= b -> b < two64 ->
  In c (pieces h) -> in_call a c -> in_call b c -> translate cf h b = translate cf h a + (b - a).
Proof.
  intros Rm R Hab Hb Hc Ia Ib. unfold translate. rewrite Rm. fold page.
  pose proof (page_align cf Hpage) as Al. destruct (run_spec h _ (fresh_inv page Al) F R) as (m & E & I & _ & P).
  cbn [m_ranges map] in P.
  assert (Ga := resolve_in m (pieces h) a c I P Hc Ia). assert (Gb := resolve_in m (pieces h) b c I P Hc Ib).
  rewrite <- (lookup_resolve a R) in Ga by lia. rewrite <- (lookup_resolve b R) in Gb by lia.
  rewrite !(lookup_known page h m _ E) in *.
  destruct (get_mapped m a) as [((x & i) & o)|] eqn:Ga'; [|easy].
  destruct (get_mapped m b) as [((y & j) & q)|] eqn:Gb'; [|easy].
  exact (history_distance page h m c a b x i o y j q Al F R E Hab Hb Hc Ia Ib Ga' Gb').
Qed.

Lemma translate_marked a :
  pc_remap cf = true -> all_roomy (mkMapper [] page) h -> a < two64 ->
  resolve (pieces h) a = None -> translate cf h a = marked a.
Proof.
  intros Rm R Ha Ra. rewrite <- (lookup_resolve a R Ha) in Ra. unfold translate. rewrite Rm. fold page.
  destruct (lookup page h a); [easy|reflexivity].
Qed.

Lemma translate_low a :
  pc_remap cf = true -> small_history page h -> a < two64 ->
  (translate cf h a < 2 ^ 63 <-> resolve (pieces h) a <> None).
Proof.
  intros Rm S Ha. pose proof (page_align cf Hpage) as Al. pose proof (small_roomy page h Al F S) as R.
  rewrite <- (lookup_resolve a R Ha). unfold translate. rewrite Rm. fold page.
  destruct (history_succeeds page h Al F R) as (m & E). rewrite (lookup_known page h m _ E).
  destruct (get_mapped m a) as [((x & i) & o)|] eqn:G.
  - split; [easy|]. intros _. eapply small_low; eauto.
  - split; [|now intros X]. pose proof (marked_high a). intros X. apply N.nle_gt in X. tauto.
Qed.
End Translate.

(** * What is handed back *)

Lemma keep_used_sel (P : nat -> pevent * pinfo -> Prop) (st : nat -> bool) : forall rows k,
  (forall i row, nth_error rows i = Some row ->
     P (k + i)%nat row /\
     match e_body (fst row) with
     | PMap _ => exists hh, pi_hits (snd row) = Some hh /\ st (k + i)%nat = negb (hh =? 0)
     | _ => st (k + i)%nat = true
     end) ->
  exists out, keep_used rows = Ok out /\ Forall2 P (filter st (seq k (List.length rows))) out.
Proof.
  induction rows as [|(e & inf) rows IH]; intros k H; cbn [keep_used List.length seq filter].
  - exists []. auto.
  - destruct (IH (S k)) as (out & E & F2).
    { intros i row Hi. specialize (H (S i) row Hi). now rewrite <- plus_n_Sm in H. }
    destruct (H O (e, inf) eq_refl) as (HP & Hs). rewrite Nat.add_0_r in HP, Hs. cbn [fst snd] in Hs.
    destruct (e_body e).
    2:{ destruct Hs as (hh & -> & Hs). rewrite Hs. destruct hh as [|q]; cbn [N.eqb negb]; [eauto|].
        rewrite E. cbn [obind]. exists ((e, inf) :: out). split; auto. }
    all: rewrite Hs, E; cbn [obind]; exists ((e, inf) :: out); auto.
Qed.

Lemma Forall2_seq {A} (P : nat -> A -> Prop) : forall l k,
  (forall i x, nth_error l i = Some x -> P (k + i)%nat x) -> Forall2 P (seq k (List.length l)) l.
Proof.
  induction l as [|x l IH]; intros k H; cbn; constructor.
  - specialize (H O x eq_refl). now rewrite Nat.add_0_r in H.
  - apply IH. intros i y Hi. specialize (H (S i) y Hi). now rewrite <- plus_n_Sm in H.
Qed.

Lemma put_back_ok : forall evs rows,
  Forall2 (fun e (row : pevent * pinfo) => e_type (fst row) = e_type e) (kept evs) rows ->
  Forall2 (fun e e' => e_type e' = e_type e /\ (e_type e = 68 -> e' = e)) evs (put_back evs rows) /\
  kept (put_back evs rows) = map fst rows.
Proof.
  induction evs as [|e evs IH]; intros rows H; cbn [put_back].
  - cbn in H. inversion H; subst. split; constructor.
  - unfold is_round. cbn [kept filter] in H. destruct (e_type e =? 68) eqn:E; cbn [negb] in H.
    + destruct (IH rows H) as (A & B). split; [constructor; auto|].
      cbn [kept filter]. rewrite E. exact B.
    + inversion H as [|? (e' & i') ? rows' H1 H2]; subst. cbn [fst] in H1.
      destruct (IH rows' H2) as (A & B). apply N.eqb_neq in E.
      split; [constructor; auto; split; auto; intros; easy|].
      cbn [kept filter map fst]. rewrite H1. apply N.eqb_neq in E. rewrite E. cbn [negb]. f_equal. exact B.
Qed.

Section End_.
Variable cf : pconfig.
Variable evs : list pevent.
Hypothesis Hpage : page_ok (pc_page cf).
Let page := pc_page cf.
Let K := kept evs.

Lemma known_all : (forall e, In e K -> known_event e = true) -> processed evs = K.
Proof.
  unfold processed. fold K. generalize K. intros l. induction l as [|x l IH]; intros H; cbn; auto.
  rewrite (H x) by now left. f_equal. apply IH. intros e He. apply H. now right.
Qed.

(** The row of every event that was processed, and of those that were not. *)
Theorem rows_done b s : process_events cf evs = Ok (b, s) ->
  List.length (ps_rows s) = List.length K /\
  (forall n row, nth_error (ps_rows s) n = Some row ->
     if (n <? List.length (processed evs))%nat then row_ok cf evs n row
     else nth_error K n = Some (fst row) /\ snd row = new_info) /\
  (forall n e row, (n < List.length (processed evs))%nat -> nth_error K n = Some e -> nth_error (ps_rows s) n = Some row ->
     pi_hits (snd row) = if is_mmap e then Some (hits_of page evs (List.length (processed evs)) (N.of_nat n) mod 2 ^ 32) else None).
Proof.
  intros E. destruct (process_events_rel cf evs Hpage b s E) as (R & _).
  pose proof (rl_len _ _ _ _ R) as L. fold K in L. split; auto.
  assert (T : forall n row, nth_error (ps_rows s) n = Some row -> exists e, nth_error K n = Some e).
  { intros n row H. destruct (nth_error K n) as [e|] eqn:He; [eauto|].
    apply nth_error_None in He. assert (nth_error (ps_rows s) n <> None) by congruence.
    apply nth_error_Some in H0. lia. }
  split.
  - intros n row Hn. destruct (T n row Hn) as (e & He).
    destruct (n <? _)%nat eqn:C.
    + apply Nat.ltb_lt in C. destruct (rl_done _ _ _ _ R n e C He) as (row' & H1 & H2 & _).
      assert (row' = row) by congruence. subst row'. exists e. auto.
    + apply Nat.ltb_ge in C. pose proof (rl_todo _ _ _ _ R n e C He) as H1.
      rewrite H1 in Hn. injection Hn as <-. auto.
  - intros n e row C He Hn. destruct (rl_done _ _ _ _ R n e C He) as (row' & H1 & _ & H3).
    assert (row' = row) by congruence. subst row'. exact H3.
Qed.

Lemma row_type n row : row_ok cf evs n row -> exists e, nth_error K n = Some e /\ e_type (fst row) = e_type e.
Proof. intros (e & He & H). exists e. split; auto. destruct row. apply H. Qed.

(** Without discarding. *)
Theorem parse_keeps b s : process_events cf evs = Ok (b, s) -> pc_discard cf = false ->
  exists out, parse_raw_events cf evs = Ok (out, ps_rows s, s) /\
    Forall2 (fun e e' => e_type e' = e_type e /\ (e_type e = 68 -> e' = e)) evs out /\
    kept out = map fst (ps_rows s).
Proof.
  intros E D. unfold parse_raw_events. rewrite E. cbn [obind]. rewrite D.
  exists (put_back evs (ps_rows s)). split; auto. apply put_back_ok.
  destruct (rows_done b s E) as (L & H & _). fold K.
  clear E. revert L H. generalize (ps_rows s). generalize (processed evs) as p. intros p rows L H.
  assert (G : forall n row e, nth_error rows n = Some row -> nth_error K n = Some e -> e_type (fst row) = e_type e).
  { intros n row e Hn He. specialize (H n row Hn). destruct (n <? _)%nat.
    - apply row_type in H as (e' & He' & Ht). congruence.
    - destruct H as (H & _). congruence. }
  clear H. revert rows L G. generalize K. intros l. induction l as [|e l IH]; intros rows L G.
  - destruct rows; [constructor|easy].
  - destruct rows as [|row rows]; [easy|]. constructor.
    + apply (G O row e); reflexivity.
    + apply IH; [now injection L|]. intros n r' e' H1 H2. exact (G (S n) r' e' H1 H2).
Qed.

(** With discarding. *)
Theorem parse_discards b s : process_events cf evs = Ok (b, s) -> pc_discard cf = true -> well_formed evs ->
  exists rows, parse_raw_events cf evs = Ok (map fst rows, rows, s) /\
    Forall2 (row_ok cf evs) (staying page evs) rows.
Proof.
  intros E D W. assert (PK : processed evs = K) by (apply known_all; intros e He; now apply W).
  destruct (rows_done b s E) as (L & H & Hh). rewrite PK in *.
  unfold parse_raw_events. rewrite E. cbn [obind]. rewrite D.
  destruct (keep_used_sel (row_ok cf evs) (stays page evs) (ps_rows s) 0) as (out & Eo & F2).
  { intros n row Hn. cbn [Nat.add].
    assert (Hl : (n < List.length K)%nat).
    { rewrite <- L. apply nth_error_Some. congruence. }
    pose proof (H n row Hn) as Rw. apply Nat.ltb_lt in Hl as Hl'. rewrite Hl' in Rw. split; auto.
    destruct Rw as (e & He & Rr). pose proof (Hh n e row Hl He Hn) as Ph.
    unfold stays. rewrite He.
    assert (Hb : match e_body (fst row) with PMap _ => is_mmap e = true | _ => is_mmap e = false end).
    { destruct row as (e' & inf). destruct Rr as (_ & _ & Rr). cbn [fst].
      destruct (W e (nth_error_In _ _ He)) as (_ & Wb).
      destruct (sample_of e) as [sm|] eqn:Hs.
      - destruct Rr as (s' & -> & _). now apply (sample_not_mmap e sm).
      - destruct Rr as (_ & Rr). destruct (is_mmap e) eqn:Hm.
        + now rewrite Rr.
        + rewrite Rr. destruct (e_body e); auto. }
    destruct (e_body (fst row)); rewrite Hb in *; cbn [negb orb]; auto.
    eexists. split; [exact Ph|reflexivity]. }
  rewrite Eo. cbn [obind]. exists out. split; auto. rewrite L in F2. exact F2.
Qed.

Theorem totals b s : process_events cf evs = Ok (b, s) ->
  b = (List.length (processed evs) =? List.length K)%nat /\
  (forall c, ps_stats s c = total page evs c (List.length (processed evs)) mod 2 ^ 32) /\
  (forall name, file_result page evs (List.length (processed evs)) name (aget list_eqb name (ps_dsos s))).
Proof.
  intros E. destruct (process_events_rel cf evs Hpage b s E) as (R & B). split; auto. split.
  - exact (rl_stats _ _ _ _ R).
  - exact (rl_files _ _ _ _ R).
Qed.
End End_.
