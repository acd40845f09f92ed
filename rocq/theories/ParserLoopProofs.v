(** Proofs about the parser: every event keeps the relation, and so does the loop. *)
From Verif Require Import Base BytesModel TextModel TextProofs Assoc MapperModel MapperSpec MapperProofs
  MapperStepProofs ParserModel ParserSpec ParserMapperProofs ParserProofs ParserRunProofs.
From Coq Require Import String.
Local Open Scope N_scope.
Local Open Scope list_scope.

Lemma known_row_other evs s s' n id :
  (forall j, j <> n -> nth_error (ps_rows s') j = nth_error (ps_rows s) j) ->
  (forall name, aget list_eqb name (ps_dsos s) <> None -> aget list_eqb name (ps_dsos s') <> None) ->
  id < N.of_nat n -> known_row evs s id -> known_row evs s' id.
Proof.
  intros Hr Hd Hi (e & inf & pm & h & d & H1 & H2 & H3 & H4 & H5).
  assert (D : aget list_eqb (file_of evs id) (ps_dsos s') <> None) by (apply Hd; congruence).
  destruct (aget list_eqb (file_of evs id) (ps_dsos s')) as [d'|] eqn:E; [|easy].
  exists e, inf, pm, h, d'. rewrite Hr by lia. auto.
Qed.

Lemma emplace_get (name name' : list N) (d : dso) (ds : list (list N * dso)) :
  aget list_eqb name' (fst (fst (aemplace list_eqb name d ds)))
  = match aget list_eqb name' ds with
    | Some x => Some x
    | None => if list_eqb name' name then Some d else None
    end.
Proof.
  unfold aemplace. destruct (aget list_eqb name ds) as [d0|] eqn:E; cbn.
  - destruct (aget list_eqb name' ds) eqn:E'; auto. destruct (list_eqb name' name) eqn:L; auto.
    apply list_eqb_spec in L. subst. congruence.
  - destruct (list_eqb name' name) eqn:L.
    + apply list_eqb_spec in L. subst. now rewrite E.
    + now destruct (aget list_eqb name' ds).
Qed.

Lemma call_id i k m : c_id (call_of i k m) = i.
Proof. unfold call_of. destruct k; auto. now destruct (_ && _). Qed.

Section Run.
Variable cf : pconfig.
Variable evs : list pevent.
Hypothesis Hpage : page_ok (pc_page cf).
Let page := pc_page cf.
Let K := kept evs.

Lemma sample_not_mmap e sm : sample_of e = Some sm -> is_mmap e = false /\ e_type e = 9.
Proof.
  unfold sample_of, is_mmap. destruct (e_type e =? 9) eqn:E; [|easy]. apply N.eqb_eq in E. rewrite E. easy.
Qed.
Lemma mmap_not_sample e : is_mmap e = true -> sample_of e = None.
Proof. destruct (sample_of e) eqn:E; auto. apply sample_not_mmap in E as (E & _). congruence. Qed.

Lemma uses_mmap n e : nth_error K n = Some e -> is_mmap e = true -> uses page evs (S n) = uses page evs n.
Proof.
  intros Hn Hm. cbn [uses]. fold K. rewrite Hn. unfold uses_of. rewrite (mmap_not_sample _ Hm).
  apply app_nil_r.
Qed.

Lemma hits_self n s : rel cf evs n s -> hits_of page evs n (N.of_nat n) = 0.
Proof.
  intros R. unfold hits_of.
  assert (E : filter (fun u => fst u =? N.of_nat n) (uses page evs n) = []).
  { pose proof (rl_uses _ _ _ _ R) as U. fold page in U.
    induction (uses page evs n) as [|u l IH]; auto. cbn.
    destruct (fst u =? N.of_nat n) eqn:E.
    - apply N.eqb_eq in E. specialize (U u (or_introl eq_refl)). apply mid_lt in U. lia.
    - apply IH. intros v Hv. apply U. now right. }
  now rewrite E.
Qed.

(** The state after a mapping event. *)
Definition mapped_state (n : nat) (e : pevent) (mp' : mapper) (s s0 : pstate) : pstate :=
  let w := world_before evs n in
  let m := the_map (e_body e) in
  let c := call_of (N.of_nat n) (kernel_image w e) m in
  let m' := moved_map cf (space_of w (m_pid m) ++ [c]) c m in
  mkPState
    (upd n (fun '(e, inf) => (set_body (PMap m') e, set_hits (Some 0) inf)) (ps_rows s))
    (aset (m_pid m) mp' (ps_mappers s0)) (ps_comms s)
    (fst (fst (aemplace list_eqb (m_file m')
                 (if e_type e =? 10 then mkDso (m_maj m') (m_min m') (m_ino m') false [] []
                  else mkDso 0 0 0 false [] []) (ps_dsos s))))
    (bump NMmap (ps_stats s)).

Lemma moved_ids h c m :
  (m_maj (moved_map cf h c m), m_min (moved_map cf h c m), m_ino (moved_map cf h c m)) = (m_maj m, m_min m, m_ino m).
Proof. unfold moved_map. now destruct (pc_remap cf). Qed.

Lemma step_mmap n s e mp mp' s0 :
  rel cf evs n s -> nth_error K n = Some e -> is_mmap e = true ->
  let w := world_before evs n in
  let m := the_map (e_body e) in
  let c := call_of (N.of_nat n) (kernel_image w e) m in
  let h := space_of w (m_pid m) in
  process_mapper cf (m_pid m) kernel_pid (count NMmap s) = Ok (mp, s0) ->
  run_calls (mkMapper [] page) (h ++ [c]) = Some mp' ->
  rel cf evs (S n) (mapped_state n e mp' s s0).
Proof.
  intros R Hn Hm w m c h Pm Run.
  assert (Sp : spaces_ok cf evs n (w_space w) (count NMmap s)) by exact (rl_spaces _ _ _ _ R).
  destruct (process_mapper_ok cf evs Hpage n w (m_pid m) kernel_pid _ Sp)
    as (mp1 & s1 & P1 & P2 & P3 & P4 & P5 & P6 & P7 & P8).
  rewrite Pm in P1. injection P1 as <- <-.
  fold (space_of w (m_pid m)) in P3, P4, P5, P6. fold h in P3, P4, P5, P6.
  assert (Nm : sample_of e = None) by now apply mmap_not_sample.
  assert (U : uses page evs (S n) = uses page evs n) by now apply uses_mmap with e.
  assert (W' : world_before evs (S n) =
    mkWorld (w_space (note_space (m_pid m) (h ++ [c]) w)) (w_command w) (w_no_kernel w && negb (kernel_image w e))).
  { rewrite (world_step evs n e Hn). unfold see. fold w. rewrite Nm, Hm. reflexivity. }
  set (s' := mapped_state n e mp' s s0).
  set (m' := moved_map cf (h ++ [c]) c m).
  assert (Hrow : nth_error (ps_rows s) n = Some (e, new_info)) by now apply (kept_row cf evs).
  assert (Rows : forall j, nth_error (ps_rows s') j
     = if (n =? j)%nat then Some (set_body (PMap m') e, set_hits (Some 0) new_info) else nth_error (ps_rows s) j).
  { intros j. unfold s', mapped_state. cbn [ps_rows]. rewrite nth_upd.
    destruct (n =? j)%nat eqn:E; auto. apply Nat.eqb_eq in E. subst j. now rewrite Hrow. }
  assert (Dsos : forall name, aget list_eqb name (ps_dsos s)
     <> None -> aget list_eqb name (ps_dsos s') <> None).
  { intros name H. unfold s', mapped_state. cbn [ps_dsos]. rewrite emplace_get.
    now destruct (aget list_eqb name (ps_dsos s)). }
  assert (Fn : file_of evs (N.of_nat n) = m_file m) by now apply file_of_nth.
  assert (Known : forall id, id < N.of_nat n -> known_row evs s id -> known_row evs s' id).
  { intros id. apply known_row_other; auto. intros j Hj. rewrite Rows.
    replace (n =? j)%nat with false; auto. symmetry. apply Nat.eqb_neq. auto. }
  assert (Ic : c_id c = N.of_nat n) by apply call_id.
  assert (Kc : known_row evs s' (N.of_nat n)).
  { unfold known_row. rewrite Nnat.Nat2N.id, Rows, Nat.eqb_refl, Fn.
    assert (aget list_eqb (m_file m) (ps_dsos s') <> None).
    { unfold s', mapped_state. cbn [ps_dsos]. rewrite emplace_get.
      fold w. fold m. fold c. fold h. fold m'. unfold m'. rewrite moved_file.
      destruct (aget list_eqb (m_file m) (ps_dsos s)); [easy|]. now rewrite list_eqb_refl. }
    destruct (aget list_eqb (m_file m) (ps_dsos s')) as [d|]; [|easy].
    exists (set_body (PMap m') e), (set_hits (Some 0) new_info), m', 0, d.
    split; auto. split; auto. split; [apply moved_file|]. auto. }
  split.
  - unfold s', mapped_state. cbn [ps_rows]. rewrite upd_length. apply (rl_len _ _ _ _ R).
  - rewrite W'. intros q. cbn [w_space note_space]. destruct (q =? m_pid m) eqn:Eq.
    + apply N.eqb_eq in Eq. subst q. split.
      * exists mp'. split; [unfold s', mapped_state; cbn [ps_mappers aget aset]; fold m; now rewrite N.eqb_refl|].
        split; auto. intros d Hd. apply in_app_or in Hd as [Hd|[<-|[]]]; [|now rewrite Ic].
        apply Known; [apply mid_lt with evs; auto|]. destruct P4 as (m0 & _ & _ & P4). rewrite P8 in P4. apply (P4 d Hd).
      * intros d Hd. apply in_app_or in Hd as [Hd|[<-|[]]]; [apply (mid_mono _ n); auto|rewrite Ic; exists n, e; auto].
    + pose proof (rl_spaces _ _ _ _ R q) as P. fold w in P.
      assert (Em : aget N.eqb q (ps_mappers s') = aget N.eqb q (ps_mappers s)).
      { unfold s', mapped_state. cbn [ps_mappers aget aset]. fold m. rewrite Eq.
        apply N.eqb_neq in Eq. rewrite (P7 q Eq). reflexivity. }
      destruct (w_space w q) as [hq|]; [|now rewrite Em].
      destruct P as (Pr & Pi). split.
      * apply (ready_mono cf evs q hq n s s'); auto.
      * intros d Hd. apply (mid_mono _ n); auto.
  - rewrite W'. cbn [w_command]. apply (rl_comms _ _ _ _ R).
  - intros j f Hj Hf. rewrite Rows. unfold hits_of. fold page. rewrite U.
    destruct (n =? j)%nat eqn:E.
    + apply Nat.eqb_eq in E. subst j. assert (f = e) by (unfold K in Hn; congruence). subst f.
      exists (set_body (PMap m') e, set_hits (Some 0) new_info). split; auto. split.
      * unfold row_result. rewrite Nm, Hm. repeat split.
      * rewrite Hm. cbn [snd pi_hits set_hits]. fold (hits_of page evs n (N.of_nat n)).
        now rewrite (hits_self _ _ R).
    + apply Nat.eqb_neq in E. apply (rl_done _ _ _ _ R); auto. lia.
  - intros j f Hj Hf. rewrite Rows. replace (n =? j)%nat with false by (symmetry; apply Nat.eqb_neq; lia).
    apply (rl_todo _ _ _ _ R); auto. lia.
  - intros x. unfold s', mapped_state. cbn [ps_stats]. cbn [total]. fold K. rewrite Hn.
    rewrite <- w32_add. fold page. pose proof (rl_stats _ _ _ _ R x) as St. fold page in St. rewrite <- St.
    assert (Ty : e_type e = 1 \/ e_type e = 10).
    { unfold is_mmap in Hm. apply orb_prop in Hm as [H|H]; apply N.eqb_eq in H; auto. }
    assert (Wr : w32 (ps_stats s x + 0) = ps_stats s x).
    { rewrite N.add_0_r, St. unfold w32. apply N.mod_mod. discriminate. }
    unfold bump. destruct x; cbn [counter_eqb adds]; rewrite ?Nm, ?Hm; auto;
      destruct Ty as [Ty|Ty]; rewrite ?Ty; auto.
  - intros name. unfold s', mapped_state. cbn [ps_dsos]. fold w. fold m. fold c. fold h. fold m'.
    rewrite emplace_get. pose proof (rl_files _ _ _ _ R name) as F. fold page in F. unfold file_result in *.
    fold page. rewrite U. destruct (aget list_eqb name (ps_dsos s)) as [d|].
    + destruct F as ((j & f & (F1 & F2 & F3) & F4) & F5). split; auto. exists j, f. split; auto.
      split; [lia|]. auto.
    + unfold m'. rewrite moved_file. fold m'. destruct (list_eqb name (m_file m)) eqn:L.
      * apply list_eqb_spec in L. subst name.
        assert (NoUse : forall u, In u (uses page evs n) -> file_of evs (fst u) <> m_file m).
        { intros u Hu E. destruct (rl_uses _ _ _ _ R u Hu) as (j & f & Ej & Lj & Nj & Mj).
          apply (F j f Lj). split; auto. split; auto. rewrite <- E, Ej. symmetry.
          now apply file_of_nth. }
        split; [|split; [|split]].
        -- exists n, e. split.
           ++ split; [lia|]. split; [now split|]. intros i f Hi. now apply F.
           ++ fold m. pose proof (moved_ids (h ++ [c]) c m) as Ids. fold m' in Ids.
              destruct (e_type e =? 10); cbn; auto.
        -- replace (d_hit _) with false by now destruct (e_type e =? 10). split; [easy|].
           intros (u & Hu & E). now apply NoUse in E.
        -- replace (d_threads _) with (@nil N) by now destruct (e_type e =? 10). constructor.
        -- intros t. replace (d_threads _) with (@nil N) by now destruct (e_type e =? 10). split; [easy|].
           intros (i & p & q & Hu & E & _). now apply (NoUse (i, (p, q)) Hu) in E.
      * intros j f Hj (M1 & M2 & M3). destruct (Nat.eq_dec j n) as [->|].
        -- fold K in M1. assert (f = e) by congruence. subst f. fold m in M3. subst name.
           now rewrite list_eqb_refl in L.
        -- apply (F j f); [lia|]. now split.
  - fold page. rewrite U. intros u Hu. apply (mid_mono _ n); auto. apply (rl_uses _ _ _ _ R u Hu).
Qed.

(** A sample. *)
Definition sampled_state (n : nat) (sm : psample) (s0 s : pstate) : pstate :=
  let w := world_before evs n in
  let h := space_of w (s_pid sm) in
  let s1 := sample_counts cf h sm (touches evs (merge_u32 (s_pid sm) (s_tid sm)) (sample_ids cf h sm) s0) in
  set_rows (upd n (sample_row cf evs h sm (w_command w (s_pid sm, s_tid sm))) (ps_rows s1)) s1.

Lemma sample_counts_rows h sm s : ps_rows (sample_counts cf h sm s) = ps_rows s.
Proof.
  unfold sample_counts. cbv zeta. destruct (_ && _), (existsb _ _), (negb _); reflexivity.
Qed.
Lemma sample_counts_mappers h sm s : ps_mappers (sample_counts cf h sm s) = ps_mappers s.
Proof.
  unfold sample_counts. cbv zeta. destruct (_ && _), (existsb _ _), (negb _); reflexivity.
Qed.
Lemma sample_counts_comms h sm s : ps_comms (sample_counts cf h sm s) = ps_comms s.
Proof.
  unfold sample_counts. cbv zeta. destruct (_ && _), (existsb _ _), (negb _); reflexivity.
Qed.
Lemma sample_counts_dsos h sm s : ps_dsos (sample_counts cf h sm s) = ps_dsos s.
Proof.
  unfold sample_counts. cbv zeta. destruct (_ && _), (existsb _ _), (negb _); reflexivity.
Qed.

Lemma sample_counts_stats w e sm s x : sample_of e = Some sm ->
  ps_stats (sample_counts cf (space_of w (s_pid sm)) sm (count NSample s)) x
  = if adds page w e x then w32 (ps_stats s x + 1) else ps_stats s x.
Proof.
  intros E. destruct (sample_not_mmap _ _ E) as (Nm & Ty). unfold sample_counts. cbv zeta. fold page.
  destruct x; cbn [adds]; rewrite ?E, ?Ty, ?Nm;
    destruct (_ && _), (existsb _ _), (negb _); reflexivity.
Qed.

Lemma known_upd n f s s1 id :
  ps_rows s1 = upd n f (ps_rows s) -> ps_dsos s1 = ps_dsos s ->
  id < N.of_nat n -> known_row evs s id -> known_row evs s1 id.
Proof.
  intros Er Ed. apply known_row_other.
  - intros j Hj. rewrite Er, nth_upd. replace (n =? j)%nat with false; auto.
    symmetry. apply Nat.eqb_neq. auto.
  - intros name. now rewrite Ed.
Qed.

Lemma row_result_hits n w e e' inf hits :
  row_result cf evs n w e (e', inf) -> row_result cf evs n w e (e', set_hits hits inf).
Proof. auto. Qed.

Lemma filter_pairs {A} (l : list N) (x : A) j :
  len (filter (fun u => fst u =? N.of_nat j) (map (fun i => (i, x)) l)) = cnt l j.
Proof.
  unfold cnt, len. induction l as [|i l IH]; auto. cbn [map filter fst].
  destruct (i =? N.of_nat j); cbn [List.length]; lia.
Qed.

Lemma step_sample n s e sm m s0 :
  rel cf evs n s -> nth_error K n = Some e -> sample_of e = Some sm ->
  process_mapper cf (s_pid sm) kernel_pid (count NSample s) = Ok (m, s0) ->
  rel cf evs (S n) (sampled_state n sm s0 s).
Proof.
  intros R Hn Hs Pm. set (w := world_before evs n). set (h := space_of w (s_pid sm)).
  destruct (sample_not_mmap _ _ Hs) as (Nm & Ty).
  assert (Sp : spaces_ok cf evs n (w_space w) (count NSample s)) by exact (rl_spaces _ _ _ _ R).
  destruct (process_mapper_ok cf evs Hpage n w (s_pid sm) kernel_pid _ Sp)
    as (mp1 & s1 & P1 & P2 & P3 & P4 & P5 & P6 & P7 & P8).
  rewrite Pm in P1. injection P1 as <- <-.
  fold (space_of w (s_pid sm)) in P3, P4, P5, P6. fold h in P3, P4, P5, P6.
  set (t := merge_u32 (s_pid sm) (s_tid sm)). set (ids := sample_ids cf h sm).
  set (s' := sampled_state n sm s0 s).
  assert (U : uses page evs (S n) = uses page evs n ++ map (fun i => (i, (s_pid sm, s_tid sm))) ids).
  { cbn [uses]. fold K. rewrite Hn. f_equal. apply (uses_of_ids cf w e sm Hs). }
  assert (W' : world_before evs (S n) = note_space (s_pid sm) h w).
  { rewrite (world_step evs n e Hn). unfold see. now rewrite Hs. }
  assert (Er : ps_rows s' = upd n (sample_row cf evs h sm (w_command w (s_pid sm, s_tid sm)))
                              (ps_rows (touches evs t ids s0))).
  { unfold s', sampled_state. cbn [ps_rows set_rows]. now rewrite sample_counts_rows. }
  assert (Ed : ps_dsos s' = ps_dsos (touches evs t ids s0)).
  { unfold s', sampled_state. cbn [ps_dsos set_rows]. now rewrite sample_counts_dsos. }
  assert (Em : ps_mappers s' = ps_mappers s0).
  { unfold s', sampled_state. cbn [ps_mappers set_rows]. now rewrite sample_counts_mappers, touches_mappers. }
  assert (Ec : ps_comms s' = ps_comms s).
  { unfold s', sampled_state. cbn [ps_comms set_rows]. rewrite sample_counts_comms, touches_comms, P8. reflexivity. }
  assert (R0 : ps_rows s0 = ps_rows s) by now rewrite P8.
  assert (D0 : ps_dsos s0 = ps_dsos s) by now rewrite P8.
  assert (Known : forall id, id < N.of_nat n -> known_row evs s0 id -> known_row evs s' id).
  { intros id L Kn. eapply known_upd; eauto. now apply known_touches. }
  assert (Rown : nth_error (ps_rows (touches evs t ids s0)) n = Some (e, new_info)).
  { rewrite (touches_row cf evs t n e ids s0 new_info None); auto. rewrite R0. now apply (kept_row cf evs). }
  assert (Hits : forall j, hits_of page evs (S n) (N.of_nat j) = hits_of page evs n (N.of_nat j) + cnt ids j).
  { intros j. unfold hits_of. rewrite U, filter_app. rewrite <- filter_pairs with (x := (s_pid sm, s_tid sm)).
    unfold len. rewrite app_length. lia. }
  split.
  - rewrite Er, upd_length, touches_length, R0. apply (rl_len _ _ _ _ R).
  - rewrite W'. revert P6. apply spaces_mono; auto.
  - rewrite W'. intros p q. rewrite Ec. apply (rl_comms _ _ _ _ R).
  - intros j f Hj Hf. rewrite Er, nth_upd. fold page. rewrite Hits.
    destruct (n =? j)%nat eqn:E.
    + apply Nat.eqb_eq in E. subst j. assert (f = e) by (unfold K in Hn; congruence). subst f.
      rewrite Rown. cbn [option_map].
      eexists. split; [reflexivity|]. rewrite Nm. split; [|reflexivity].
      unfold sample_row, row_result. cbn [fst snd e_type e_misc set_body e_body]. rewrite Hs.
      fold w. fold h. split; auto. split; auto. exists (new_sample cf h sm). split; auto.
      unfold sample_result. cbn [pi_command pi_code pi_data pi_chain pi_branch new_info].
      split; [reflexivity|]. split; [reflexivity|]. split; [reflexivity|]. split; [reflexivity|].
      split; [reflexivity|]. split; [apply stack_result_ok|].
      split; [now destruct (w_command w (s_pid sm, s_tid sm))|].
      split; [reflexivity|]. split; reflexivity.
    + apply Nat.eqb_neq in E. assert (Lj : (j < n)%nat) by lia.
      destruct (rl_done _ _ _ _ R j f Lj Hf) as ((e', inf) & D1 & D2 & D3). fold page in D3.
      cbn [snd] in D3.
      rewrite (touches_row cf evs t j e' ids s0 inf
                 (if is_mmap f then Some (hits_of page evs n (N.of_nat j)) else None)).
      * eexists. split; [reflexivity|]. split; [now apply row_result_hits|].
        cbn [snd pi_hits set_hits]. now destruct (is_mmap f).
      * now rewrite R0.
      * rewrite D3. now destruct (is_mmap f).
  - intros j f Hj Hf. rewrite Er, nth_upd. replace (n =? j)%nat with false by (symmetry; apply Nat.eqb_neq; lia).
    rewrite (touches_row cf evs t j f ids s0 new_info None); auto.
    rewrite R0. apply (rl_todo _ _ _ _ R); auto. lia.
  - intros x. unfold s', sampled_state. cbn [ps_stats set_rows]. fold w. fold h.
    assert (S0 : ps_stats (sample_counts cf h sm (touches evs t ids s0)) x
                 = ps_stats (sample_counts cf h sm (count NSample s)) x).
    { unfold sample_counts. cbv zeta.
      assert (B : ps_stats (touches evs t ids s0) = ps_stats (count NSample s)) by (rewrite touches_stats, P8; reflexivity).
      destruct (_ && _), (existsb _ _), (negb _); cbn [ps_stats count]; now rewrite B. }
    fold t. fold ids. rewrite S0. unfold h. rewrite (sample_counts_stats w e sm s x Hs).
    cbn [total]. fold K. rewrite Hn. fold page. fold w. rewrite (rl_stats _ _ _ _ R x). fold page.
    destruct (adds page w e x); [apply w32_add|]. now rewrite N.add_0_r.
  - intros name. fold page. rewrite Ed. pose proof (rl_files _ _ _ _ R name) as F. fold page in F.
    pose proof (touches_grow evs (s_pid sm) (s_tid sm) ids s0 name) as G. fold t in G. rewrite D0 in G.
    unfold file_result in *. rewrite U.
    destruct (aget list_eqb name (ps_dsos s)) as [d|].
    + destruct G as (d' & -> & G2 & G3). destruct F as ((j & f & (F1 & F2 & F3) & F4) & F5).
      split.
      * exists j, f. split; [split; [lia|auto]|]. now rewrite G2.
      * apply G3. exact F5.
    + rewrite G. intros j f Hj (M1 & M2 & M3). destruct (Nat.eq_dec j n) as [->|].
      * fold K in M1. congruence.
      * apply (F j f); [lia|]. now split.
  - fold page. rewrite U. intros u Hu. apply in_app_or in Hu as [Hu|Hu].
    + apply (mid_mono _ n); auto. apply (rl_uses _ _ _ _ R u Hu).
    + apply in_map_iff in Hu as (i & <- & Hi). cbn [fst]. unfold ids, sample_ids, all_ids in Hi.
      apply in_flat_map in Hi as (a & _ & Ha). unfold ids_of in Ha.
      destruct (lookup (pc_page cf) h a) as [((x & i0) & o)|] eqn:L; [|easy]. destruct Ha as [<-|[]].
      apply lookup_weak in L as (_ & c & Hc & <-); auto. apply (mid_mono _ n); auto.
Qed.

(** * Every event *)
Lemma comms_pair (c : list ((N * N) * list N)) p t p' t' v :
  aget pair_eqb (p', t') (aset (p, t) v c)
  = if (p' =? p) && (t' =? t) then Some v else aget pair_eqb (p', t') c.
Proof. reflexivity. Qed.

Lemma process_known n s e r s' :
  rel cf evs n s -> nth_error K n = Some e ->
  process_event cf n (w_no_kernel (world_before evs n)) s = Ok (r, s') ->
  if known_event e
  then r = Some (w_no_kernel (world_before evs (S n))) /\ rel cf evs (S n) s'
  else r = None /\ s' = s.
Proof.
  intros R Hn. pose proof (kept_row cf evs n s e R Hn) as Hrow.
  unfold process_event. rewrite Hrow. set (w := world_before evs n).
  assert (Wn : world_before evs (S n) = see (N.of_nat n) w e) by now apply world_step.
  unfold known_event.
  assert (Plain : forall c0 (ty : N),
     e_type e = ty -> sample_of e = None -> is_mmap e = false -> (ty =? 7) = false -> (ty =? 3) = false ->
     (forall x, adds page w e x = match c0 with Some c => counter_eqb c x | None => false end) ->
     w_no_kernel w = w_no_kernel (world_before evs (S n)) /\
     rel cf evs (S n) (match c0 with Some c => count c s | None => s end)).
  { intros c0 ty Et Hs Hm H7 H3 Ha.
    assert (Sw : world_before evs (S n) = w).
    { rewrite Wn. unfold see. now rewrite Hs, Hm, Et, H7, H3. }
    split; [now rewrite Sw|]. apply (step_plain cf evs n s _ e); auto.
    - now destruct c0.
    - now destruct c0.
    - rewrite Sw. destruct c0; exact (rl_spaces _ _ _ _ R).
    - rewrite Sw. destruct c0; exact (rl_comms _ _ _ _ R).
    - intros x. fold w. fold page. rewrite Ha. destruct c0 as [c0|]; auto. }
  destruct (64 <=? e_type e) eqn:E64.
  { intros H. injection H as <- <-. cbn [orb]. apply N.leb_le in E64.
    assert (T : forall k, k < 64 -> (e_type e =? k) = false) by (intros k Hk; apply N.eqb_neq; lia).
    assert (Hs : sample_of e = None) by (unfold sample_of; now rewrite T).
    assert (Hm : is_mmap e = false) by (unfold is_mmap; now rewrite !T).
    destruct (Plain None (e_type e)) as (<- & P); [auto|auto|auto|apply T; lia|apply T; lia| |auto].
    intros x. destruct x; cbn [adds]; rewrite ?Hs, ?Hm, ?T by lia; auto. }
  cbn [orb]. destruct (e_type e =? 9) eqn:E9.
  { apply N.eqb_eq in E9. rewrite E9. cbn [existsb orb N.eqb Pos.eqb].
    destruct (sample_of e) as [sm|] eqn:Hs.
    - assert (Hb : e_body e = PSample sm).
      { unfold sample_of in Hs. rewrite E9 in Hs. cbn in Hs. destruct (e_body e); try easy. congruence. }
      assert (Sp : spaces_ok cf evs n (w_space w) (count NSample s)) by exact (rl_spaces _ _ _ _ R).
      destruct (process_mapper_ok cf evs Hpage n w (s_pid sm) kernel_pid _ Sp)
        as (mp & s0 & P1 & P2 & P3 & P4 & P5 & P6 & P7 & P8).
      assert (MS : map_sample cf n (count NSample s) = Ok (sampled_state n sm s0 s)).
      { rewrite (map_sample_ok cf evs Hpage n (count NSample s) e new_info sm (space_of w (s_pid sm)) s0 mp); auto.
        unfold sampled_state. cbn [count ps_comms]. now rewrite (rl_comms _ _ _ _ R). }
      rewrite MS. cbn [obind]. intros H. injection H as <- <-. split.
      + f_equal. rewrite Wn. unfold see. now rewrite Hs.
      + now apply (step_sample n s e sm mp s0).
    - assert (Hb : map_sample cf n (count NSample s) = Ok (count NSample s)).
      { unfold map_sample. cbn [count ps_rows]. rewrite Hrow. unfold sample_of in Hs. rewrite E9 in Hs. cbn in Hs.
        now destruct (e_body e). }
      rewrite Hb. cbn [obind]. intros H. injection H as <- <-.
      assert (Hm : is_mmap e = false) by (unfold is_mmap; now rewrite E9).
      destruct (Plain (Some NSample) 9) as (<- & P); auto.
      intros x. destruct x; cbn [adds counter_eqb]; rewrite ?Hs, ?Hm, ?E9; auto. }
  assert (Hs : sample_of e = None) by (unfold sample_of; now rewrite E9).
  fold (is_mmap e). destruct (is_mmap e) eqn:Hm.
  { assert (Ty : e_type e = 1 \/ e_type e = 10).
    { unfold is_mmap in Hm. apply orb_prop in Hm as [H|H]; apply N.eqb_eq in H; auto. }
    replace (existsb (N.eqb (e_type e)) _) with true by (destruct Ty as [->| ->]; reflexivity).
    set (m := the_map (e_body e)). fold (kernel_image w e).
    assert (Sp : spaces_ok cf evs n (w_space w) (count NMmap s)) by exact (rl_spaces _ _ _ _ R).
    destruct (map_mmap_ok cf evs Hpage n w m (kernel_image w e) _ Sp) as (mp & s0 & M1 & M2 & M3).
    cbv zeta in M3. set (c := call_of (N.of_nat n) (kernel_image w e) m) in *.
    set (h := space_of w (m_pid m)) in *.
    rewrite M3. clear M3.
    destruct (map_with_id mp (c_start c) (c_size c) (c_id c) (c_off c) (is_jit cf m))
      as [([|] & mp')| | | |] eqn:M; cbn [obind negb]; try easy.
    assert (Run : run_calls (mkMapper [] page) (h ++ [c]) = Some mp').
    { rewrite run_snoc. fold page in M2. rewrite M2. destruct (is_jit cf m); [now rewrite M|].
      now rewrite (aligned_same _ _ _ _ _ _ M). }
    assert (E : forall mm, mm = moved_map cf (h ++ [c]) c m ->
      forall x, (let! r := Ok (Some mm, set_mappers (aset (m_pid m) mp' (ps_mappers s0)) s0) in
       match r with
       | (None, _) => Abort
       | (Some m, s) =>
           let s := set_rows (upd n (fun '(e, inf) => (set_body (PMap m) e, set_hits (Some 0) inf)) (ps_rows s)) s in
           let d := if e_type e =? 10 then mkDso (m_maj m) (m_min m) (m_ino m) false [] [] else mkDso 0 0 0 false [] [] in
           let s := set_dsos (fst (fst (aemplace list_eqb (m_file m) d (ps_dsos s)))) s in
           Ok (Some (w_no_kernel w && negb (kernel_image w e)), s)
       end) = Ok x ->
      x = (Some (w_no_kernel w && negb (kernel_image w e)), mapped_state n e mp' s s0)).
    { intros mm -> x. cbn [obind]. cbv zeta. intros H. injection H as <-. f_equal.
      assert (Q : s0 = set_mappers (ps_mappers s0) (count NMmap s)).
      { destruct (process_mapper_ok cf evs Hpage n w (m_pid m) kernel_pid _ Sp)
          as (mp2 & s2 & P1 & _ & _ & _ & _ & _ & _ & P8). rewrite M1 in P1. now injection P1 as _ <-. }
      unfold mapped_state. fold w. fold m. fold c. fold h. rewrite Q. reflexivity. }
    assert (Fin : rel cf evs (S n) (mapped_state n e mp' s s0)).
    { apply (step_mmap n s e mp mp' s0); auto. }
    assert (Kn : w_no_kernel (world_before evs (S n)) = w_no_kernel w && negb (kernel_image w e)).
    { rewrite Wn. unfold see. rewrite Hs, Hm. reflexivity. }
    destruct (pc_remap cf) eqn:Rm.
    - destruct (get_mapped mp' (c_start c)) as [g|]; [|easy]. intros H.
      apply (E _ eq_refl) in H. injection H as -> ->. now rewrite Kn.
    - intros H. apply (E m) in H; [|unfold moved_map; now rewrite Rm]. injection H as -> ->. now rewrite Kn. }
  destruct (e_type e =? 7) eqn:E7.
  { apply N.eqb_eq in E7. rewrite E7. cbn [existsb orb N.eqb Pos.eqb].
    destruct (the_fork (e_body e)) as (((pid & ppid) & tid) & ptid) eqn:Ef.
    assert (Cm : forall p t, aget pair_eqb (p, t) (ps_comms s) = w_command w (p, t)) by exact (rl_comms _ _ _ _ R).
    unfold map_fork.
    set (s1 := if pair_eqb (ppid, ptid) (pid, tid) then count NFork s
               else match aget pair_eqb (ppid, ptid) (ps_comms (count NFork s)) with
                    | Some c => set_comms (aset (pid, tid) c (ps_comms (count NFork s))) (count NFork s)
                    | None => count NFork s end).
    set (w1 := match w_command w (ppid, ptid) with Some c => note_command pid tid c w | None => w end).
    assert (S1 : ps_rows s1 = ps_rows s /\ ps_dsos s1 = ps_dsos s /\ ps_mappers s1 = ps_mappers s /\
                 ps_stats s1 = bump NFork (ps_stats s)).
    { unfold s1. destruct (pair_eqb _ _); auto. destruct (aget pair_eqb _ _); auto. }
    destruct S1 as (Sr & Sd & Sm & St).
    assert (Sc : forall p t, aget pair_eqb (p, t) (ps_comms s1) = w_command w1 (p, t)).
    { intros p t. unfold s1, w1. cbn [count ps_comms]. rewrite Cm.
      change (pair_eqb (ppid, ptid) (pid, tid)) with ((ppid =? pid) && (ptid =? tid)).
      destruct ((ppid =? pid) && (ptid =? tid)) eqn:Eq.
      - apply andb_prop in Eq as (E1 & E2). apply N.eqb_eq in E1, E2. subst ppid ptid.
        destruct (w_command w (pid, tid)) as [c|] eqn:Ec; cbn [count ps_comms]; [|apply Cm].
        cbn [note_command w_command]. destruct ((p =? pid) && (t =? tid)) eqn:Ep; [|apply Cm].
        apply andb_prop in Ep as (E1 & E2). apply N.eqb_eq in E1, E2. subst p t. now rewrite Cm.
      - destruct (w_command w (ppid, ptid)) as [c|]; cbn [count ps_comms set_comms note_command w_command]; [|apply Cm].
        rewrite comms_pair, Cm. reflexivity. }
    assert (Sw : w_space w1 = w_space w) by (unfold w1; now destruct (w_command w (ppid, ptid))).
    assert (Sk : w_no_kernel w1 = w_no_kernel w) by (unfold w1; now destruct (w_command w (ppid, ptid))).
    assert (Sp : spaces_ok cf evs n (w_space w) s1).
    { apply (spaces_mono cf evs n n _ s); auto; [|exact (rl_spaces _ _ _ _ R)].
      intros id _ (e1 & inf & pm & hh & d & H1). exists e1, inf, pm, hh, d. now rewrite Sr, Sd. }
    assert (Ad : forall x, adds page w e x = counter_eqb NFork x).
    { intros x. destruct x; cbn [adds counter_eqb]; rewrite ?Hs, ?Hm, ?E7; auto. }
    assert (W7 : world_before evs (S n) = if ppid =? pid then w1 else note_space pid (known_or w pid ppid) w1).
    { rewrite Wn. unfold see. rewrite Hs, Hm, E7. cbn [N.eqb Pos.eqb]. rewrite Ef. reflexivity. }
    destruct (ppid =? pid).
    - cbn [obind]. intros H. injection H as <- <-. split; [f_equal; rewrite W7; auto|].
      apply (step_plain cf evs n s s1 e); auto.
      + now rewrite W7, Sw.
      + intros p t. now rewrite W7.
      + intros x. fold page. fold w. rewrite Ad, St. reflexivity.
    - destruct (process_mapper_ok cf evs Hpage n w pid ppid _ Sp)
        as (mp & s0 & P1 & P2 & P3 & P4 & P5 & P6 & P7 & P8).
      rewrite P1. cbn [obind snd]. intros H. injection H as <- <-.
      split; [f_equal; rewrite W7; cbn; auto|].
      apply (step_plain cf evs n s s0 e); auto.
      + now rewrite P8.
      + now rewrite P8.
      + rewrite W7. apply (spaces_ext cf evs n (w_space (note_space pid (known_or w pid ppid) w))); auto.
        intros p. cbn. now rewrite Sw.
      + intros p t. rewrite W7, P8. cbn [set_mappers ps_comms note_space w_command]. apply Sc.
      + intros x. fold page. fold w. rewrite Ad, P8. cbn [set_mappers ps_stats]. rewrite St. reflexivity. }
  destruct (e_type e =? 4) eqn:E4.
  { apply N.eqb_eq in E4. rewrite E4. cbn [existsb orb N.eqb Pos.eqb].
    intros H. injection H as <- <-. destruct (Plain (Some NExit) 4) as (<- & P); auto.
    intros x. destruct x; cbn [adds counter_eqb]; rewrite ?Hs, ?Hm, ?E4; auto. }
  destruct (e_type e =? 3) eqn:E3.
  { apply N.eqb_eq in E3. rewrite E3. cbn [existsb orb N.eqb Pos.eqb].
    destruct (the_comm (e_body e)) as ((pid & tid) & comm) eqn:Ec.
    assert (Sp : spaces_ok cf evs n (w_space w) (count NComm s)) by exact (rl_spaces _ _ _ _ R).
    destruct (process_mapper_ok cf evs Hpage n w pid kernel_pid _ Sp)
      as (mp & s0 & P1 & P2 & P3 & P4 & P5 & P6 & P7 & P8).
    rewrite P1. cbn [obind snd]. intros H. injection H as <- <-.
    assert (W3 : world_before evs (S n) = note_command pid tid comm (note_space pid (space_of w pid) w)).
    { rewrite Wn. unfold see. rewrite Hs, Hm, E3. cbn [N.eqb Pos.eqb]. now rewrite Ec. }
    split; [now rewrite W3|].
    apply (step_plain cf evs n s _ e); auto.
    - cbn [set_comms ps_rows]. now rewrite P8.
    - cbn [set_comms ps_dsos]. now rewrite P8.
    - rewrite W3. cbn [note_command w_space]. exact P6.
    - intros p t. rewrite W3. cbn [set_comms ps_comms]. rewrite comms_pair, P8. cbn [set_mappers ps_comms count note_command w_command note_space].
      destruct (_ && _); auto. apply (rl_comms _ _ _ _ R).
    - intros x. cbn [set_comms ps_stats]. rewrite P8. fold page. fold w.
      destruct x; cbn [adds counter_eqb set_mappers ps_stats count]; rewrite ?Hs, ?Hm, ?E3; auto. }
  destruct (e_type e =? 17) eqn:E17.
  { apply N.eqb_eq in E17. rewrite E17. cbn [existsb orb N.eqb Pos.eqb].
    intros H. injection H as <- <-. destruct (Plain (Some NKsymbol) 17) as (<- & P); auto.
    intros x. destruct x; cbn [adds counter_eqb]; rewrite ?Hs, ?Hm, ?E17; auto. }
  assert (Ex : existsb (N.eqb (e_type e)) [1; 2; 3; 4; 5; 6; 7; 9; 10; 11; 12; 13; 14; 15; 16; 17; 19]
               = existsb (N.eqb (e_type e)) idle_types).
  { unfold is_mmap in Hm. apply orb_false_elim in Hm as (E1 & E10). unfold idle_types. cbn [existsb].
    rewrite E1, E10, E9, E7, E4, E3, E17. cbn [orb]. reflexivity. }
  rewrite Ex. destruct (existsb (N.eqb (e_type e)) idle_types) eqn:Ei.
  - intros H. injection H as <- <-. destruct (Plain None (e_type e)) as (<- & P); auto.
    intros x. destruct x; cbn [adds]; rewrite ?Hs, ?Hm, ?E9, ?E7, ?E3, ?E4, ?E17; auto.
  - intros H. now injection H as <- <-.
Qed.

(** * The loop *)
Lemma start_rel : rel cf evs 0 (start_state evs).
Proof.
  assert (Rows : forall j, nth_error (ps_rows (start_state evs)) j = option_map (fun e => (e, new_info)) (nth_error K j)).
  { intros j. cbn [start_state ps_rows]. unfold rows_of. apply nth_error_map. }
  split.
  - cbn [start_state ps_rows]. unfold rows_of. apply map_length.
  - intros pid. reflexivity.
  - intros p t. cbn. unfold pair_eqb. cbn [fst snd]. reflexivity.
  - intros j e Hj. lia.
  - intros j e _ Hj. rewrite Rows. unfold K. now rewrite Hj.
  - intros c. reflexivity.
  - intros name. cbn. intros j e Hj. lia.
  - intros u [].
Qed.

Lemma known_prefix_stop l : forall n e,
  (forall j f, (j < n)%nat -> nth_error l j = Some f -> known_event f = true) ->
  nth_error l n = Some e -> known_event e = false -> List.length (known_prefix l) = n.
Proof.
  induction l as [|x l IH]; intros [|n] e H Hn He; cbn in Hn; try easy.
  - injection Hn as <-. cbn. now rewrite He.
  - cbn. rewrite (H O x) by (auto; lia). cbn. f_equal. apply (IH n e); auto.
    intros j f Hj Hf. apply (H (S j) f); auto. lia.
Qed.

Lemma known_prefix_all l :
  (forall j f, nth_error l j = Some f -> known_event f = true) -> known_prefix l = l.
Proof.
  induction l as [|x l IH]; intros H; auto. cbn. rewrite (H O x) by auto. f_equal. apply IH.
  intros j f. exact (H (S j) f).
Qed.

Lemma process_rows_rel : forall k n s b s',
  rel cf evs n s -> (n + k = List.length K)%nat ->
  (forall j f, (j < n)%nat -> nth_error K j = Some f -> known_event f = true) ->
  process_rows cf k n (w_no_kernel (world_before evs n)) s = Ok (b, s') ->
  rel cf evs (List.length (processed evs)) s' /\
  b = (List.length (processed evs) =? List.length K)%nat.
Proof.
  induction k as [|k IH]; intros n s b s' R Hk Hkn E; cbn [process_rows] in E.
  - injection E as <- <-.
    assert (P : processed evs = K).
    { apply known_prefix_all. intros j f Hf. apply (Hkn j f); auto.
      assert (j < List.length K)%nat by (apply nth_error_Some; fold K in Hf; congruence). lia. }
    rewrite P. replace (List.length K) with n by lia. now rewrite Nat.eqb_refl.
  - destruct (nth_error K n) as [e|] eqn:He.
    2:{ apply nth_error_None in He. lia. }
    destruct (process_event cf n _ s) as [(r & s1)| | | |] eqn:Pe; cbn [obind] in E; try easy.
    pose proof (process_known n s e r s1 R He Pe) as P.
    destruct (known_event e) eqn:Ke.
    + destruct P as (-> & R1). apply (IH (S n) s1 b s'); auto; [lia|].
      intros j f Hj Hf. destruct (Nat.eq_dec j n) as [->|]; [congruence|]. apply (Hkn j f); auto. lia.
    + destruct P as (-> & ->). injection E as <- <-.
      assert (P : List.length (processed evs) = n) by (apply (known_prefix_stop K n e); auto).
      rewrite P. split; auto. symmetry. apply Nat.eqb_neq.
      assert (n < List.length K)%nat by (apply nth_error_Some; congruence). lia.
Qed.

Theorem process_events_rel b s :
  process_events cf evs = Ok (b, s) ->
  rel cf evs (List.length (processed evs)) s /\
  b = (List.length (processed evs) =? List.length K)%nat.
Proof.
  intros E. unfold process_events in E. cbv zeta in E.
  apply (process_rows_rel _ _ _ _ _ start_rel) in E; auto; [|lia].
  cbn [start_state ps_rows]. unfold rows_of. apply map_length.
Qed.
End Run.
