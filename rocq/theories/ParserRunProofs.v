(** Proofs about the parser: the state after any number of events. *)
From Verif Require Import Base BytesModel TextModel TextProofs Assoc MapperModel MapperSpec MapperProofs
  MapperStepProofs ParserModel ParserSpec ParserMapperProofs ParserProofs.
From Coq Require Import String.
Local Open Scope N_scope.
Local Open Scope list_scope.

Lemma w32_add x y : w32 (w32 x + y) = w32 (x + y).
Proof. unfold w32. apply N.add_mod_idemp_l. discriminate. Qed.

(** [i] is the number of a mapping event among the first [n]. *)
Definition mid (evs : list pevent) (n : nat) (i : N) : Prop :=
  exists j e, i = N.of_nat j /\ (j < n)%nat /\ nth_error (kept evs) j = Some e /\ is_mmap e = true.
Lemma mid_lt evs n i : mid evs n i -> i < N.of_nat n.
Proof. intros (j & e & -> & H & _). lia. Qed.
Lemma mid_mono evs n n' i : (n <= n')%nat -> mid evs n i -> mid evs n' i.
Proof. intros H (j & e & E & L & R). exists j, e. split; auto. split; [lia|auto]. Qed.

(** * The world *)
Lemma replay_snoc l e : forall i w, replay i w (l ++ [e]) = see (i + len l) (replay i w l) e.
Proof.
  induction l as [|x l IH]; intros i w; cbn [app replay].
  - unfold len. cbn. now rewrite N.add_0_r.
  - rewrite IH. f_equal. unfold len. cbn [List.length]. lia.
Qed.

Lemma firstn_snoc {A} (l : list A) n x : nth_error l n = Some x -> firstn (S n) l = firstn n l ++ [x].
Proof.
  revert n. induction l as [|y l IH]; intros [|n] H; cbn in H; try easy.
  - now injection H as <-.
  - cbn [firstn]. rewrite (IH n H) at 1. reflexivity.
Qed.

Lemma world_step evs n e : nth_error (kept evs) n = Some e ->
  world_before evs (S n) = see (N.of_nat n) (world_before evs n) e.
Proof.
  intros H. unfold world_before. rewrite (firstn_snoc _ _ _ H), replay_snoc. f_equal.
  unfold len. rewrite firstn_length_le; [lia|]. assert (n < List.length (kept evs))%nat; [|lia].
  apply nth_error_Some. congruence.
Qed.

Section Run.
Variable cf : pconfig.
Variable evs : list pevent.
Hypothesis Hpage : page_ok (pc_page cf).
Let page := pc_page cf.
Let K := kept evs.

(** * Spaces *)
Definition spaces_ok (n : nat) (w : N -> option (list call)) (s : pstate) : Prop :=
  forall pid, match w pid with
              | None => aget N.eqb pid (ps_mappers s) = None
              | Some h => ready cf evs pid h s /\ forall c, In c h -> mid evs n (c_id c)
              end.

Lemma ready_mono pid h n s s' :
  aget N.eqb pid (ps_mappers s') = aget N.eqb pid (ps_mappers s) ->
  (forall c, In c h -> mid evs n (c_id c)) ->
  (forall id, id < N.of_nat n -> known_row evs s id -> known_row evs s' id) ->
  ready cf evs pid h s -> ready cf evs pid h s'.
Proof.
  intros E L Kn (m & R1 & R2 & R3). exists m. rewrite E. split; auto. split; auto.
  intros c Hc. apply Kn; auto. apply (mid_lt evs); auto.
Qed.

Lemma spaces_mono n n' w s s' : (n <= n')%nat ->
  ps_mappers s' = ps_mappers s ->
  (forall id, id < N.of_nat n -> known_row evs s id -> known_row evs s' id) ->
  spaces_ok n w s -> spaces_ok n' w s'.
Proof.
  intros L E Kn H pid. specialize (H pid). destruct (w pid) as [h|]; [|congruence].
  destruct H as (R & I). split.
  - apply (ready_mono pid h n s s'); auto; now rewrite E.
  - intros c Hc. apply (mid_mono evs n); auto.
Qed.

Lemma page_align : align_ok (pc_page cf).
Proof. right. destruct Hpage as (k & H & E). exists k. split; [lia|auto]. Qed.

(** Two spaces that agree everywhere. *)
Lemma spaces_ext n w w' s : (forall p, w p = w' p) -> spaces_ok n w s -> spaces_ok n w' s.
Proof. intros E H pid. rewrite <- E. apply H. Qed.

Lemma process_mapper_ok n w pid ppid s : spaces_ok n (w_space w) s ->
  let h := known_or w pid ppid in
  exists m s0, process_mapper cf pid ppid s = Ok (m, s0) /\
    aget N.eqb pid (ps_mappers s0) = Some m /\ run_calls (mkMapper [] page) h = Some m /\
    ready cf evs pid h s0 /\ (forall c, In c h -> mid evs n (c_id c)) /\
    spaces_ok n (w_space (note_space pid h w)) s0 /\
    (forall q, q <> pid -> aget N.eqb q (ps_mappers s0) = aget N.eqb q (ps_mappers s)) /\
    s0 = set_mappers (ps_mappers s0) s.
Proof.
  intros H h. unfold process_mapper.
  assert (Same : forall s, s = set_mappers (ps_mappers s) s) by (intros []; reflexivity).
  destruct (aget N.eqb pid (ps_mappers s)) as [m|] eqn:E.
  - pose proof (H pid) as P. subst h. unfold known_or. destruct (w_space w pid) as [h|] eqn:Ew; [|congruence].
    destruct P as ((m' & R1 & R2 & R3) & I). assert (m' = m) by congruence. subst m'.
    exists m, s. split; auto. split; auto. split; auto. split; [exists m; auto|]. split; auto.
    split; [|auto]. apply (spaces_ext n (w_space w)); auto. intros p. cbn.
    destruct (p =? pid) eqn:Ep; auto. apply N.eqb_eq in Ep. now subst p.
  - assert (Wp : w_space w pid = None).
    { pose proof (H pid) as P. destruct (w_space w pid) as [h0|]; auto.
      destruct P as ((m & R1 & _) & _). congruence. }
    assert (Par : exists m0, (let! m := match (match aget N.eqb ppid (ps_mappers s) with
                         | Some m => Some m | None => aget N.eqb kernel_pid (ps_mappers s) end) with
                       | Some m => Ok (copy_mapper m) | None => new_mapper (pc_page cf) end in Ok m) = Ok m0 /\
              run_calls (mkMapper [] page) h = Some m0 /\
              (forall c, In c h -> known_row evs s (c_id c) /\ mid evs n (c_id c))).
    { subst h. unfold known_or. rewrite Wp. pose proof (H ppid) as P. pose proof (H kernel_pid) as Q.
      destruct (w_space w ppid) as [h|].
      - destruct P as ((m & R1 & R2 & R3) & I). rewrite R1. exists m. split; auto.
      - rewrite P. destruct (w_space w kernel_pid) as [h|].
        + destruct Q as ((m & R1 & R2 & R3) & I). rewrite R1. exists m. split; auto.
        + rewrite Q. rewrite (new_mapper_ok _ page_align). exists (mkMapper [] page). split; auto.
          split; [reflexivity|]. easy. }
    destruct Par as (m & Pm & Pr & Pk).
    destruct (match (match aget N.eqb ppid (ps_mappers s) with
                     | Some m => Some m | None => aget N.eqb kernel_pid (ps_mappers s) end) with
              | Some m => Ok (copy_mapper m) | None => new_mapper (pc_page cf) end) as [m'| | | |];
      cbn [obind] in Pm; try discriminate. injection Pm as ->. cbn [obind].
    set (s0 := set_mappers (aset pid m (ps_mappers s)) s).
    exists m, s0. split; auto. split; [cbn; now rewrite N.eqb_refl|]. split; auto.
    assert (R0 : ready cf evs pid h s0).
    { exists m. split; [cbn; now rewrite N.eqb_refl|]. split; auto. intros c Hc. apply (Pk c Hc). }
    split; auto. split; [intros c Hc; apply (Pk c Hc)|]. split; [|split; [|reflexivity]].
    + intros p. cbn. destruct (p =? pid) eqn:Ep.
      * apply N.eqb_eq in Ep. subst p. split; auto. intros c Hc. apply (Pk c Hc).
      * pose proof (H p) as P. destruct (w_space w p) as [hp|].
        -- destruct P as (R & I). split; auto. eapply (ready_mono p hp n s); eauto. cbn. now rewrite Ep.
        -- exact P.
    + intros q Hq. cbn. destruct (q =? pid) eqn:Eq; auto. now apply N.eqb_eq in Eq.
Qed.

(** * Uses *)
Definition cnt (ids : list N) (j : nat) : N := len (filter (fun i => i =? N.of_nat j) ids).

Lemma set_hits_same i : set_hits (pi_hits i) i = i.
Proof. now destruct i. Qed.
Lemma set_hits_twice a b i : set_hits a (set_hits b i) = set_hits a i.
Proof. now destruct i. Qed.

Lemma touches_row t j e ids : forall s inf o,
  nth_error (ps_rows s) j = Some (e, inf) -> pi_hits inf = option_map w32 o ->
  nth_error (ps_rows (touches evs t ids s)) j
  = Some (e, set_hits (option_map (fun x => w32 (x + cnt ids j)) o) inf).
Proof.
  induction ids as [|i ids IH]; intros s inf o H Ho.
  - cbn [touches fold_left]. rewrite H. do 2 f_equal. rewrite <- (set_hits_same inf) at 1. f_equal.
    rewrite Ho. destruct o as [x|]; cbn; auto. now rewrite N.add_0_r.
  - cbn [touches fold_left]. fold (touches evs t ids (touch evs t s i)).
    unfold cnt. cbn [filter].
    assert (R : nth_error (ps_rows (touch evs t s i)) j
                = if (N.to_nat i =? j)%nat then Some (touch_row (e, inf)) else Some (e, inf)).
    { cbn [touch ps_rows set_rows]. rewrite nth_upd, H. now destruct (_ =? _)%nat. }
    destruct (i =? N.of_nat j) eqn:E.
    + apply N.eqb_eq in E. subst i. rewrite Nnat.Nat2N.id, Nat.eqb_refl in R.
      unfold touch_row in R. cbn [fst snd] in R.
      rewrite (IH _ _ (option_map (fun x => x + 1) o) R).
      * do 2 f_equal. rewrite set_hits_twice. f_equal. destruct o as [x|]; cbn; auto. f_equal. f_equal.
        unfold cnt, len. cbn [List.length]. lia.
      * cbn. rewrite Ho. destruct o as [x|]; cbn; auto. now rewrite w32_step.
    + replace (N.to_nat i =? j)%nat with false in R
        by (symmetry; apply Nat.eqb_neq; apply N.eqb_neq in E; lia).
      exact (IH _ _ _ R Ho).
Qed.

Lemma touches_length t ids : forall s,
  List.length (ps_rows (touches evs t ids s)) = List.length (ps_rows s).
Proof.
  induction ids as [|i ids IH]; intros s; [reflexivity|].
  etransitivity; [exact (IH (touch evs t s i))|]. apply upd_length.
Qed.

Lemma known_touches t ids : forall s i, known_row evs s i -> known_row evs (touches evs t ids s) i.
Proof.
  induction ids as [|x ids IH]; intros s i H; [exact H|]. apply (IH (touch evs t s x)).
  now apply known_touch.
Qed.

(** * Files *)
Definition dso_uses (U : list (N * (N * N))) (name : list N) (d : dso) : Prop :=
  (d_hit d = true <-> exists u, In u U /\ file_of evs (fst u) = name) /\
  NoDup (d_threads d) /\
  forall t, In t (d_threads d) <->
    exists i pid tid, In (i, (pid, tid)) U /\ file_of evs i = name /\ t = merge_u32 pid tid.

(** The table [ds'] is [ds] with [U'] added to the uses. *)
Definition dsos_grow (U' : list (N * (N * N))) (ds ds' : list (list N * dso)) : Prop :=
  forall name, match aget list_eqb name ds with
               | None => aget list_eqb name ds' = None
               | Some d => exists d', aget list_eqb name ds' = Some d' /\
                   (d_maj d', d_min d', d_ino d') = (d_maj d, d_min d, d_ino d) /\
                   forall U, dso_uses U name d -> dso_uses (U ++ U') name d'
               end.

Lemma dso_uses_skip U i pid tid name d :
  file_of evs i <> name -> dso_uses U name d -> dso_uses (U ++ [(i, (pid, tid))]) name d.
Proof.
  intros Hn (H1 & H2 & H3). split; [|split; auto].
  - rewrite H1. split; intros (u & Hu & E); exists u; split; auto.
    + apply in_or_app. now left.
    + apply in_app_or in Hu as [Hu|[<-|[]]]; auto. now cbn in E.
  - intros t. rewrite H3. split; intros (j & p & q & Hu & E & T); exists j, p, q; split; auto.
    + apply in_or_app. now left.
    + apply in_app_or in Hu as [Hu|[Hu|[]]]; auto. injection Hu as <- <- <-. easy.
Qed.

Lemma mem_by_in t l : mem_by N.eqb t l = true <-> In t l.
Proof.
  unfold mem_by. rewrite existsb_exists. split.
  - intros (x & Hx & E). apply N.eqb_eq in E. now subst.
  - intros H. exists t. now rewrite N.eqb_refl.
Qed.

Lemma dso_uses_add U i pid tid d :
  dso_uses U (file_of evs i) d ->
  dso_uses (U ++ [(i, (pid, tid))]) (file_of evs i) (add_thread (merge_u32 pid tid) d).
Proof.
  intros (H1 & H2 & H3). unfold add_thread. split; [|split].
  - cbn. split; auto. intros _. exists (i, (pid, tid)). split; auto. apply in_or_app. right. now left.
  - cbn. destruct (mem_by N.eqb _ _) eqn:E; auto. constructor; auto.
    intros H. apply mem_by_in in H. congruence.
  - intros t. cbn. set (t0 := merge_u32 pid tid).
    assert (A : In t (if mem_by N.eqb t0 (d_threads d) then d_threads d else t0 :: d_threads d)
                <-> In t (d_threads d) \/ t = t0).
    { destruct (mem_by N.eqb t0 (d_threads d)) eqn:E.
      - apply mem_by_in in E. split; [auto|]. intros [H| ->]; auto.
      - cbn. intuition. }
    rewrite A, H3. split.
    + intros [(j & p & q & Hu & E & T)| ->].
      * exists j, p, q. split; auto. apply in_or_app. now left.
      * exists i, pid, tid. split; auto. apply in_or_app. right. now left.
    + intros (j & p & q & Hu & E & T). apply in_app_or in Hu as [Hu|[Hu|[]]].
      * left. exists j, p, q. auto.
      * injection Hu as <- <- <-. now right.
Qed.

Lemma touch_grow pid tid i ds : dsos_grow [(i, (pid, tid))] ds (touch_dsos evs (merge_u32 pid tid) i ds).
Proof.
  intros name. unfold touch_dsos.
  destruct (aget list_eqb (file_of evs i) ds) as [d0|] eqn:E0.
  - cbn. destruct (list_eqb name (file_of evs i)) eqn:En.
    + apply list_eqb_spec in En. rewrite En, E0. exists (add_thread (merge_u32 pid tid) d0).
      split; auto. split; auto. intros U. apply dso_uses_add.
    + assert (file_of evs i <> name) by (intros X; rewrite X, list_eqb_refl in En; easy).
      destruct (aget list_eqb name ds) as [d|]; auto. exists d. split; auto. split; auto.
      intros U. now apply dso_uses_skip.
  - destruct (aget list_eqb name ds) as [d|] eqn:E; auto. exists d. split; auto. split; auto.
    intros U. apply dso_uses_skip. intros X; rewrite <- X in E; congruence.
Qed.

Lemma touches_grow pid tid ids : forall s,
  dsos_grow (map (fun i => (i, (pid, tid))) ids) (ps_dsos s)
    (ps_dsos (touches evs (merge_u32 pid tid) ids s)).
Proof.
  induction ids as [|i ids IH]; intros s name.
  - cbn. destruct (aget list_eqb name (ps_dsos s)) as [d|]; auto. exists d. split; auto. split; auto.
    intros U. now rewrite app_nil_r.
  - pose proof (touch_grow pid tid i (ps_dsos s) name) as H1.
    pose proof (IH (touch evs (merge_u32 pid tid) s i) name) as H2.
    change (ps_dsos (touch evs (merge_u32 pid tid) s i))
      with (touch_dsos evs (merge_u32 pid tid) i (ps_dsos s)) in H2.
    change (touches evs (merge_u32 pid tid) (i :: ids) s)
      with (touches evs (merge_u32 pid tid) ids (touch evs (merge_u32 pid tid) s i)).
    destruct (aget list_eqb name (ps_dsos s)) as [d|].
    + destruct H1 as (d1 & E1 & M1 & U1). rewrite E1 in H2. destruct H2 as (d2 & E2 & M2 & U2).
      exists d2. split; auto. split; [congruence|]. intros U HU. cbn [map].
      change ((i, (pid, tid)) :: map (fun i0 => (i0, (pid, tid))) ids)
        with ([(i, (pid, tid))] ++ map (fun i0 => (i0, (pid, tid))) ids).
      rewrite app_assoc. auto.
    + now rewrite H1 in H2.
Qed.

Lemma uses_of_ids w e sm : sample_of e = Some sm ->
  uses_of page w e
  = map (fun i => (i, (s_pid sm, s_tid sm))) (sample_ids cf (space_of w (s_pid sm)) sm).
Proof.
  intros E. unfold uses_of. rewrite E. unfold sample_ids, all_ids, ids_of. fold page.
  induction (lookups sm) as [|a l IH]; cbn [flat_map map]; auto.
  rewrite map_app, IH. f_equal. now destruct (lookup _ _ a) as [((x & i) & o)|].
Qed.

(** * The relation kept by the loop *)
Record rel (n : nat) (s : pstate) : Prop := mkRel {
  rl_len : List.length (ps_rows s) = List.length K;
  rl_spaces : spaces_ok n (w_space (world_before evs n)) s;
  rl_comms : forall p t, aget pair_eqb (p, t) (ps_comms s) = w_command (world_before evs n) (p, t);
  rl_done : forall j e, (j < n)%nat -> nth_error K j = Some e ->
    exists row, nth_error (ps_rows s) j = Some row /\
      row_result cf evs j (world_before evs j) e row /\
      pi_hits (snd row) = if is_mmap e then Some (w32 (hits_of page evs n (N.of_nat j))) else None;
  rl_todo : forall j e, (n <= j)%nat -> nth_error K j = Some e ->
    nth_error (ps_rows s) j = Some (e, new_info);
  rl_stats : forall c, ps_stats s c = w32 (total page evs c n);
  rl_files : forall name, file_result page evs n name (aget list_eqb name (ps_dsos s));
  rl_uses : forall u, In u (uses page evs n) -> mid evs n (fst u) }.

(** An event that is neither a sample nor a mapping. *)
Lemma step_plain n s s' e :
  rel n s -> nth_error K n = Some e -> sample_of e = None -> is_mmap e = false ->
  ps_rows s' = ps_rows s -> ps_dsos s' = ps_dsos s ->
  spaces_ok n (w_space (world_before evs (S n))) s' ->
  (forall p t, aget pair_eqb (p, t) (ps_comms s') = w_command (world_before evs (S n)) (p, t)) ->
  (forall c, ps_stats s' c = if adds page (world_before evs n) e c then w32 (ps_stats s c + 1) else ps_stats s c) ->
  rel (S n) s'.
Proof.
  intros R Hn Hs Hm Er Ed Hsp Hc Hst.
  assert (U : uses page evs (S n) = uses page evs n).
  { cbn [uses]. fold K. rewrite Hn. unfold uses_of. rewrite Hs. apply app_nil_r. }
  split.
  - rewrite Er. apply (rl_len _ _ R).
  - revert Hsp. apply spaces_mono; auto.
  - auto.
  - intros j f Hj Hf. rewrite Er. unfold hits_of. rewrite U.
    destruct (Nat.eq_dec j n) as [->|Hne].
    + assert (f = e) by congruence. subst f. exists (e, new_info). rewrite Hm.
      split; [apply (rl_todo _ _ R); auto|]. split; auto.
      unfold row_result. rewrite Hs, Hm. repeat split.
    + apply (rl_done _ _ R); auto. lia.
  - intros j f Hj Hf. rewrite Er. apply (rl_todo _ _ R); auto. lia.
  - intros c. rewrite Hst. cbn [total]. fold K. rewrite Hn, (rl_stats _ _ R).
    destruct (adds _ _ _ _); [apply w32_add|]. now rewrite N.add_0_r.
  - intros name. rewrite Ed. pose proof (rl_files _ _ R name) as F. unfold file_result in *.
    assert (M : forall j f, (j < S n)%nat -> maps_file evs name j f -> (j < n)%nat).
    { intros j f Hj (M1 & M2 & _). destruct (Nat.eq_dec j n) as [->|]; [|lia]. fold K in M1. congruence. }
    rewrite U. destruct (aget list_eqb name (ps_dsos s)) as [d|].
    + destruct F as ((j & f & (F1 & F2 & F3) & F4) & F5). split; auto. exists j, f. split; auto.
      split; [lia|]. auto.
    + intros j f Hj Hf. apply (F j f); eauto.
  - rewrite U. intros u Hu. apply (mid_mono evs n); auto. apply (rl_uses _ _ R u Hu).
Qed.

Lemma kept_row n s e : rel n s -> nth_error K n = Some e -> nth_error (ps_rows s) n = Some (e, new_info).
Proof. intros R H. now apply (rl_todo _ _ R). Qed.

Lemma file_of_nth n e : nth_error K n = Some e -> file_of evs (N.of_nat n) = m_file (the_map (e_body e)).
Proof. intros H. unfold file_of. rewrite Nnat.Nat2N.id. fold K. now rewrite H. Qed.

(** A mapping. *)
Lemma kernel_range_call i m :
  kernel_range (m_start m) (m_len m) (m_pgoff m)
  = (c_start (call_of i true m), c_size (call_of i true m)) /\ c_off (call_of i true m) = 0.
Proof.
  unfold kernel_range, call_of. unfold w64.
  destruct (_ && _) eqn:E; cbn; auto. split; auto. f_equal.
  rewrite (N.add_comm (m_len m)). unfold sub64.
  apply andb_prop in E as (_ & E). apply N.ltb_lt in E.
  assert ((m_start m + m_len m) mod two64 < two64) by (apply N.mod_lt; discriminate).
  set (x := (m_start m + m_len m) mod two64) in *.
  replace (x + two64 - m_pgoff m) with (x - m_pgoff m + 1 * two64) by lia.
  rewrite N.mod_add by discriminate. apply N.mod_small. lia.
Qed.

Definition moved_map (h : list call) (c : call) (m : pmap) : pmap :=
  if pc_remap cf
  then mkPMap (m_pid m) (translate cf h (c_start c)) (c_size c) (c_off c)
         (m_file m) (m_maj m) (m_min m) (m_ino m)
  else m.

Lemma moved_file h c m : m_file (moved_map h c m) = m_file m.
Proof. unfold moved_map. now destruct (pc_remap cf). Qed.

(** MapMmapEvent, when the mapping can be entered. *)
Lemma map_mmap_ok n w m k s :
  spaces_ok n (w_space w) s ->
  let c := call_of (N.of_nat n) k m in
  let h := space_of w (m_pid m) in
  exists mp s0, process_mapper cf (m_pid m) kernel_pid s = Ok (mp, s0) /\
  run_calls (mkMapper [] page) h = Some mp /\
  (map_mmap cf m (N.of_nat n) k s =
   let! r := map_with_id mp (c_start c) (c_size c) (c_id c) (c_off c) (is_jit cf m) in
   let '(ok, mp') := r in
   let s1 := set_mappers (aset (m_pid m) mp' (ps_mappers s0)) s0 in
   if negb ok then Ok (None, s1)
   else if pc_remap cf then
     match get_mapped mp' (c_start c) with
     | None => Ok (None, s1)
     | Some _ => Ok (Some (moved_map (h ++ [c]) c m), s1)
     end
   else Ok (Some m, s1)).
Proof.
  intros Sp c h.
  destruct (process_mapper_ok n w (m_pid m) kernel_pid s Sp) as (mp & s0 & P1 & P2 & P3 & P4 & P5 & P6 & P7 & P8).
  exists mp, s0. split; auto. split; auto. unfold map_mmap. rewrite P1. cbn [obind].
  assert (E : (if k then kernel_range (m_start m) (m_len m) (m_pgoff m) else (m_start m, m_len m))
              = (c_start c, c_size c)).
  { subst c. destruct k; [apply kernel_range_call|reflexivity]. }
  assert (O : (if k then 0 else m_pgoff m) = c_off c).
  { subst c. destruct k; [symmetry; apply kernel_range_call|reflexivity]. }
  assert (I : c_id c = N.of_nat n).
  { subst c. unfold call_of. destruct k; auto. destruct (_ && _); auto. }
  rewrite E, O, I. fold (is_jit cf m).
  destruct (map_with_id mp _ _ _ _ _) as [([|] & mp')| | | |] eqn:M; cbn [obind negb]; auto.
  destruct (pc_remap cf) eqn:Rm; auto.
  assert (Rn : run_calls (mkMapper [] page) (h ++ [c]) = Some mp').
  { rewrite run_snoc. fold h in P3. change (known_or w (m_pid m) kernel_pid) with h in P3. rewrite P3.
    rewrite I. destruct (is_jit cf m); [now rewrite M|]. now rewrite (aligned_same _ _ _ _ _ _ M). }
  pose proof (lookup_known page (h ++ [c]) mp' (c_start c) Rn) as L.
  destruct (get_mapped mp' (c_start c)) as [((x & i) & off)|] eqn:G; auto.
  unfold moved_map, page_offset. rewrite Rm. unfold translate. fold page. rewrite Rm, L.
  replace (x mod page =? c_start c mod page) with true; auto.
  symmetry. apply N.eqb_eq. eapply lookup_weak; eauto.
Qed.
End Run.
