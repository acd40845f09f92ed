(** Proofs about the parser: looking up addresses and rewriting samples. *)
From Verif Require Import Base BytesModel TextModel TextProofs Assoc MapperModel MapperSpec MapperProofs
  MapperStepProofs ParserModel ParserSpec ParserMapperProofs.
From Coq Require Import String.
Local Open Scope N_scope.
Local Open Scope list_scope.

(** * Lists *)
Lemma nth_upd {A} (f : A -> A) : forall l i j,
  nth_error (upd i f l) j = if (i =? j)%nat then option_map f (nth_error l j) else nth_error l j.
Proof.
  induction l as [|x l IH]; intros [|i] [|j]; cbn; auto. now destruct (i =? j)%nat.
Qed.
Lemma upd_length {A} (f : A -> A) : forall l i, List.length (upd i f l) = List.length l.
Proof. induction l as [|x l IH]; intros [|i]; cbn; auto. Qed.

Lemma list_eqb_refl a : list_eqb a a = true.
Proof. now apply list_eqb_spec. Qed.

Lemma aget_aset_n {V} (k q : N) (v : V) m :
  aget N.eqb q (aset k v m) = if q =? k then Some v else aget N.eqb q m.
Proof. reflexivity. Qed.

Lemma w32_step x : w32 (w32 x + 1) = w32 (x + 1).
Proof. unfold w32. apply N.add_mod_idemp_l. discriminate. Qed.

Section Run.
Variable cf : pconfig.
Variable evs : list pevent.
Hypothesis Hpage : page_ok (pc_page cf).
Let page := pc_page cf.
Let K := kept evs.

(** * Lookups *)

(** Row [id] is the row of a mapping event that has been processed. *)
Definition known_row (s : pstate) (id : N) : Prop :=
  exists e inf pm h d,
    nth_error (ps_rows s) (N.to_nat id) = Some (e, inf) /\ e_body e = PMap pm /\
    m_file pm = file_of evs id /\ pi_hits inf = Some h /\
    aget list_eqb (file_of evs id) (ps_dsos s) = Some d.

(** The mapper of [pid] stands for the mappings [h]. *)
Definition ready (pid : N) (h : list call) (s : pstate) : Prop :=
  exists m, aget N.eqb pid (ps_mappers s) = Some m /\ run_calls (mkMapper [] page) h = Some m /\
    forall c, In c h -> known_row s (c_id c).

Definition touch_row (row : pevent * pinfo) : pevent * pinfo :=
  (fst row, set_hits (option_map (fun h => w32 (h + 1)) (pi_hits (snd row))) (snd row)).
Definition touch_dsos (t id : N) (ds : list (list N * dso)) : list (list N * dso) :=
  match aget list_eqb (file_of evs id) ds with
  | Some d => aset (file_of evs id) (add_thread t d) ds
  | None => ds
  end.
Definition touch (t : N) (s : pstate) (id : N) : pstate :=
  set_rows (upd (N.to_nat id) touch_row (ps_rows s)) (set_dsos (touch_dsos t id (ps_dsos s)) s).
Definition touches (t : N) (ids : list N) (s : pstate) : pstate := fold_left (touch t) ids s.

Definition ids_of (h : list call) (a : N) : list N :=
  match lookup page h a with Some (_, i, _) => [i] | None => [] end.

Lemma touches_app t a b s : touches t (a ++ b) s = touches t b (touches t a s).
Proof. apply fold_left_app. Qed.
Lemma touches_count t c ids : forall s, touches t ids (count c s) = count c (touches t ids s).
Proof. induction ids as [|i ids IH]; intros s; [reflexivity|]. exact (IH (touch t s i)). Qed.
Lemma touches_mappers t ids : forall s, ps_mappers (touches t ids s) = ps_mappers s.
Proof. induction ids as [|i ids IH]; intros s; [reflexivity|]. exact (IH (touch t s i)). Qed.
Lemma touches_comms t ids : forall s, ps_comms (touches t ids s) = ps_comms s.
Proof. induction ids as [|i ids IH]; intros s; [reflexivity|]. exact (IH (touch t s i)). Qed.
Lemma touches_stats t ids : forall s, ps_stats (touches t ids s) = ps_stats s.
Proof. induction ids as [|i ids IH]; intros s; [reflexivity|]. exact (IH (touch t s i)). Qed.

Lemma touch_dsos_some t id name ds : aget list_eqb name ds <> None ->
  aget list_eqb name (touch_dsos t id ds) <> None.
Proof.
  unfold touch_dsos. destruct (aget list_eqb (file_of evs id) ds); auto. cbn.
  now destruct (list_eqb name _).
Qed.

Lemma known_touch t id s i : known_row s i -> known_row (touch t s id) i.
Proof.
  intros (e & inf & pm & h & d & H1 & H2 & H3 & H4 & H5). unfold known_row, touch. cbn [ps_rows ps_dsos set_rows set_dsos].
  rewrite nth_upd, H1.
  assert (Hd : aget list_eqb (file_of evs i) (touch_dsos t id (ps_dsos s)) <> None)
    by (apply touch_dsos_some; congruence).
  destruct (aget list_eqb (file_of evs i) (touch_dsos t id (ps_dsos s))) as [d'|]; [|easy].
  destruct (N.to_nat id =? N.to_nat i)%nat.
  - exists e, (set_hits (Some (w32 (h + 1))) inf), pm, (w32 (h + 1)), d'.
    cbn. unfold touch_row. cbn. rewrite H4. auto 10.
  - exists e, inf, pm, h, d'. auto 10.
Qed.

Lemma ready_touch t ids pid h : forall s, ready pid h s -> ready pid h (touches t ids s).
Proof.
  induction ids as [|i ids IH]; intros s R; cbn; auto. apply IH.
  destruct R as (m & R1 & R2 & R3). exists m. split; [exact R1|]. split; auto.
  intros c Hc. apply known_touch. auto.
Qed.
Lemma ready_count c pid h s : ready pid h s -> ready pid h (count c s).
Proof. auto. Qed.

Lemma translate_page h a : translate cf h a mod page = a mod page.
Proof.
  unfold translate. destruct (pc_remap cf); auto. fold page.
  destruct (lookup page h a) as [((x & i) & off)|] eqn:E.
  - now apply lookup_weak in E as (E & _).
  - now apply marked_mod.
Qed.

Lemma map_address_ok a pid tid h s : ready pid h s ->
  map_address cf a pid tid s
  = Ok (is_mapped page h a, translate cf h a, place_of evs page h a,
        touches (merge_u32 pid tid) (ids_of h a) s).
Proof.
  intros (m & R1 & R2 & R3). unfold map_address, process_mapper. rewrite R1. cbn [obind].
  unfold is_mapped, translate, place_of, ids_of. fold page.
  pose proof (lookup_known page h m a R2) as L.
  pose proof (translate_page h a) as T. unfold translate in T. fold page in T. rewrite <- L.
  destruct (lookup page h a) as [((x & i) & off)|] eqn:E.
  - apply lookup_weak in E as (_ & c & Hc & <-); auto.
    destruct (R3 c Hc) as (e & inf & pm & n & d & H1 & H2 & H3 & H4 & H5).
    assert (Hi : (N.to_nat (c_id c) < List.length (ps_rows s))%nat)
      by (apply nth_error_Some; congruence).
    replace (c_id c <=? len (ps_rows s)) with true by (symmetry; apply N.leb_le; unfold len; lia).
    cbn [negb]. rewrite H1, H2, H3, H5, H4. cbn [obind].
    assert (S : set_rows
                  (upd (N.to_nat (c_id c)) (fun '(e0, i) => (e0, set_hits (Some (w32 (n + 1))) i)) (ps_rows s))
                  (set_dsos (aset (file_of evs (c_id c)) (add_thread (merge_u32 pid tid) d) (ps_dsos s)) s)
                = touches (merge_u32 pid tid) [c_id c] s).
    { cbn. unfold touch, touch_dsos. rewrite H5. f_equal.
      clear - H1 H4. revert H1. generalize (N.to_nat (c_id c)). intros k. generalize (ps_rows s).
      induction k as [|k IH]; intros [|r l]; cbn; try easy.
      - intros E. injection E as ->. unfold touch_row. cbn. now rewrite H4.
      - intros E. now rewrite IH. }
    rewrite S. destruct (pc_remap cf); auto. unfold page_offset. fold page. rewrite T, N.eqb_refl. auto.
  - cbn [obind]. rewrite unmapped_marked. destruct (pc_remap cf); auto.
    unfold page_offset. fold page. rewrite T, N.eqb_refl. auto.
Qed.

(** * Call chains and branch stacks *)
Definition all_ids (h : list call) (l : list N) : list N := flat_map (ids_of h) l.

Lemma is_address_spec a : (context_max <=? a) = negb (is_address a).
Proof. unfold is_address. change (2 ^ 64 - 4095) with context_max. apply N.leb_antisym. Qed.

Lemma map_chain_ok orig pid tid h : forall chain s, ready pid h s ->
  let L := filter (fun a => is_address a && negb (a =? orig)) chain in
  map_chain cf (translate cf h orig) orig pid tid chain s
  = Ok (map (fun a => if is_address a then translate cf h a else a) chain,
        map (place_of evs page h) L, forallb (is_mapped page h) L,
        touches (merge_u32 pid tid) (all_ids h L) s).
Proof.
  induction chain as [|a r IH]; intros s R L; [reflexivity|].
  cbn [map_chain]. rewrite is_address_spec. subst L. cbn [filter map].
  destruct (is_address a); cbn [negb andb].
  - destruct (a =? orig) eqn:E; cbn [negb].
    + apply N.eqb_eq in E. subst a. rewrite IH by auto. reflexivity.
    + rewrite (map_address_ok a pid tid h s R). cbn [obind].
      rewrite IH by now apply ready_touch. cbn [obind map forallb all_ids flat_map].
      rewrite touches_app. reflexivity.
  - rewrite IH by auto. reflexivity.
Qed.

Lemma null_same b : null_branch b = is_null b.
Proof. reflexivity. Qed.

Lemma real_entries_spec l :
  real_entries l = if forallb is_null (skipn (trimmed_size l) l)
                   then Some (firstn (trimmed_size l) l) else None.
Proof.
  induction l as [|b r IH]; [reflexivity|]. cbn [real_entries trimmed_size]. change (null_branch b) with (is_null b).
  destruct (is_null b) eqn:E; cbn [skipn firstn forallb].
  - now rewrite E.
  - rewrite IH. now destruct (forallb _ _).
Qed.

Definition move_branch (h : list call) (b : pbranch) : pbranch :=
  mkPBranch (translate cf h (b_from b)) (translate cf h (b_to b)) (b_flags b).
Definition branch_loc (h : list call) (b : pbranch) : list N * loc * loc :=
  (b_flags b, place_of evs page h (b_from b), place_of evs page h (b_to b)).

Lemma map_branches_ok pid tid h : forall n l s, ready pid h s -> (n <= List.length l)%nat ->
  let L := flat_map (fun b => [b_from b; b_to b]) (firstn n l) in
  map_branches cf pid tid n l s
  = Ok (map (move_branch h) (firstn n l) ++ skipn n l, map (branch_loc h) (firstn n l),
        forallb (is_mapped page h) L, touches (merge_u32 pid tid) (all_ids h L) s).
Proof.
  induction n as [|n IH]; intros l s R Hn L; [destruct l; reflexivity|].
  destruct l as [|b l]; [cbn in Hn; lia|]. subst L. cbn [map_branches firstn skipn map app flat_map forallb].
  rewrite (map_address_ok _ pid tid h s R). cbn [obind].
  rewrite (map_address_ok _ pid tid h) by now apply ready_touch. cbn [obind].
  rewrite IH; [|now repeat apply ready_touch|cbn in Hn; lia]. cbn [obind].
  cbn [all_ids flat_map]. fold (all_ids h). rewrite !touches_app.
  unfold branch_loc at 1, move_branch at 1. rewrite andb_assoc. reflexivity.
Qed.

Lemma trimmed_le l : (trimmed_size l <= List.length l)%nat.
Proof. induction l as [|b r IH]; cbn; auto. destruct (null_branch b); cbn; lia. Qed.

Definition moved_stack (h : list call) (l : list pbranch) : list pbranch :=
  match real_entries l with
  | Some r => map (move_branch h) r ++ skipn (List.length r) l
  | None => l
  end.
Definition stack_locs (h : list call) (l : list pbranch) : list (list N * loc * loc) :=
  match real_entries l with Some r => map (branch_loc h) r | None => [] end.
Definition stack_addresses (l : list pbranch) : list N :=
  match real_entries l with
  | Some r => flat_map (fun b => [b_from b; b_to b]) r
  | None => []
  end.

Lemma map_branch_stack_ok pid tid h l s : ready pid h s ->
  map_branch_stack cf pid tid l s
  = Ok (moved_stack h l, stack_locs h l,
        forallb (is_mapped page h) (stack_addresses l)
        && match real_entries l with Some _ => true | None => false end,
        touches (merge_u32 pid tid) (all_ids h (stack_addresses l)) s).
Proof.
  intros R. unfold map_branch_stack, moved_stack, stack_locs, stack_addresses.
  rewrite real_entries_spec.
  change (forallb null_branch) with (forallb is_null).
  destruct (forallb is_null _) eqn:E; cbn [negb]; [|reflexivity].
  rewrite (map_branches_ok pid tid h _ l s R (trimmed_le l)).
  rewrite firstn_length_le by apply trimmed_le. now rewrite andb_true_r.
Qed.

Lemma is_null_spec b : is_null b = true <-> null_entry b.
Proof. unfold is_null, null_entry. rewrite andb_true_iff, !N.eqb_eq. reflexivity. Qed.

Lemma stack_is_real l real nulls : stack_is l real nulls -> real_entries l = Some real.
Proof.
  intros (-> & F1 & F2). induction F1 as [|b r Hb F1 IH]; cbn [app].
  - destruct nulls as [|b r]; auto. inversion F2; subst. cbn.
    rewrite (proj2 (is_null_spec b)) by auto.
    replace (forallb is_null r) with true; auto. symmetry. apply forallb_forall. intros x Hx.
    apply is_null_spec. rewrite Forall_forall in *. auto.
  - cbn. destruct (is_null b) eqn:E; [now apply is_null_spec in E|]. now rewrite IH.
Qed.

Lemma real_stack_is l real : real_entries l = Some real -> stack_is l real (skipn (List.length real) l).
Proof.
  revert real. induction l as [|b r IH]; intros real E; cbn in E.
  - injection E as <-. split; [reflexivity|split; constructor].
  - destruct (is_null b) eqn:B.
    + destruct (forallb is_null r) eqn:A; [|easy]. injection E as <-. cbn. split; auto. split; auto.
      constructor; [now apply is_null_spec|]. apply Forall_forall. intros x Hx. apply is_null_spec.
      rewrite forallb_forall in A. auto.
    + destruct (real_entries r) as [q|]; [|easy]. injection E as <-. cbn.
      destruct (IH q eq_refl) as (H1 & H2 & H3). split; [cbn [app]; f_equal; exact H1|]. split; auto.
      constructor; auto. intros H. apply is_null_spec in H. congruence.
Qed.

Lemma stack_result_ok h l :
  stack_result (translate cf h) (place_of evs page h) l (moved_stack h l) (stack_locs h l).
Proof.
  unfold moved_stack, stack_locs. split.
  - intros real nulls S. rewrite (stack_is_real _ _ _ S). split; auto. f_equal.
    destruct S as (-> & _). now rewrite skipn_app, skipn_all, Nat.sub_diag.
  - intros H. destruct (real_entries l) as [r|] eqn:E; auto.
    apply real_stack_is in E. now apply H in E.
Qed.

(** * Samples *)
Definition sample_ids (h : list call) (sm : psample) : list N := all_ids h (lookups sm).

Definition sample_counts (h : list call) (sm : psample) (s : pstate) : pstate :=
  let s := if negb (len (data_lookup sm) =? 0) then count NData s else s in
  let s := if existsb (is_mapped page h) (data_lookup sm) then count NDataMapped s else s in
  if is_mapped page h (sample_ip sm) && forallb (is_mapped page h) (chain_lookups sm)
     && forallb (is_mapped page h) (branch_lookups sm)
     && match real_entries (s_branch sm) with Some _ => true | None => false end
  then count NSampleMapped s else s.

Definition new_sample (h : list call) (sm : psample) : psample :=
  mkPSample (s_pid sm) (s_tid sm) (Some (translate cf h (sample_ip sm)))
    (match s_addr sm with Some a => if a =? 0 then Some 0 else Some (translate cf h a) | None => None end)
    (map (fun a => if is_address a then translate cf h a else a) (s_chain sm))
    (moved_stack h (s_branch sm)).

Definition sample_row (h : list call) (sm : psample) (command : option (list N))
    (row : pevent * pinfo) : pevent * pinfo :=
  (set_body (PSample (new_sample h sm)) (fst row),
   mkInfo (match command with Some c => Some c | None => pi_command (snd row) end)
     (place_of evs page h (sample_ip sm))
     (match s_addr sm with Some a => if a =? 0 then no_loc else place_of evs page h a | None => no_loc end)
     (map (place_of evs page h) (chain_lookups sm))
     (stack_locs h (s_branch sm)) (pi_hits (snd row))).

Lemma upd_ext {A} (f g : A -> A) : (forall x, f x = g x) -> forall l i, upd i f l = upd i g l.
Proof. intros H. induction l as [|x l IH]; intros [|i]; cbn; auto; now rewrite ?H, ?IH. Qed.

Lemma process_mapper_again pid ppid s m s' :
  process_mapper cf pid ppid s = Ok (m, s') -> process_mapper cf pid ppid s' = Ok (m, s').
Proof.
  unfold process_mapper at 1. destruct (aget N.eqb pid (ps_mappers s)) as [m0|] eqn:E.
  - intros H. injection H as <- <-. unfold process_mapper. now rewrite E.
  - destruct (match aget N.eqb ppid (ps_mappers s) with Some m0 => Some m0 | None => _ end) as [pm|].
    + cbn [obind]. intros H. injection H as <- <-. unfold process_mapper. cbn. now rewrite N.eqb_refl.
    + destruct (new_mapper (pc_page cf)) as [nm| | | |]; cbn [obind]; try easy.
      intros H. injection H as <- <-. unfold process_mapper. cbn. now rewrite N.eqb_refl.
Qed.

Lemma map_address_create a pid tid s m s' :
  process_mapper cf pid kernel_pid s = Ok (m, s') ->
  map_address cf a pid tid s = map_address cf a pid tid s'.
Proof.
  intros E. unfold map_address. rewrite E, (process_mapper_again _ _ _ _ _ E). reflexivity.
Qed.

Lemma map_sample_ok i s e inf sm h s0 m :
  nth_error (ps_rows s) i = Some (e, inf) -> e_body e = PSample sm ->
  process_mapper cf (s_pid sm) kernel_pid s = Ok (m, s0) -> ready (s_pid sm) h s0 ->
  map_sample cf i s =
    Ok (let t := merge_u32 (s_pid sm) (s_tid sm) in
        let s1 := sample_counts h sm (touches t (sample_ids h sm) s0) in
        set_rows (upd i (sample_row h sm (aget pair_eqb (s_pid sm, s_tid sm) (ps_comms s)))
                    (ps_rows s1)) s1).
Proof.
  intros Hn Hb Hm R. unfold map_sample. rewrite Hn, Hb.
  rewrite (map_address_create _ _ _ _ _ _ Hm).
  change (or_0 (s_ip sm)) with (sample_ip sm).
  rewrite (map_address_ok _ _ _ h _ R). cbn [obind].
  set (t := merge_u32 (s_pid sm) (s_tid sm)).
  assert (D : forall s, ready (s_pid sm) h s ->
    (if negb (or_0 (s_addr sm) =? 0)
     then let s := count NData s in
          let! y := map_address cf (or_0 (s_addr sm)) (s_pid sm) (s_tid sm) s in
          let '(okd, a, l, s) := y in
          Ok (Some a, l, if okd then count NDataMapped s else s)
     else Ok (s_addr sm, no_loc, s))
    = Ok (s_addr (new_sample h sm),
          match s_addr sm with Some a => if a =? 0 then no_loc else place_of evs page h a | None => no_loc end,
          let s := touches t (all_ids h (data_lookup sm)) s in
          let s := if negb (len (data_lookup sm) =? 0) then count NData s else s in
          if existsb (is_mapped page h) (data_lookup sm) then count NDataMapped s else s)).
  { intros s1 R1. unfold data_lookup. cbn [new_sample s_addr].
    destruct (s_addr sm) as [a|]; cbn [or_0]; [|reflexivity].
    destruct (a =? 0) eqn:A; cbn [negb]; [apply N.eqb_eq in A; subst; reflexivity|].
    cbv zeta. rewrite (map_address_ok a _ _ h _ (ready_count NData _ _ _ R1)). cbn [obind].
    fold t. rewrite touches_count. cbn [all_ids flat_map existsb]. rewrite app_nil_r, orb_false_r. reflexivity. }
  rewrite D by now apply ready_touch. cbn [obind]. clear D. cbv zeta.
  set (u1 := if negb (len (data_lookup sm) =? 0) then true else false).
  assert (C : forall s, (let s := if negb (len (data_lookup sm) =? 0) then count NData s else s in
      if existsb (is_mapped page h) (data_lookup sm) then count NDataMapped s else s)
      = (if existsb (is_mapped page h) (data_lookup sm) then count NDataMapped
            (if negb (len (data_lookup sm) =? 0) then count NData s else s)
         else (if negb (len (data_lookup sm) =? 0) then count NData s else s))) by reflexivity.
  clear C u1.
  set (DC := fun s => if existsb (is_mapped page h) (data_lookup sm) then count NDataMapped
            (if negb (len (data_lookup sm) =? 0) then count NData s else s)
         else (if negb (len (data_lookup sm) =? 0) then count NData s else s)).
  assert (DT : forall ids s, touches t ids (DC s) = DC (touches t ids s)).
  { intros ids s1. unfold DC. destruct (existsb _ _), (negb _); rewrite ?touches_count; reflexivity. }
  assert (DR : forall s, ready (s_pid sm) h s -> ready (s_pid sm) h (DC s)).
  { intros s1 R1. unfold DC. destruct (existsb _ _), (negb _); auto. }
  match goal with |- context [map_chain cf _ _ _ _ _ ?S] => change S with
    (DC (touches t (all_ids h (data_lookup sm)) (touches t (ids_of h (sample_ip sm)) s0))) end.
  rewrite map_chain_ok by (apply DR; now repeat apply ready_touch). cbn [obind].
  change (filter (fun a => is_address a && negb (a =? sample_ip sm)) (s_chain sm)) with (chain_lookups sm).
  fold t. rewrite DT.
  rewrite (map_branch_stack_ok _ _ h) by (apply DR; now repeat apply ready_touch). cbn [obind].
  fold t. rewrite DT. change (stack_addresses (s_branch sm)) with (branch_lookups sm).
  rewrite <- !touches_app, <- ?app_assoc.
  assert (I : ids_of h (sample_ip sm) ++ all_ids h (data_lookup sm) ++ all_ids h (chain_lookups sm)
     ++ all_ids h (branch_lookups sm) = sample_ids h sm).
  { unfold sample_ids, lookups, all_ids. cbn [flat_map]. rewrite !flat_map_app. reflexivity. }
  rewrite I. unfold sample_counts. cbv zeta. fold (DC (touches t (sample_ids h sm) s0)).
  assert (B : forall a b c d, a && b && (c && d) = a && b && c && d) by (intros; now rewrite andb_assoc).
  rewrite B. f_equal. unfold set_rows at 1 2. f_equal.
  apply upd_ext. intros (e1, i1). reflexivity.
Qed.
End Run.
