(** Locations show the mapping their address was first seen with. *)
From Coq Require Import String.
From Verif Require Import Base BytesModel TextModel Assoc ProfileModel BuilderModel BuilderSpec BuilderProofs
  SpeModel PerfProto NormalizerModel NormalizerSpec NormalizerProofs NormalizerProps
  ConverterModel ConverterSpec ConverterProofs
  ConverterOpenProofs ConverterInvProofs ConverterKeyProofs ConverterStateProofs ConverterRunProofs ConverterTrackProofs
  ConverterMainProofs ConverterTotalProofs ConverterFinalProofs ConverterHeadSpec ConverterHeadProofs ConverterPlaceSpec.
Local Open Scope N_scope.
Local Open Scope list_scope.

Section Place.
Variable Q : ptr -> hmapping -> Prop.

Definition map_shown (b : builder) (q : ptr) (id : N) : Prop :=
  1 <= id /\ exists m h, nth_error (pf_mapping (b_profile b)) (N.to_nat (id - 1)) = Some m /\ Q q h /\
    shows (b_profile b) h m.
Definition maps_shown (b : builder) (pi : pinfo) : Prop :=
  forall q id, aget Nat.eqb q (pi_map pi) = Some id -> map_shown b q id.

Definition loc_shown (b : builder) (a id : N) (o : option mref) : Prop :=
  exists l, nth_error (pf_location (b_profile b)) (N.to_nat (id - 1)) = Some l /\ 1 <= id /\
    lc_id l = id /\ lc_addr l = a /\
    match o with None => lc_mapping l = 0 | Some (q, _) => map_shown b q (lc_mapping l) end.
Definition rel (b : builder) (a : N) (c : option N) (o : option (option mref)) : Prop :=
  match c, o with
  | Some id, Some o => loc_shown b a id o
  | None, None => True
  | _, _ => False
  end.

Lemma map_shown_gx b b' q id : tables b -> gx b b' -> map_shown b q id -> map_shown b' q id.
Proof.
  intros T G (A & m & h & B & C & D). split; [exact A|]. exists m, h.
  destruct (gx_map _ _ G) as (t & E). destruct (gx_tab _ _ G T) as (_ & W). destruct (gr_str _ _ W) as (u & F).
  rewrite E. split.
  - rewrite nth_error_app1; [exact B|exact (nth_error_len_some _ _ _ B)].
  - split; [exact C|]. exact (shows_app _ _ _ _ _ F D).
Qed.

Lemma loc_shown_gx b b' a id o : tables b -> gx b b' -> loc_shown b a id o -> loc_shown b' a id o.
Proof.
  intros T G (l & A & B & C & D & E). exists l. destruct (gx_loc _ _ G) as (t & F).
  split; [rewrite F, nth_error_app1; [exact A|exact (nth_error_len_some _ _ _ A)]|].
  do 3 (split; [assumption|]). destruct o as [[q h]|]; [|exact E]. exact (map_shown_gx _ _ _ _ T G E).
Qed.

Lemma rel_gx b b' a x o : tables b -> gx b b' -> rel b a x o -> rel b' a x o.
Proof. intros T G. destruct x, o; cbn [rel]; auto. now apply loc_shown_gx. Qed.

Lemma maps_shown_gx b b' pi : tables b -> gx b b' -> maps_shown b pi -> maps_shown b' pi.
Proof. intros T G H q id E. exact (map_shown_gx _ _ _ _ T G (H q id E)). Qed.

Lemma add_mapping_shown pi b o pi' b' id :
  tables b -> maps_shown b pi -> (forall q h, o = Some (q, h) -> Q q h) ->
  add_mapping pi b o = Ok (pi', b', id) ->
  maps_shown b' pi' /\ pi_loc pi' = pi_loc pi /\
  match o with None => id = 0 | Some (q, _) => map_shown b' q id end.
Proof.
  intros T M HQ H. destruct (add_mapping_gx _ _ _ _ _ _ H) as (G & _).
  destruct (add_mapping_shows _ _ _ _ _ _ T H) as (t & ET & ONE & F).
  pose proof (maps_shown_gx _ _ _ T G M) as M'.
  unfold add_mapping in H. destruct o as [[q h]|].
  2:{ injection H as <- <- <-. auto. }
  destruct (aget Nat.eqb q (pi_map pi)) as [i|] eqn:E.
  { injection H as <- <- <-. split; [exact M|]. split; [reflexivity|]. exact (M q i E). }
  destruct (ONE q h eq_refl E) as (m & ->). inversion F as [|? ? (q1 & h1 & E1 & S1) _]; subst.
  injection E1 as <- <-.
  destruct (if is_empty (fst (hm_build h)) then (b, 0%Z) else utf8_id b (fst (hm_build h))) as [b1 build].
  destruct (utf8_id b1 (mapping_filename h)) as [b2 file].
  destruct (hm_start h <=? hm_limit h); [|discriminate H]. 
  assert (NEW : map_shown b' q (N.of_nat (List.length (pf_mapping (b_profile b))) + 1)).
  { split; [lia|]. exists m, h. rewrite ET. replace (N.to_nat _) with (List.length (pf_mapping (b_profile b))) by lia.
    rewrite nth_error_app2, Nat.sub_diag by lia. split; [reflexivity|]. split; [now apply HQ|exact S1]. }
  assert (EP : pi' = pi_set_map (aset q (N.of_nat (List.length (pf_mapping (b_profile b))) + 1) (pi_map pi)) pi /\
               id = N.of_nat (List.length (pf_mapping (b_profile b))) + 1) by (split; congruence).
  destruct EP as (-> & ->). clear H. split; [|split; [reflexivity|exact NEW]].
  intros q' i Hi. cbn [pi_map pi_set_map] in Hi. rewrite aget_aset in Hi.
  destruct (Nat.eqb_spec q' q) as [->|]; [injection Hi as <-; exact NEW|exact (M' q' i Hi)].
Qed.

Lemma add_location_shown pi b a o pi' b' id seen :
  tables b -> maps_shown b pi -> (forall q h, o = Some (q, h) -> Q q h) ->
  (forall x, rel b x (aget N.eqb x (pi_loc pi)) (seen x)) ->
  add_location pi b a o = Ok (pi', b', id) ->
  maps_shown b' pi' /\
  forall x, rel b' x (aget N.eqb x (pi_loc pi'))
    (match seen x with Some o => Some o | None => if a =? x then Some o else None end).
Proof.
  intros T M HQ R H. destruct (add_location_gx _ _ _ _ _ _ _ H) as (G & _).
  unfold add_location in H. destruct (aget N.eqb a (pi_loc pi)) as [i|] eqn:E.
  { injection H as <- <- <-. split; [exact M|]. intros x. pose proof (R x) as X.
    destruct (N.eqb_spec a x) as [<-|]; [|now destruct (seen x)].
    rewrite E in *. now destruct (seen a). }
  destruct (add_mapping pi b o) as [[[pi1 b1] mid]| | | |] eqn:E1; try discriminate H. cbn [obind] in H.
  destruct (add_mapping_gx _ _ _ _ _ _ E1) as (G1 & _ & L1).
  destruct (gx_tab _ _ G1 T) as (T1 & _).
  destruct (add_mapping_shown _ _ _ _ _ _ T M HQ E1) as (M1 & P1 & S1).
  destruct ((mid =? 0) && negb (a =? 0)); [discriminate H|].
  set (b2 := with_profile b1 _) in H. 
  assert (G2 : gx b1 b2).
  { constructor; try reflexivity; try (exists []; now rewrite app_nil_r).
    - apply tables_with; reflexivity.
    - eexists. reflexivity. }
  injection H as <- <- <-. split.
  { intros q i Hi. exact (map_shown_gx _ _ _ _ T1 G2 (M1 q i Hi)). }
  intros x. cbn [pi_loc pi_set_loc]. rewrite P1, aget_aset. rewrite (N.eqb_sym x).
  destruct (N.eqb_spec a x) as [<-|NE].
  - pose proof (R a) as X. rewrite E in X. destruct (seen a); [destruct X|].
    eexists. split; [|split; [|split; [|split]]].
    + unfold b2. cbn [b_profile with_profile pf_location set_location]. rewrite L1.
      replace (N.to_nat _) with (List.length (pf_location (b_profile b))) by lia.
      rewrite nth_error_app2, Nat.sub_diag by lia. reflexivity.
    + lia.
    + reflexivity.
    + reflexivity.
    + cbn [lc_mapping]. destruct o as [[q h]|]; [|exact S1]. exact (map_shown_gx _ _ _ _ T1 G2 S1).
  - pose proof (rel_gx _ _ _ _ _ T (gx_trans _ _ _ G1 G2) (R x)) as X. now destruct (seen x).
Qed.

Lemma add_locations_shown fs : forall pi b pi' b' ids seen,
  tables b -> maps_shown b pi -> (forall a q h, In (a, Some (q, h)) fs -> Q q h) ->
  (forall x, rel b x (aget N.eqb x (pi_loc pi)) (seen x)) ->
  add_locations pi b fs = Ok (pi', b', ids) ->
  maps_shown b' pi' /\
  forall x, rel b' x (aget N.eqb x (pi_loc pi'))
    (match seen x with Some o => Some o | None => option_map snd (find (fun f => fst f =? x) fs) end).
Proof.
  induction fs as [|[a o] fs IH]; intros pi b pi' b' ids seen T M HQ R H; cbn [add_locations] in H.
  - injection H as <- <- <-. split; [exact M|]. intros x. specialize (R x). cbn. now destruct (seen x).
  - destruct (add_location pi b a o) as [[[pi1 b1] id]| | | |] eqn:E; try discriminate H.
    cbn [obind] in H.
    destruct (add_locations pi1 b1 fs) as [[[pi2 b2] ids2]| | | |] eqn:E2; try discriminate H.
    cbn [obind] in H. injection H as <- <- <-.
    destruct (add_location_gx _ _ _ _ _ _ _ E) as (G1 & _). destruct (gx_tab _ _ G1 T) as (T1 & _).
    assert (HQ1 : forall q h, o = Some (q, h) -> Q q h) by (intros q h ->; apply (HQ a); now left).
    destruct (add_location_shown _ _ _ _ _ _ _ _ T M HQ1 R E) as (M1 & R1).
    assert (HQ2 : forall a q h, In (a, Some (q, h)) fs -> Q q h) by (intros; eapply HQ; right; eassumption).
    destruct (IH _ _ _ _ _ _ T1 M1 HQ2 R1 E2) as (M2 & R2). split; [exact M2|].
    intros x. specialize (R2 x). cbn [find fst]. destruct (seen x); [exact R2|].
    destruct (a =? x); exact R2.
Qed.

(** * A sample in the table *)
Lemma bump_growing s r i w s' : bump_sample s r i w = Ok s' -> growing s s'.
Proof.
  intros H. destruct (bump_sample_inv _ _ _ _ _ H) as (b & p & vals & E1 & E2 & E3 & E4 & E5 & _).
  rewrite E4. intros j x Hx. cbn [cs_builders set_builders]. rewrite nth_error_set_nth.
  destruct (Nat.eqb_spec j (fst r)) as [->|_]; cbn [andb].
  - rewrite (proj2 (Nat.ltb_lt _ _) (nth_error_len_some _ _ _ E1)). rewrite E1 in Hx. injection Hx as <-. eauto.
  - exists x. split; [exact Hx|apply gx_refl].
Qed.

Lemma new_sample_gx c b sm k : gx b (new_sample c b sm k).
Proof.
  unfold new_sample. destruct (emit_labels b (label_list c sm k)) as [b1 ls] eqn:E.
  pose proof (emit_labels_sx _ _ _ _ E) as X. apply gx_trans with (b := b1); [now apply sx_gx|].
  generalize {| ps_loc := sk_stack k; ps_val := repeat 0%Z (2 * List.length (pp_attrs (cf_data c))); ps_label := ls |}.
  intros x. constructor; try reflexivity.
  - apply tables_with; reflexivity.
  - exists []. symmetry. apply app_nil_r.
  - exists []. symmetry. apply app_nil_r.
  - cbn [b_profile with_profile pf_sample set_sample]. rewrite map_app. eexists. reflexivity.
Qed.

Lemma add_or_update_growing c s cx pid k bi s' r :
  add_or_update c s cx pid k bi = Ok (s', r) -> growing s s'.
Proof.
  unfold add_or_update. intros H. destruct (aget skey_eqb k (pi_sample (info s pid))) as [r0|].
  - destruct (bump_sample s r0 _ _) as [s1| | | |] eqn:E; try discriminate H. cbn [obind] in H.
    injection H as <- <-. exact (bump_growing _ _ _ _ _ E).
  - destruct (at_ (cs_builders s) bi) as [b| | | |] eqn:E; try discriminate H. cbn [obind] in H.
    match type of H with obind (bump_sample ?s0 ?r ?i ?w) _ = _ => destruct (bump_sample s0 r i w)
        as [s1| | | |] eqn:E1; try discriminate H end.
    cbn [obind] in H. injection H as <- <-. apply bump_growing in E1. apply at_ok in E.
    eapply growing_trans; [|exact E1]. intros j x Hx. cbn [cs_builders set_info set_pids set_builders].
    rewrite nth_error_set_nth. destruct (Nat.eqb_spec j bi) as [->|_]; cbn [andb].
    + rewrite (proj2 (Nat.ltb_lt _ _) (nth_error_len_some _ _ _ E)). rewrite E in Hx. injection Hx as <-.
      eexists. split; [reflexivity|apply new_sample_gx].
    + exists x. split; [exact Hx|apply gx_refl].
Qed.

(** * The invariant *)
Definition PInv (c : cfg) (h : list hcall) (s : cstate) : Prop :=
  forall pid, match pi_builder (info s (okey c pid)) with
  | Some bi => exists b, nth_error (cs_builders s) bi = Some b /\ maps_shown b (info s pid) /\
      forall a, rel b a (aget N.eqb a (pi_loc (info s pid))) (first_seen c pid a h)
  | None => forall a, first_seen c pid a h = None
  end.

Lemma pinv0 c : PInv c [] cstate0.
Proof. intros pid. cbn. auto. Qed.

Lemma pinv_comm c R h s cm e :
  Inv c R h s -> ~ resets c (HComm cm e) -> PInv c h s -> PInv c (HComm cm e :: h) (on_comm_call s cm e).
Proof.
  intros I NR P. set (s' := on_comm_call s cm e).
  assert (EB : cs_builders s' = cs_builders s) by (unfold s', on_comm_call; now destruct e).
  set (nm := name_or_md5 (cm_comm cm) (cm_md5 cm)) in *.
  assert (QI : forall q, info s' q = if q =? cm_pid cm
     then (if e then pi_set_comm [(cm_tid cm, nm)] pinfo0
           else pi_set_comm (aset (cm_tid cm) nm (pi_comm (info s (cm_pid cm)))) (info s (cm_pid cm)))
     else info s q).
  { intros q. unfold s', on_comm_call. fold nm. destruct e; rewrite !info_set; destruct (q =? cm_pid cm) eqn:Eq; try reflexivity.
    rewrite N.eqb_refl. reflexivity. }
  intros pid. cbn [first_seen]. rewrite EB.
  assert (KB : e && (cm_pid cm =? okey c pid) = false -> pi_builder (info s' (okey c pid)) = pi_builder (info s (okey c pid))).
  { intros E. rewrite QI, N.eqb_sym. destruct (N.eqb_spec (cm_pid cm) (okey c pid)) as [<-|]; [|reflexivity].
    rewrite andb_true_r in E. rewrite E. reflexivity. }
  assert (KI : e && (cm_pid cm =? pid) = false -> pi_map (info s' pid) = pi_map (info s pid) /\
    pi_loc (info s' pid) = pi_loc (info s pid)).
  { intros E. rewrite QI, N.eqb_sym. destruct (N.eqb_spec (cm_pid cm) pid) as [<-|]; [|split; reflexivity].
    rewrite andb_true_r in E. rewrite E. split; reflexivity. }
  destruct (e && (cm_pid cm =? okey c pid)) eqn:EO.
  - apply andb_true_iff in EO. destruct EO as (-> & EO). apply N.eqb_eq in EO.
    assert (GC : grouped c = true).
    { destruct (grouped c) eqn:G; [reflexivity|]. exfalso. apply NR. split; [exact G|]. cbn [execs].
      unfold okey in EO. now rewrite G in EO. }
    unfold okey in *. rewrite GC in *. rewrite QI, <- EO, N.eqb_refl. cbn [pi_builder pi_set_comm pinfo0 andb].
    reflexivity.
  - rewrite (KB eq_refl). specialize (P pid).
    destruct (pi_builder (info s (okey c pid))) as [bi|].
    + destruct P as (b & NB & M & L). exists b. split; [exact NB|].
      destruct (e && (cm_pid cm =? pid)) eqn:EP.
      * apply andb_true_iff in EP. destruct EP as (-> & EP). apply N.eqb_eq in EP.
        rewrite QI, <- EP, N.eqb_refl. split; [intros q i; discriminate|]. intros a. exact Logic.I.
      * destruct (KI eq_refl) as (K1 & K2). unfold maps_shown. rewrite K1, K2. split; [exact M|exact L].
    + destruct (e && (cm_pid cm =? pid)); auto.
Qed.

Lemma pinv_mmap c h s pid q0 m s' :
  PInv c h s -> on_mmap_call s pid m = Ok s' -> PInv c (HMMap pid (q0, m) :: h) s'.
Proof.
  intros P H. unfold on_mmap_call in H. destruct (hm_limit m <? hm_start m); [discriminate H|]. injection H as <-.
  set (s' := set_info _ _ _).
  assert (QI : forall q, info s' q = if q =? pid
     then pi_set_loc (filter (fun e => negb ((hm_start m <=? fst e) && (fst e <? hm_limit m))) (pi_loc (info s pid))) (info s pid)
     else info s q) by (intros; unfold s'; apply info_set).
  assert (A : forall q, pi_builder (info s' q) = pi_builder (info s q) /\
     pi_map (info s' q) = pi_map (info s q) /\
     forall a, aget N.eqb a (pi_loc (info s' q)) =
       if (pid =? q) && (hm_start m <=? a) && (a <? hm_limit m) then None else aget N.eqb a (pi_loc (info s q))).
  { intros q. rewrite QI, (N.eqb_sym pid). destruct (N.eqb_spec q pid) as [->|]; [|repeat split].
    do 2 (split; [reflexivity|]). intros a. cbn [pi_loc pi_set_loc andb].
    rewrite (aget_filter (fun x => negb ((hm_start m <=? x) && (x <? hm_limit m)))).
    now destruct ((hm_start m <=? a) && (a <? hm_limit m)). }
  intros p. destruct (A (okey c p)) as (-> & _). destruct (A p) as (_ & EM & EL). specialize (P p).
  cbn [first_seen]. destruct (pi_builder (info s (okey c p))) as [bi|].
  - destruct P as (b & NB & M & L). exists b. split; [exact NB|]. unfold maps_shown. rewrite EM. split; [exact M|].
    intros a. rewrite EL. destruct ((pid =? p) && (hm_start m <=? a) && (a <? hm_limit m)); [exact Logic.I|apply L].
  - intros a. destruct ((pid =? p) && (hm_start m <=? a) && (a <? hm_limit m)); auto.
Qed.

Lemma pinv_lost c h s cx : kept c cx = false -> PInv c h s -> PInv c (HSample cx :: h) s.
Proof.
  intros K P pid. specialize (P pid). cbn [first_seen]. rewrite K. cbn [andb].
  destruct (pi_builder (info s (okey c pid))) as [bi|].
  - destruct P as (b & NB & M & L). exists b. split; [exact NB|]. split; [exact M|]. intros a. specialize (L a).
    now destruct (first_seen c pid a h).
  - intros a. now rewrite P.
Qed.

Lemma add_comment_shown b p v q id :
  core b -> map_shown b q id -> map_shown (add_comment b p v) q id.
Proof.
  intros C (A & m & h & B & D & E). unfold add_comment. destruct v as [v|]; [|split; eauto].
  destruct (utf8_id b _) as [b1 i] eqn:EI. pose proof (string_id_sx _ _ _ _ EI) as X.
  pose proof (proj2 (proj2 (proj2 X)) (co_tab _ C)) as (_ & G). destruct (gr_str _ _ G) as (u & F).
  split; [exact A|]. exists m, h. destruct X as (X & _). cbn [b_profile with_profile pf_mapping set_comment].
  split; [rewrite X; exact B|]. split; [exact D|]. exact (shows_app _ _ _ _ _ F E).
Qed.

Lemma new_builder_shown c pi o pi' b :
  pi_map pi = [] -> (forall q h, o = Some (q, h) -> Q q h) ->
  new_builder c pi o = Ok (pi', b) -> maps_shown b pi'.
Proof.
  intros EM HQ. unfold new_builder. intros H.
  destruct (add_types builder0 0 (event_names (cf_data c)) 0) as [b0 last] eqn:E.
  apply add_types_spec in E; [|exact core0|reflexivity|split; [vm_compute; discriminate|vm_compute; reflexivity]].
  destruct E as (C0 & K & S & M & L & T).
  set (b1 := with_profile b0 (set_default_type last (b_profile b0))) in H.
  assert (C1 : core b1).
  { apply core_update; try reflexivity; try exact C0; try (now left).
    - apply (ri_types _ _ (co_str _ C0)).
    - apply (ri_comments _ _ (co_str _ C0)).
    - exact K. }
  match type of H with obind ?e _ = _ => destruct e as [[pi1 b2]| | | |] eqn:E2; try discriminate H end.
  cbn [obind] in H. injection H as <- <-.
  destruct o as [m|].
  - destruct (add_mapping pi b1 (Some m)) as [[[pi3 b3] id]| | | |] eqn:E3; try discriminate E2.
    cbn [obind] in E2. injection E2 as <- <-.
    assert (N0 : maps_shown b1 pi) by (intros q i; rewrite EM; discriminate).
    pose proof E3 as E4. apply (add_mapping_spec (fun _ _ _ => True)) in E4;
      [|exact C1|intros q i; rewrite EM; discriminate|trivial]. destruct E4 as (C3 & _).
    destruct (add_mapping_shown _ _ _ _ _ _ (co_tab _ C1) N0 HQ E3) as (M3 & _).
    intros q i Hi. specialize (M3 q i Hi).
    apply add_comment_shown; [apply add_comment_spec; exact C3|]. now apply add_comment_shown.
  - injection E2 as <- <-. intros q i. rewrite EM. discriminate.
Qed.

Lemma pinv_sample c R h s cx s' o :
  Inv c R h s -> (forall q m, In (q, m) (refs_of (HSample cx)) -> R q (hm_start m) (hm_limit m)) ->
  (forall q m, In (q, m) (refs_of (HSample cx)) -> Q q m) ->
  PInv c h s -> on_sample_call c s cx = Ok (s', o) -> PInv c (HSample cx :: h) s'.
Proof.
  intros I HR HQ P H. destruct (on_sample_inv _ _ _ _ _ H) as [(K & -> & _)|(K & X)]; [now apply pinv_lost|].
  cbn zeta in X. set (pid := dflt (s_pid (cx_sample cx))) in *.
  destruct X as (s1 & bi & b & b1 & k & pi2 & b2 & ids & r & G & NB & MK & AL & AU & ->).
  assert (HRm : forall q m, cx_main cx = Some (q, m) -> R q (hm_start m) (hm_limit m)).
  { intros q m E. apply HR. unfold refs_of. rewrite E. apply in_or_app. left. now left. }
  assert (HQm : forall q m, cx_main cx = Some (q, m) -> Q q m).
  { intros q m E. apply HQ. unfold refs_of. rewrite E. apply in_or_app. left. now left. }
  assert (HQf : forall a q m, In (a, Some (q, m)) (stack_frames c cx) -> Q q m).
  { intros a q m Hin. apply HQ. exact (frames_refs _ _ _ _ _ Hin). }
  destruct (inv_get_or_create _ _ _ _ _ _ _ I HRm G) as (I1 & GR1 & OB & _ & SAME & OLD & _ & _).
  fold pid in OB, OLD.
  (* the builder is there *)
  assert (P1 : PInv c h s1).
  { destruct (get_or_create_inv _ _ _ _ _ G) as [(PB & _ & EB & EP & _)|(PB & Hbi & pi & b0 & NBu & EB & _ & QI & _)];
      fold pid in PB; change (filed_under c cx) with (okey c pid) in *.
    - intros p. rewrite !(info_pids s s1 _ EP), EB. exact (P p).
    - fold pid in NBu, QI. rewrite info_set in NBu.
      set (pi0 := if pid =? okey c pid then pi_set_builder (Some bi) (info s (okey c pid)) else info s pid) in NBu.
      destruct (iv_none _ _ _ _ I pid PB) as (N1 & N2 & N3).
      assert (P2 : pi_map pi0 = []).
      { unfold pi0. destruct (N.eqb_spec pid (okey c pid)) as [E|E]; [rewrite <- E|]; auto. }
      pose proof (new_builder_shown _ _ _ _ _ P2 HQm NBu) as M0.
      pose proof (new_builder_keeps _ _ _ _ _ NBu) as KB.
      assert (NB0 : nth_error (cs_builders s1) bi = Some b0).
      { rewrite EB, nth_error_app2, Hbi, Nat.sub_diag by lia. reflexivity. }
      assert (OO : forall q, q <> okey c pid -> pi_builder (info s1 q) = pi_builder (info s q)).
      { intros q Hq. rewrite QI. destruct (N.eqb_spec q pid) as [->|Hq1].
        - rewrite KB. unfold pi0. apply N.eqb_neq in Hq. now rewrite Hq.
        - apply N.eqb_neq in Hq. now rewrite Hq. }
      intros p. destruct (SAME p) as (EL & _ & _). rewrite EL.
      destruct (N.eq_dec (okey c p) (okey c pid)) as [E|E].
      + rewrite E, OB. exists b0. split; [exact NB0|].
        assert (Pn : pi_builder (info s (okey c p)) = None) by congruence.
        destruct (iv_none _ _ _ _ I p Pn) as (X1 & X2 & X3). split.
        * rewrite QI. destruct (N.eqb_spec p pid) as [->|Hq]; [exact M0|].
          intros q i. destruct (N.eqb_spec p (okey c pid)) as [->|Hq']; cbn [pi_map pi_set_builder];
                rewrite X2; discriminate.
        * intros a. rewrite X1. specialize (P p). rewrite Pn in P. now rewrite P.
      + rewrite OO by exact E. specialize (P p). destruct (pi_builder (info s (okey c p))) as [bj|]; [|exact P].
        destruct P as (x & Hx & M & L). exists x. split.
        { rewrite EB, nth_error_app1; [exact Hx|exact (nth_error_len_some _ _ _ Hx)]. }
        split; [|exact L]. intros q i. rewrite QI. destruct (N.eqb_spec p pid) as [->|Hq]; [now contradiction E|].
        destruct (N.eqb_spec p (okey c pid)) as [->|Hq']; cbn [pi_map pi_set_builder]; apply M. }
  clear P SAME OLD GR1.
  destruct (iv_core _ _ _ _ I1 bi b NB) as (C & _).
  pose proof (P1 pid) as PP. rewrite OB in PP. destruct PP as (b' & NB' & M1 & L1).
  assert (Eb : b' = b) by congruence. subst b'. clear NB'.
  assert (CM : forall tid, comm_of (info s1 pid) tid = thread_name h pid tid) by (intros; apply (iv_comm _ _ _ _ I1)).
  destruct (make_key_view _ _ _ _ _ _ _ (co_tab _ C) CM MK) as (_ & SX).
  pose proof (sx_gx _ _ SX) as G1. pose proof (sx_core _ _ SX C) as C1.
  assert (R1 : forall x, rel b1 x (aget N.eqb x (pi_loc (info s1 pid))) (first_seen c pid x h)).
  { intros x. exact (rel_gx _ _ _ _ _ (co_tab _ C) G1 (L1 x)). }
  destruct (add_locations_shown _ _ _ _ _ _ _ (co_tab _ C1) (maps_shown_gx _ _ _ (co_tab _ C) G1 M1) HQf R1 AL) as (M2 & L2).
  destruct (add_locations_gx _ _ _ _ _ _ AL) as (G2 & _).
  destruct (gx_tab _ _ G2 (co_tab _ C1)) as (T2 & _).
  set (s2 := set_stats _ _) in AU.
  assert (Q2 : forall q, info s2 q = if q =? pid then pi2 else info s1 q).
  { intros q. unfold s2. rewrite info_stats, info_builders, info_set. reflexivity. }
  assert (B2 : cs_builders s2 = set_nth bi b2 (cs_builders s1)) by reflexivity.
  assert (GR2 : growing s1 s2).
  { intros j x Hx. rewrite B2, nth_error_set_nth. destruct (Nat.eqb_spec j bi) as [->|_]; cbn [andb].
    - rewrite (proj2 (Nat.ltb_lt _ _) (nth_error_len_some _ _ _ NB)). rewrite NB in Hx. injection Hx as <-.
      eexists. split; [reflexivity|]. exact (gx_trans _ _ _ G1 G2).
    - exists x. split; [exact Hx|apply gx_refl]. }
  assert (NB2 : nth_error (cs_builders s2) bi = Some b2).
  { rewrite B2, nth_error_set_nth, Nat.eqb_refl.
    now rewrite (proj2 (Nat.ltb_lt _ _) (nth_error_len_some _ _ _ NB)). }
  destruct (iv_some _ _ _ _ I1 pid bi OB) as (b' & NB' & MO & LO & _).
  assert (Eb : b' = b) by congruence. subst b'. clear NB'.
  assert (HRf : forall a q m, In (a, Some (q, m)) (stack_frames c cx) -> R q (hm_start m) (hm_limit m)).
  { intros a q m Hin. apply HR. exact (frames_refs _ _ _ _ _ Hin). }
  destruct (add_locations_spec R _ _ _ _ _ _ C1 (maps_ok_gx _ _ _ _ G1 MO) (locs_ok_gx _ _ _ G1 LO) HRf AL)
    as (_ & _ & _ & (SR1 & _) & _).
  destruct (add_or_update_keeps _ _ _ _ _ _ _ _ AU) as (_ & _ & _ & KP).
  pose proof (add_or_update_growing _ _ _ _ _ _ _ _ AU) as GR3.
  intros p. destruct (KP (okey c p)) as (-> & _). destruct (KP p) as (_ & -> & EM & _).
  assert (EBp : forall q, pi_builder (info s2 q) = pi_builder (info s1 q)).
  { intros q. rewrite Q2. destruct (N.eqb_spec q pid) as [->|]; [exact SR1|reflexivity]. }
  rewrite EBp. pose proof (P1 p) as PP. cbn [first_seen]. rewrite K. fold pid. cbn [andb].
  destruct (N.eqb_spec p pid) as [->|Hp].
  - rewrite OB. destruct (GR3 _ _ NB2) as (b3 & NB3 & G3). exists b3. split; [exact NB3|]. rewrite N.eqb_refl.
    rewrite Q2, N.eqb_refl in *. unfold maps_shown. rewrite EM. split.
    + exact (maps_shown_gx _ _ _ T2 G3 M2).
    + intros a. exact (rel_gx _ _ _ _ _ T2 G3 (L2 a)).
  - pose proof Hp as Hp'. apply N.eqb_neq in Hp'. rewrite Q2, Hp' in *. rewrite (N.eqb_sym pid), Hp'.
    destruct (pi_builder (info s1 (okey c p))) as [bj|].
    + destruct PP as (x & Hx & M & L). destruct (growing_trans _ _ _ GR2 GR3 bj x Hx) as (x' & Hx' & GX).
      destruct (iv_core _ _ _ _ I1 bj x Hx) as (Cx & _). exists x'. split; [exact Hx'|]. unfold maps_shown. rewrite EM.
      split; [exact (maps_shown_gx _ _ _ (co_tab _ Cx) GX M)|]. intros a.
      pose proof (rel_gx _ _ _ _ _ (co_tab _ Cx) GX (L a)) as Z. now destruct (first_seen c p a h).
    + intros a. now rewrite PP.
Qed.

Lemma pinv_call c R h s x s' o :
  Inv c R h s -> refs_known R x -> (forall q m, In (q, m) (refs_of x) -> Q q m) -> ~ resets c x ->
  PInv c h s -> on_call c s x = Ok (s', o) -> PInv c (x :: h) s'.
Proof.
  intros I K KQ NR P H. destruct x as [cx|cm e|pid [q m]]; cbn [on_call] in H.
  - exact (pinv_sample _ _ _ _ _ _ _ I K KQ P H).
  - injection H as <- <-. exact (pinv_comm _ _ _ _ _ _ I NR P).
  - destruct (on_mmap_call s pid m) as [s1| | | |] eqn:E; try discriminate H. cbn [obind] in H. injection H as <- <-.
    exact (pinv_mmap _ _ _ _ _ _ _ P E).
Qed.

Lemma pinv_run c R hs : forall h s s' os,
  Inv c R h s -> Forall (refs_known R) hs -> Forall (fun x => forall q m, In (q, m) (refs_of x) -> Q q m) hs ->
  Forall (fun x => ~ resets c x) hs -> PInv c h s ->
  run_calls c s hs = Ok (s', os) -> PInv c (rev hs ++ h) s'.
Proof.
  induction hs as [|x hs IH]; intros h s s' os I K KQ NR P H; cbn [run_calls] in H.
  - injection H as <- <-. exact P.
  - destruct (on_call c s x) as [[s1 o]| | | |] eqn:E; try discriminate H. cbn [obind] in H.
    destruct (run_calls c s1 hs) as [[s2 os2]| | | |] eqn:E2; try discriminate H. cbn [obind] in H.
    injection H as <- <-. inversion K as [|? ? K1 K2]; subst. inversion NR as [|? ? N1 N2]; subst.
    inversion KQ as [|? ? Q1 Q2]; subst.
    destruct (call_step _ _ _ _ _ _ _ I K1 N1 E) as (I1 & _).
    pose proof (pinv_call _ _ _ _ _ _ _ I K1 Q1 N1 P E) as P1.
    cbn [rev]. rewrite <- app_assoc. exact (IH _ _ _ _ I1 K2 Q2 N2 P1 E2).
Qed.
End Place.

(** * The profiles *)
Definition named (hs : list hcall) (q : ptr) (m : hmapping) : Prop := exists h, In h hs /\ In (q, m) (refs_of h).

Lemma before_S {A} (l : list A) i x : nth_error l i = Some x -> rev (firstn (S i) l) = x :: rev (firstn i l).
Proof.
  intros H. assert (E : firstn (S i) l = firstn i l ++ [x]).
  { revert i H. induction l as [|y l IH]; intros [|i] H; cbn in H; try discriminate H.
    - now injection H as ->.
    - cbn [firstn app]. f_equal. now apply IH. }
  now rewrite E, rev_app_distr.
Qed.

(** A mapping seen first came from a callback. *)
Lemma first_seen_named c pid a h q m :
  first_seen c pid a h = Some (Some (q, m)) -> exists x, In x h /\ In (q, m) (refs_of x).
Proof.
  induction h as [|x h IH]; cbn [first_seen]; [discriminate|].
  assert (W : first_seen c pid a h = Some (Some (q, m)) -> exists y, In y (x :: h) /\ In (q, m) (refs_of y)).
  { intros H. destruct (IH H) as (y & A & B). exists y. split; [now right|exact B]. }
  destruct x as [cx|cm e|p [q' m']].
  - destruct (first_seen c pid a h) as [o|]; [exact W|].
    destruct (kept c cx && _); [|discriminate]. intros H.
    destruct (find _ _) as [[a' o]|] eqn:F; [|discriminate H]. cbn in H. injection H as ->.
    apply find_some in F. destruct F as (F & _). exists (HSample cx). split; [now left|].
    exact (frames_refs _ _ _ _ _ F).
  - destruct (e && _); [discriminate|exact W].
  - destruct (_ && _ && _); [discriminate|exact W].
Qed.

Lemma Forall2_impl2 {A B} (P Q : A -> B -> Prop) l m :
  (forall x y, In x l -> P x y -> Q x y) -> Forall2 P l m -> Forall2 Q l m.
Proof.
  intros H F. induction F as [|x y l m Hxy F IH]; constructor.
  - apply H; [now left|exact Hxy].
  - apply IH. intros a b Ha. apply H. now right.
Qed.

Lemma convert_placed c hs ps :
  process (cf_data c) = Ok hs -> never_reset c hs -> convert c = Ok ps ->
  exists os, counted c hs ps os /\ forall i cx r, placed_at hs os i cx r -> exists p s,
    nth_error ps (fst r) = Some p /\ nth_error (pf_sample (pr_data p)) (snd r) = Some s /\
    Forall2 (fun f id => exists o,
        first_seen c (dflt (s_pid (cx_sample cx))) (fst f) (before (S i) hs) = Some o /\
        placed_in (pr_data p) id (fst f) o /\
        forall q h h1, o = Some (q, h) -> named hs q h1 -> placed_in (pr_data p) id (fst f) (Some (q, h1)))
      (stack_frames c cx) (ps_loc s).
Proof.
  intros P NR C. destruct (convert_run _ _ _ P C) as (s & os & H & -> & L). exists os.
  pose proof (never_reset_spec _ _ NR) as NR'. destruct (final_core _ _ _ _ NR H) as (IF & F).
  split; [now apply run_counted|]. intros i cx r Hi.
  pose proof (pointed_known hs) as K.
  assert (KQ : Forall (fun x => forall q m, In (q, m) (refs_of x) -> named hs q m) hs).
  { rewrite Forall_forall. intros x Hx q m Hm. exists x. auto. }
  destruct (run_at _ _ _ _ _ _ _ _ K NR' H Hi) as (s1 & s2 & o1 & o2 & H1 & H2 & _ & _ & _ & I1 & I2 & SS & G).
  destruct Hi as (Hn & Ho). pose proof (split_at _ _ _ Hn) as SP.
  assert (P1 : PInv (named hs) c (before i hs) s1).
  { rewrite SP in K, KQ, NR'. apply Forall_app in K, KQ, NR'. 
    unfold before. rewrite <- (app_nil_r (rev (firstn i hs))).
    apply (pinv_run _ c (pointed hs) (firstn i hs) [] cstate0 s1 o1 (inv0 _ _)); try assumption.
    - rewrite <- SP in K. exact (proj1 K).
    - rewrite <- SP in KQ. exact (proj1 KQ).
    - exact (proj1 NR').
    - apply pinv0. }
  assert (KX : refs_known (pointed hs) (HSample cx)).
  { rewrite Forall_forall in K. apply K. exact (nth_error_In _ _ Hn). }
  assert (KQX : forall q m, In (q, m) (refs_of (HSample cx)) -> named hs q m).
  { intros q m Hm. exists (HSample cx). split; [exact (nth_error_In _ _ Hn)|exact Hm]. }
  pose proof (pinv_sample _ c _ _ _ _ _ _ I1 KX KQX P1 H2) as P2.
  assert (EBF : HSample cx :: before i hs = before (S i) hs) by (unfold before; now rewrite (before_S _ _ _ Hn)).
  rewrite EBF in P2. set (pid := dflt (s_pid (cx_sample cx))) in *.
  destruct (ss_key _ _ _ _ _ _ SS) as (b & k & ids & NB & _ & FL & HK & _). fold pid in FL, HK.
  pose proof (ss_bi _ _ _ _ _ _ SS) as OB. fold pid in OB.
  destruct (iv_some _ _ _ _ I2 _ _ OB) as (b' & NB' & _ & _ & SO).
  assert (b' = b) by congruence. subst b'. clear NB'. destruct (SO _ _ HK) as (_ & sm & NS & ST).
  pose proof (P2 pid) as PP. rewrite OB in PP. destruct PP as (b' & NB' & _ & LL).
  assert (b' = b) by congruence. subst b'. clear NB'.
  destruct (iv_core _ _ _ _ I2 _ _ NB) as (CO & _).
  destruct (G _ _ NB) as (b2 & NB2 & GX). destruct (gx_sam _ _ GX) as (t & T).
  destruct (iv_core _ _ _ _ IF _ _ NB2) as (CO2 & _).
  assert (X : nth_error (map shape (pf_sample (b_profile b2))) (snd r) = Some (shape sm)).
  { rewrite T, nth_error_app1 by (rewrite map_length; exact (nth_error_len_some _ _ _ NS)).
    now rewrite nth_error_map, NS. }
  rewrite nth_error_map in X. destruct (nth_error (pf_sample (b_profile b2)) (snd r)) as [sm'|] eqn:NS2; [|discriminate X].
  cbn in X. injection X as X _.
  pose proof (profiles_nth s L (fst r)) as Y. rewrite NB2 in Y. destruct Y as (me & _ & Y).
  eexists _, sm'. split; [exact Y|]. cbn [make_profile pr_data]. rewrite (F _ _ NB2). split; [exact NS2|].
  rewrite X, ST. cbn [with_stack sk_stack].
  eapply Forall2_impl2; [|exact FL]. intros [a o] id _ HA. cbn [fst] in *.
  specialize (LL a). rewrite HA in LL. cbn [rel] in LL.
  destruct (first_seen c pid a (before (S i) hs)) as [o'|] eqn:FS; [|destruct LL]. exists o'. split; [reflexivity|].
  apply (loc_shown_gx _ _ _ _ _ _ (co_tab _ CO) GX) in LL.
  destruct LL as (l & A1 & A2 & A3 & A4 & A5).
  assert (ALL : forall q h h1, o' = Some (q, h) -> named hs q h1 -> placed_in (b_profile b2) id a (Some (q, h1))).
  { intros q h h1 -> (x & X1 & X2). exists l. do 4 (split; [assumption|]).
    destruct A5 as (B1 & m & h' & B2 & (y & Y1 & Y2) & B4).
    exists m, h'. split; [exact B2|]. split; [exact B1|]. split.
    { pose proof (co_map _ CO2 (N.to_nat (lc_mapping l - 1))) as D. rewrite nth_error_map, B2 in D. cbn [option_map] in D.
      destruct (_ <? _)%nat in D; [|discriminate D]. injection D as D. rewrite D. lia. }
    split; [|exact B4]. exact (C18_pointers_are_stable _ _ _ _ _ _ _ P X1 Y1 X2 Y2). }
  split; [|exact ALL]. destruct o' as [[q hm]|].
  - apply (ALL q hm hm eq_refl). destruct (first_seen_named _ _ _ _ _ _ FS) as (x & X1 & X2). exists x. split; [|exact X2].
    unfold before in X1. apply in_rev in X1. rewrite <- (firstn_skipn (S i) hs). apply in_or_app. now left.
  - exists l. auto.
Qed.

(** * The frame seen first *)
Lemma first_seen_frame c pid a h o :
  first_seen c pid a h = Some o ->
  exists pre cy post, h = pre ++ HSample cy :: post /\ kept c cy = true /\ dflt (s_pid (cx_sample cy)) = pid /\
    In (a, o) (stack_frames c cy) /\ execed pid pre = false /\ remapped pid a pre = false.
Proof.
  induction h as [|x h IH]; cbn [first_seen]; [discriminate|].
  assert (W : execed pid [x] = false -> remapped pid a [x] = false -> first_seen c pid a h = Some o ->
    exists pre cy post, x :: h = pre ++ HSample cy :: post /\ kept c cy = true /\ dflt (s_pid (cx_sample cy)) = pid /\
    In (a, o) (stack_frames c cy) /\ execed pid pre = false /\ remapped pid a pre = false).
  { intros E1 E2 H. destruct (IH H) as (pre & cy & post & -> & A & B & D & E & F). exists (x :: pre), cy, post.
    split; [reflexivity|]. do 3 (split; [assumption|]). unfold execed, remapped in *. cbn [existsb] in *.
    rewrite orb_false_r in E1, E2. now rewrite E1, E2. }
  destruct x as [cx|cm e|p [q' m']].
  - destruct (first_seen c pid a h) as [o'|]; [intros H; injection H as ->; now apply W|].
    destruct (kept c cx) eqn:K; cbn [andb]; [|discriminate].
    destruct (N.eqb_spec (dflt (s_pid (cx_sample cx))) pid) as [Ep|]; [|discriminate]. intros H.
    destruct (find _ _) as [[a' o']|] eqn:F; [|discriminate H]. cbn in H. injection H as ->.
    apply find_some in F. destruct F as (F & E). cbn [fst] in E. apply N.eqb_eq in E. subst a'.
    exists [], cx, h. split; [reflexivity|]. repeat split; assumption.
  - destruct (e && (cm_pid cm =? pid)) eqn:E; [discriminate|]. apply W; [|reflexivity]. cbn. now rewrite E.
  - destruct ((p =? pid) && (hm_start m' <=? a) && (a <? hm_limit m')) eqn:E; [discriminate|]. apply W; [reflexivity|].
    cbn. now rewrite E.
Qed.

Lemma existsb_rev {A} (f : A -> bool) l : existsb f (rev l) = existsb f l.
Proof.
  induction l as [|x l IH]; [reflexivity|]. cbn [rev existsb]. rewrite existsb_app, IH. cbn.
  now rewrite orb_false_r, orb_comm.
Qed.

Lemma before_split {A} (hs : list A) i pre x post :
  (i < List.length hs)%nat -> rev (firstn (S i) hs) = pre ++ x :: post ->
  exists j, (j <= i)%nat /\ nth_error hs j = Some x /\
    exists t, rev pre = firstn (i - S j) (skipn (S j) hs) ++ t.
Proof.
  intros L E. assert (E' : firstn (S i) hs = rev post ++ x :: rev pre).
  { rewrite <- (rev_involutive (firstn (S i) hs)), E, rev_app_distr. cbn [rev]. now rewrite <- app_assoc. }
  assert (LL : S i = (List.length post + S (List.length pre))%nat).
  { apply (f_equal (@List.length A)) in E. rewrite rev_length, firstn_length, app_length in E. cbn [List.length] in E. lia. }
  assert (EH : hs = rev post ++ x :: rev pre ++ skipn (S i) hs).
  { rewrite <- (firstn_skipn (S i) hs) at 1. rewrite E', <- app_assoc. reflexivity. }
  exists (List.length post). split; [lia|]. split.
  - rewrite EH, nth_error_app2, rev_length, Nat.sub_diag by (rewrite rev_length; lia). reflexivity.
  - assert (SK : skipn (S (List.length post)) hs = rev pre ++ skipn (S i) hs).
    { rewrite EH at 1. rewrite skipn_app, rev_length.
      replace (S (List.length post) - List.length post)%nat with 1%nat by lia. rewrite skipn_all2 by (rewrite rev_length; lia).
      reflexivity. }
    rewrite SK. exists (skipn (i - S (List.length post)) (rev pre)).
    rewrite firstn_app. replace (i - S (List.length post) - List.length (rev pre))%nat with 0%nat by (rewrite rev_length; lia).
    cbn [firstn]. rewrite app_nil_r. symmetry. apply firstn_skipn.
Qed.

Lemma first_seen_at c pid a hs i o :
  (i < List.length hs)%nat -> first_seen c pid a (before (S i) hs) = Some o ->
  exists j cy, (j <= i)%nat /\ nth_error hs j = Some (HSample cy) /\ kept c cy = true /\
    dflt (s_pid (cx_sample cy)) = pid /\ In (a, o) (stack_frames c cy) /\
    execed pid (between j i hs) = false /\ remapped pid a (between j i hs) = false.
Proof.
  intros L H. destruct (first_seen_frame _ _ _ _ _ H) as (pre & cy & post & E & A & B & C & D & F).
  destruct (before_split _ _ _ _ _ L E) as (j & J1 & J2 & t & J3). exists j, cy.
  do 5 (split; [assumption|]). unfold between, execed, remapped in *.
  rewrite <- existsb_rev, J3, existsb_app, orb_false_iff in D, F. now split.
Qed.

Lemma convert_own c hs ps :
  process (cf_data c) = Ok hs -> never_reset c hs -> convert c = Ok ps ->
  exists os, counted c hs ps os /\ forall i cx r, placed_at hs os i cx r -> exists p s,
    nth_error ps (fst r) = Some p /\ nth_error (pf_sample (pr_data p)) (snd r) = Some s /\
    Forall2 (fun f id => settled c hs i cx f -> placed_in (pr_data p) id (fst f) (snd f)) (stack_frames c cx) (ps_loc s).
Proof.
  intros P NR C. destruct (convert_placed c hs ps P NR C) as (os & CO & H). exists os. split; [exact CO|].
  intros i cx r Hi. destruct (H i cx r Hi) as (p & s & A & B & F). exists p, s. split; [exact A|]. split; [exact B|].
  eapply Forall2_impl2; [|exact F]. intros [a o] id Hin (o' & FS & PL & ALL) ST. cbn [fst snd] in *.
  destruct Hi as (Hn & _). pose proof (nth_error_len_some _ _ _ Hn) as L.
  destruct (first_seen_at _ _ _ _ _ _ L FS) as (j & cy & J1 & J2 & J3 & J4 & J5 & J6 & J7).
  specialize (ST j cy o' J1 J2 J3 J4 J6 J7 J5). cbn [snd] in ST.
  destruct o as [[q h]|], o' as [[q' h']|]; cbn [same_ref] in ST; try contradiction; [|exact PL]. subst q'.
  apply (ALL q h' h eq_refl). exists (HSample cx). split; [exact (nth_error_In _ _ Hn)|]. exact (frames_refs _ _ _ _ _ Hin).
Qed.
