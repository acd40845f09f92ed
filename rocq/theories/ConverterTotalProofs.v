(** The conversion succeeds. *)
From Coq Require Import String.
From Verif Require Import Base BytesModel TextModel Assoc ProfileModel BuilderModel BuilderSpec BuilderProofs
  SpeModel PerfProto NormalizerModel NormalizerSpec NormalizerProofs NormalizerProps NormalizerRangeProofs
  ConverterModel ConverterSpec ConverterProofs
  ConverterOpenProofs ConverterInvProofs ConverterKeyProofs ConverterStateProofs ConverterRunProofs ConverterTrackProofs
  ConverterMainProofs.
Local Open Scope N_scope.
Local Open Scope list_scope.

Lemma add_mapping_total pi b o :
  (forall q m, o = Some (q, m) -> hm_start m <= hm_limit m) -> exists pi' b' id, add_mapping pi b o = Ok (pi', b', id).
Proof.
  intros H. unfold add_mapping. destruct o as [[q m]|]; [|eauto].
  destruct (aget Nat.eqb q (pi_map pi)); [eauto|].
  destruct (if is_empty (fst (hm_build m)) then (b, 0%Z) else utf8_id b (fst (hm_build m))) as [b1 bd].
  destruct (utf8_id b1 (mapping_filename m)) as [b2 f]. specialize (H q m eq_refl). apply N.leb_le in H. rewrite H. eauto.
Qed.

Lemma add_location_total R pi b a o :
  core b -> maps_ok R b pi -> (forall q m, o = Some (q, m) -> R q (hm_start m) (hm_limit m)) ->
  (forall q m, o = Some (q, m) -> hm_start m <= hm_limit m) -> (o = None -> a = 0) ->
  exists pi' b' id, add_location pi b a o = Ok (pi', b', id).
Proof.
  intros C M HR H Z. unfold add_location. destruct (aget N.eqb a (pi_loc pi)); [eauto|].
  destruct (add_mapping_total pi b o H) as (pi1 & b1 & id & E). rewrite E. cbn [obind].
  destruct (add_mapping_spec _ _ _ _ _ _ _ C M HR E) as (_ & _ & _ & _ & X & _).
  assert (Y : (id =? 0) && negb (a =? 0) = false).
  { destruct o as [[q m]|]; [|rewrite Z by reflexivity; apply andb_false_r]. destruct X as (X & _).
    rewrite (proj2 (N.eqb_neq id 0)) by lia. reflexivity. }
  rewrite Y. eauto.
Qed.

Lemma add_locations_total R fs : forall pi b,
  core b -> maps_ok R b pi -> locs_ok b pi ->
  (forall a q m, In (a, Some (q, m)) fs -> R q (hm_start m) (hm_limit m)) ->
  (forall a q m, In (a, Some (q, m)) fs -> hm_start m <= hm_limit m) ->
  (forall a, In (a, None) fs -> a = 0) ->
  exists pi' b' ids, add_locations pi b fs = Ok (pi', b', ids).
Proof.
  induction fs as [|[a o] fs IH]; intros pi b C M L HR H Z; cbn [add_locations]; [eauto|].
  assert (HR1 : forall q m, o = Some (q, m) -> R q (hm_start m) (hm_limit m)) by (intros q m ->; apply (HR a); now left).
  destruct (add_location_total R pi b a o C M HR1) as (pi1 & b1 & id & E).
  { intros q m ->. apply (H a q). now left. }
  { intros ->. apply Z. now left. }
  rewrite E. cbn [obind].
  destruct (add_location_spec _ _ _ _ _ _ _ _ C M L HR1 E) as (C1 & M1 & L1 & _).
  destruct (IH pi1 b1 C1 M1 L1) as (pi2 & b2 & ids & E2).
  { intros x q m Hx. apply (HR x). now right. }
  { intros x q m Hx. apply (H x q). now right. }
  { intros x Hx. apply Z. now right. }
  rewrite E2. cbn [obind]. eauto.
Qed.

Lemma frames_none c cx a : In (a, None) (stack_frames c cx) -> a = 0.
Proof.
  unfold stack_frames, code_frames. intros H. apply in_app_or in H. destruct H as [H|H].
  - destruct (data_frames c); [|destruct H]. destruct H as [H|[]]. injection H as <- H. now rewrite H.
  - destruct H as [H|H]; [injection H as <- H; now rewrite H|]. apply in_app_or in H. destruct H as [H|H].
    + unfold callchain_frames in H. apply in_map_iff in H. destruct H as ([x y] & E & H). injection E as _ E.
      cbn [snd] in E. subst y. apply filter_In in H. destruct H as (_ & H). discriminate H.
    + unfold branch_sources in H. destruct (from_branches cx); [|destruct H]. apply filter_In in H. destruct H as (_ & H).
      discriminate H.
Qed.

Lemma checked_total a m : contains_opt m a -> exists x, checked a m = Ok x.
Proof.
  unfold checked. destruct m as [[q m]|]; [|eauto]. cbn [contains_opt]. unfold contains. intros (A & B).
  destruct (a =? 0); [eauto|]. apply N.leb_le in A. apply N.ltb_lt in B. rewrite A, B. cbn. eauto.
Qed.

Lemma new_builder_total c pi o :
  (forall q m, o = Some (q, m) -> hm_start m <= hm_limit m) -> exists pi' b, new_builder c pi o = Ok (pi', b).
Proof.
  intros H. unfold new_builder. destruct (add_types builder0 0 (event_names (cf_data c)) 0) as [b last].
  destruct o as [r|]; [|cbn [obind]; eauto].
  match goal with |- context [add_mapping pi ?b0 (Some r)] =>
    destruct (add_mapping_total pi b0 (Some r) H) as (pi1 & b1 & id & E) end.
  rewrite E. cbn [obind]. eauto.
Qed.

Lemma get_or_create_total c R h s cx :
  Inv c R h s -> option_on c 2 = false -> (forall q m, cx_main cx = Some (q, m) -> hm_start m <= hm_limit m) ->
  exists s' bi, get_or_create c s cx = Ok (s', bi).
Proof.
  intros I F HM. unfold get_or_create. set (pid := dflt (s_pid (cx_sample cx))).
  rewrite grouped_bit. change (if grouped c then pid else 0) with (okey c pid).
  match goal with |- exists _ _, obind ?e _ = _ =>
    assert (X : exists s1 bi, e = Ok (s1, bi) /\ (bi < List.length (cs_metas s1))%nat) end.
  { destruct (pi_builder (info s (okey c pid))) as [bi|] eqn:P.
    - destruct (iv_some _ _ _ _ I pid bi P) as (b & NB & _). rewrite (proj2 (at_ok _ _ _) NB). cbn [obind].
      assert (CM : check_main c b (cx_main cx) = Ok tt).
      { unfold check_main. destruct (cx_main cx) as [[q m]|]; [|reflexivity].
        destruct (opted c kGroupByPids && negb (is_empty (hm_file m))); [|reflexivity].
        destruct (iv_core _ _ _ _ I bi b NB) as (C & _ & NE).
        destruct (pf_mapping (b_profile b)) as [|m0 ms] eqn:EM; [now contradiction NE|]. cbn [at_ nth_error obind].
        unfold at_ at 1. cbn [nth_error obind].
        destruct (ri_maps _ _ (co_str _ C) m0) as (SF & _); [rewrite EM; now left|].
        unfold str_ok, nstr in SF. unfold at_.
        destruct (nth_error (pf_string (b_profile b)) (Z.to_nat (mp_file m0))) eqn:EN;
          [|apply nth_error_None in EN; clear - EN SF; lia].
        cbn [obind]. change 2 with (2 ^ kFailOnMainMappingMismatch) in F. rewrite option_on_bit in F. rewrite F.
        now rewrite andb_false_r. }
      rewrite CM. cbn [obind]. exists s, bi. split; [reflexivity|]. rewrite (iv_len _ _ _ _ I).
      exact (nth_error_len_some _ _ _ NB).
    - cbn zeta. match goal with |- context [new_builder c ?pi ?o] => destruct (new_builder_total c pi o HM) as (pi1 & b & E) end.
      rewrite E. cbn [obind]. eexists _, _. split; [reflexivity|]. cbn. rewrite app_length, (iv_len _ _ _ _ I). cbn. lia. }
  destruct X as (s1 & bi & E & L). rewrite E. cbn [obind].
  destruct (w64 (dflt (s_time (cx_sample cx))) =? 0); [eauto|]. unfold at_.
  destruct (nth_error (cs_metas s1) bi) eqn:EN; [cbn [obind]; eauto|]. apply nth_error_None in EN. lia.
Qed.

Lemma bump_total vals i w :
  (2 * i + 1 < List.length vals)%nat ->
  (- 2 ^ 63 <= nth (2 * i) vals 0 + 1 < 2 ^ 63)%Z -> (- 2 ^ 63 <= nth (2 * i + 1) vals 0 + w < 2 ^ 63)%Z ->
  exists v, bump vals i w = Ok v.
Proof.
  intros L A B. unfold bump, at_.
  rewrite (nth_error_nth' vals 0%Z) by lia. cbn [obind].
  assert (AS : forall x y, (- 2 ^ 63 <= x + y < 2 ^ 63)%Z -> add_s64 x y = Ok (x + y)%Z).
  { clear. intros x y H. unfold add_s64. change (- 2 ^ 63)%Z with (- 9223372036854775808)%Z in H.
    change (2 ^ 63)%Z with 9223372036854775808%Z in H.
    rewrite (proj2 (Z.leb_le _ _)) by lia. rewrite (proj2 (Z.leb_le _ _)) by lia. reflexivity. }
  rewrite (AS _ _ A). cbn [obind]. rewrite (nth_error_nth' vals 0%Z) by lia. cbn [obind]. rewrite (AS _ _ B). cbn [obind]. eauto.
Qed.

Lemma bump_sample_total s r i w b p :
  nth_error (cs_builders s) (fst r) = Some b -> nth_error (pf_sample (b_profile b)) (snd r) = Some p ->
  (2 * i + 1 < List.length (ps_val p))%nat ->
  (- 2 ^ 63 <= nth (2 * i) (ps_val p) 0 + 1 < 2 ^ 63)%Z -> (- 2 ^ 63 <= nth (2 * i + 1) (ps_val p) 0 + w < 2 ^ 63)%Z ->
  exists s', bump_sample s r i w = Ok s'.
Proof.
  intros A B L V1 V2. unfold bump_sample. rewrite (proj2 (at_ok _ _ _) A). cbn [obind].
  rewrite (proj2 (at_ok _ _ _) B). cbn [obind]. destruct (bump_total _ _ _ L V1 V2) as (v & ->). cbn [obind]. eauto.
Qed.

Definition bounded (s : cstate) (D : Z) : Prop := forall x j, (Z.abs (value (cell s x) j) <= D)%Z.

Lemma sample_total c R h s cx D :
  Inv c R h s -> refs_known R (HSample cx) -> addresses_ok (HSample cx) -> option_on c 2 = false ->
  (forall q m, In (q, m) (refs_of (HSample cx)) -> hm_start m <= hm_limit m) ->
  bounded s D -> (D + load c (HSample cx) < 2 ^ 63)%Z ->
  exists s' o, on_sample_call c s cx = Ok (s', o).
Proof.
  intros I K AO F RG BD LD. unfold on_sample_call. rewrite accepted_kept. destruct (kept c cx) eqn:KP; cbn [negb]; [|eauto].
  set (pid := dflt (s_pid (cx_sample cx))) in *.
  assert (HM : forall q m, cx_main cx = Some (q, m) -> hm_start m <= hm_limit m).
  { intros q m E. apply (RG q). unfold refs_of. rewrite E. apply in_or_app. left. now left. }
  assert (HRm : forall q m, cx_main cx = Some (q, m) -> R q (hm_start m) (hm_limit m)).
  { intros q m E. apply K. unfold refs_of. rewrite E. apply in_or_app. left. now left. }
  destruct (get_or_create_total _ _ _ _ _ I F HM) as (s1 & bi & G). rewrite G. cbn [obind].
  destruct (inv_get_or_create _ _ _ _ _ _ _ I HRm G) as (I1 & GR1 & OB & (b & NB) & SAME & _). fold pid in OB.
  rewrite (proj2 (at_ok _ _ _) NB). cbn [obind].
  destruct (make_key c (info s1 pid) b cx) as [b1 k] eqn:MK.
  destruct AO as (A1 & A2 & A3 & A4).
  destruct (checked_total _ _ A1) as (ip & CIP). rewrite CIP. cbn [obind]. apply checked_eq in CIP.
  assert (X : exists data, (if opted c kAddDataAddressFrames
       then let! a := checked (dflt (s_addr (cx_sample cx))) (cx_addr cx) in Ok [(a, cx_addr cx)] else Ok []) = Ok data
       /\ data = if data_frames c then [(mapped_or_zero (dflt (s_addr (cx_sample cx))) (cx_addr cx), cx_addr cx)] else []).
  { rewrite data_frames_bit. destruct (data_frames c); [|eauto].
    assert (CO : contains_opt (cx_addr cx) (dflt (s_addr (cx_sample cx)))).
    { destruct (s_addr (cx_sample cx)); [exact A2|]. rewrite A2. exact Logic.I. }
    destruct (checked_total _ _ CO) as (x & E). rewrite E. cbn [obind]. apply checked_eq in E. subst x. eauto. }
  destruct X as (data & ED & EF). rewrite ED. cbn [obind]. clear ED.
  rewrite lbr_eq, chain_frames_eq, branch_frames_eq.
  assert (SF : data ++ (ip, cx_map cx) :: callchain_frames cx ++ branch_sources cx = stack_frames c cx).
  { unfold stack_frames, code_frames. now rewrite EF, CIP. }
  match goal with |- context [data ++ ?f] => change f with ((ip, cx_map cx) :: callchain_frames cx ++ branch_sources cx) end.
  rewrite SF.
  destruct (iv_core _ _ _ _ I1 bi b NB) as (C & T & NE).
  destruct (iv_some _ _ _ _ I1 pid bi OB) as (b' & NB' & M1 & L1 & S1).
  assert (Eb : b' = b) by congruence. subst b'. clear NB'.
  assert (CM : forall tid, comm_of (info s1 pid) tid = thread_name h pid tid) by (intros; apply (iv_comm _ _ _ _ I1)).
  pose proof (make_key_sx _ _ _ _ _ _ MK) as SX.
  pose proof (sx_gx _ _ SX) as G1. pose proof (sx_core _ _ SX C) as C1.
  assert (HRf : forall a q m, In (a, Some (q, m)) (stack_frames c cx) -> R q (hm_start m) (hm_limit m)).
  { intros a q m Hin. apply K. exact (frames_refs _ _ _ _ _ Hin). }
  destruct (add_locations_total R (stack_frames c cx) (info s1 pid) b1 C1 (maps_ok_gx _ _ _ _ G1 M1) (locs_ok_gx _ _ _ G1 L1) HRf)
    as (pi2 & b2 & ids & AL).
  { intros a q m Hin. apply (RG q). exact (frames_refs _ _ _ _ _ Hin). }
  { apply frames_none. }
  rewrite AL. cbn [obind].
  destruct (add_locations_spec R _ _ _ _ _ _ C1 (maps_ok_gx _ _ _ _ G1 M1) (locs_ok_gx _ _ _ G1 L1) HRf AL)
    as (C2 & M2 & L2 & (SR1 & SR2 & SR3) & F2 & _).
  destruct (add_locations_gx _ _ _ _ _ _ AL) as (G2 & SAM2). pose proof (gx_trans _ _ _ G1 G2) as G12.
  match goal with |- context [add_or_update c ?t cx pid ?kk bi] => set (s2 := t); set (key := kk) end.
  assert (Q2 : info s2 pid = pi2).
  { unfold s2. rewrite info_stats, info_builders, info_set, N.eqb_refl. reflexivity. }
  assert (NB2 : nth_error (cs_builders s2) bi = Some b2).
  { unfold s2. cbn [cs_builders set_stats set_builders]. rewrite nth_error_set_nth, Nat.eqb_refl.
    change (cs_builders (set_info pid pi2 s1)) with (cs_builders s1).
    now rewrite (proj2 (Nat.ltb_lt _ _) (nth_error_len_some _ _ _ NB)). }
  assert (S2 : sams_ok b2 bi pi2).
  { intros k0 r0 E. rewrite SR3 in E. exact (sams_ok_gx _ _ _ _ G12 S1 k0 r0 E). }
  assert (SAMB : pf_sample (b_profile b2) = pf_sample (b_profile b)).
  { rewrite SAM2. exact (sx_samples _ _ SX). }
  assert (T2 : List.length (pf_sample_type (b_profile b2)) = (2 * events c)%nat) by (rewrite (gx_types _ _ G12); exact T).
  cbn [load] in LD. rewrite KP, <- (weight_eq c cx KP) in LD.
  assert (HI : (Z.to_nat (cx_attr cx) < events c)%nat).
  { unfold kept in KP. rewrite !andb_true_iff in KP. destruct KP as ((K1 & K2) & _). apply Z.leb_le in K1.
    apply Z.ltb_lt in K2. clear - K1 K2. lia. }
  assert (CELL : forall n p, nth_error (pf_sample (b_profile b2)) n = Some p -> cell s (bi, n) = Some (ps_val p)).
  { intros n p Hp. rewrite SAMB in Hp. unfold cell. cbn [fst snd].
    destruct (get_or_create_inv _ _ _ _ _ G) as [(_ & _ & EB & _)|(_ & EB0 & ? & b0 & E0 & EB & _)].
    - rewrite <- EB, NB, Hp. reflexivity.
    - rewrite EB, EB0, nth_error_app2, Nat.sub_diag in NB by lia. cbn in NB. injection NB as <-.
      rewrite (new_builder_samples _ _ _ _ _ E0) in Hp. now destruct n. }
  assert (W : forall x y, (Z.abs x <= D)%Z -> (Z.abs y <= Z.max 1 (Z.abs (weight_of c cx)))%Z -> (- 2 ^ 63 <= x + y < 2 ^ 63)%Z).
  { intros x y. revert LD. clear. lia. }
  unfold add_or_update. rewrite Q2. destruct (aget skey_eqb key (pi_sample pi2)) as [r0|] eqn:HIT.
  - destruct (S2 key r0 HIT) as (FR & p & NP & _). pose proof (nth_error_In _ _ NP) as IP.
    assert (E : exists s3, bump_sample s2 r0 (Z.to_nat (cx_attr cx)) (weight_of c cx) = Ok s3).
    { apply (bump_sample_total s2 r0 _ _ b2 p); [now rewrite FR|exact NP| | |].
      - destruct (co_sam _ C2 p IP) as (_ & _ & ->). rewrite T2. clear - HI. lia.
      - pose proof (BD (bi, snd r0) (2 * Z.to_nat (cx_attr cx))%nat) as X. rewrite (CELL _ _ NP) in X. cbn [value] in X.
        apply W; [exact X|]. clear. lia.
      - pose proof (BD (bi, snd r0) (2 * Z.to_nat (cx_attr cx) + 1)%nat) as X. rewrite (CELL _ _ NP) in X. cbn [value] in X.
        apply W; [exact X|]. clear. lia. }
    destruct E as (s3 & E). rewrite E. cbn [obind]. eauto.
  - rewrite (proj2 (at_ok _ _ _) NB2). cbn [obind].
    destruct (new_sample_samples c b2 (cx_sample cx) key) as (ls & NS).
    match goal with |- context [bump_sample ?t ?r _ _] => set (s3 := t); set (r0 := r) end.
    assert (NB3 : nth_error (cs_builders s3) bi = Some (new_sample c b2 (cx_sample cx) key)).
    { unfold s3. cbn [cs_builders set_info set_pids set_builders]. rewrite nth_error_set_nth, Nat.eqb_refl.
      now rewrite (proj2 (Nat.ltb_lt _ _) (nth_error_len_some _ _ _ NB2)). }
    assert (E : exists s4, bump_sample s3 r0 (Z.to_nat (cx_attr cx)) (weight_of c cx) = Ok s4).
    { assert (D0 : (0 <= D)%Z) by (pose proof (BD (0, 0)%nat 0%nat) as X; revert X; clear; lia).
      eapply (bump_sample_total s3 r0 _ _ _ _ NB3).
      - rewrite NS. cbn [snd r0]. rewrite nth_error_app2, Nat.sub_diag by lia. reflexivity.
      - cbn [ps_val]. rewrite repeat_length. clear - HI. lia.
      - cbn [ps_val]. rewrite nth_repeat0. apply W; [exact D0|]. clear. lia.
      - cbn [ps_val]. rewrite nth_repeat0. apply W; [exact D0|]. clear. lia. }
    destruct E as (s4 & E). rewrite E. cbn [obind]. eauto.
Qed.

Lemma call_total c R h s x D :
  Inv c R h s -> refs_known R x -> addresses_ok x -> option_on c 2 = false ->
  (forall q m, In (q, m) (refs_of x) -> hm_start m <= hm_limit m) ->
  bounded s D -> (D + load c x < 2 ^ 63)%Z ->
  exists s' o, on_call c s x = Ok (s', o) /\ bounded s' (D + load c x)%Z.
Proof.
  intros I K AO F RG BD LD. destruct x as [cx|cm e|pid [q m]].
  - destruct (sample_total _ _ _ _ _ _ I K AO F RG BD LD) as (s' & o & E). exists s', o. split; [exact E|].
    destruct (on_sample_inv _ _ _ _ _ E) as [(KP & -> & ->)|(KP & X)].
    + cbn [load]. rewrite KP, Z.add_0_r. exact BD.
    + destruct X as (? & ? & ? & ? & ? & ? & ? & ? & r & _ & _ & _ & _ & _ & ->).
      intros y j. destruct (sample_cell _ _ _ _ _ E y) as (V & _). rewrite V.
      cbn [load]. rewrite KP, <- (weight_eq c cx KP). specialize (BD y j). revert BD. clear.
      assert (N0 : (j =? 2 * Z.to_nat (cx_attr cx))%nat = true -> (j =? 2 * Z.to_nat (cx_attr cx) + 1)%nat = false).
      { rewrite Nat.eqb_eq, Nat.eqb_neq. lia. }
      destruct (same_place r y); [|lia].
      destruct (j =? 2 * Z.to_nat (cx_attr cx))%nat; [rewrite N0 by reflexivity; lia|].
      destruct (j =? 2 * Z.to_nat (cx_attr cx) + 1)%nat; lia.
  - cbn [on_call load]. rewrite Z.add_0_r. eexists _, _. split; [reflexivity|]. intros x j.
    replace (cell (on_comm_call s cm e) x) with (cell s x); [apply BD|]. unfold on_comm_call. now destruct e.
  - cbn [on_call load]. rewrite Z.add_0_r. unfold on_mmap_call. specialize (RG q m (or_introl eq_refl)).
    apply N.ltb_ge in RG. rewrite RG. cbn [obind]. eexists _, _. split; [reflexivity|]. exact BD.
Qed.

Lemma run_total c R hs : forall h s D,
  Inv c R h s -> Forall (refs_known R) hs -> Forall (fun x => ~ resets c x) hs -> Forall addresses_ok hs ->
  option_on c 2 = false -> (forall x q m, In x hs -> In (q, m) (refs_of x) -> hm_start m <= hm_limit m) ->
  bounded s D -> (D + sum (map (load c) hs) < 2 ^ 63)%Z ->
  exists s' os, run_calls c s hs = Ok (s', os).
Proof.
  induction hs as [|x hs IH]; intros h s D I K NR AO F RG BD LD; cbn [run_calls]; [eauto|].
  inversion K as [|? ? K1 K2]; subst. inversion NR as [|? ? N1 N2]; subst. inversion AO as [|? ? A1 A2]; subst.
  cbn [map] in LD. change (sum (load c x :: ?l)) with (load c x + sum l)%Z in LD.
  assert (NN : (0 <= sum (map (load c) hs))%Z).
  { clear. induction hs as [|x hs IH]; cbn; [lia|]. unfold sum in *. 
    assert (0 <= load c x)%Z; [|lia]. destruct x as [cx| |]; cbn; try lia. destruct (kept c cx); lia. }
  destruct (call_total _ _ _ _ _ _ I K1 A1 F (fun q m => RG x q m (or_introl eq_refl)) BD) as (s1 & o & E & BD1).
  { clear - LD NN. lia. }
  rewrite E. cbn [obind]. destruct (call_step _ _ _ _ _ _ _ I K1 N1 E) as (I1 & _).
  destruct (IH _ _ _ I1 K2 N2 A2 F (fun y q m Hy => RG y q m (or_intror Hy)) BD1) as (s2 & os & E2).
  { clear - LD. lia. }
  rewrite E2. cbn [obind]. eauto.
Qed.
