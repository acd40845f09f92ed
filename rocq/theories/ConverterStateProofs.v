(** The invariant of the converter's state. *)
From Coq Require Import String.
From Verif Require Import Base BytesModel TextModel Assoc ProfileModel BuilderModel BuilderSpec BuilderProofs
  SpeModel PerfProto NormalizerModel NormalizerSpec NormalizerProofs ConverterModel ConverterSpec ConverterProofs
  ConverterOpenProofs ConverterInvProofs ConverterKeyProofs.
Local Open Scope N_scope.
Local Open Scope list_scope.

(** The entry that holds the profile of a process. *)
Definition okey (c : cfg) (p : N) : N := if grouped c then p else 0.

Definition sams_ok (b : builder) (bi : nat) (pi : pinfo) : Prop :=
  forall k r, aget skey_eqb k (pi_sample pi) = Some r ->
    fst r = bi /\ exists ps, nth_error (pf_sample (b_profile b)) (snd r) = Some ps /\ ps_loc ps = sk_stack k.

Record Inv (c : cfg) (R : ptr -> N -> N -> Prop) (h : list hcall) (s : cstate) : Prop := {
  iv_len : List.length (cs_metas s) = List.length (cs_builders s);
  iv_core : forall j b, nth_error (cs_builders s) j = Some b ->
    core b /\ List.length (pf_sample_type (b_profile b)) = (2 * events c)%nat /\ pf_mapping (b_profile b) <> [];
  iv_none : forall p, pi_builder (info s (okey c p)) = None ->
    pi_loc (info s p) = [] /\ pi_map (info s p) = [] /\ pi_sample (info s p) = [];
  iv_some : forall p bi, pi_builder (info s (okey c p)) = Some bi ->
    exists b, nth_error (cs_builders s) bi = Some b /\ maps_ok R b (info s p) /\ locs_ok b (info s p) /\
      sams_ok b bi (info s p);
  iv_inj : forall p k p' k' r,
    aget skey_eqb k (pi_sample (info s p)) = Some r -> aget skey_eqb k' (pi_sample (info s p')) = Some r ->
    p = p' /\ k = k';
  iv_comm : forall p tid, comm_of (info s p) tid = thread_name h p tid }.

Definition growing (s s' : cstate) : Prop :=
  forall j b, nth_error (cs_builders s) j = Some b ->
    exists b', nth_error (cs_builders s') j = Some b' /\ gx b b'.
Lemma growing_refl s : growing s s.
Proof. intros j b H. exists b. split; [exact H|apply gx_refl]. Qed.
Lemma growing_trans a b c : growing a b -> growing b c -> growing a c.
Proof.
  intros A B j x H. destruct (A j x H) as (y & Hy & G). destruct (B j y Hy) as (z & Hz & G').
  exists z. split; [exact Hz|]. eapply gx_trans; eassumption.
Qed.

Definition all_inside (s : cstate) : Prop :=
  forall j b, nth_error (cs_builders s) j = Some b -> locations_inside (b_profile b).

Lemma inv0 c R : Inv c R [] cstate0.
Proof.
  constructor.
  - reflexivity.
  - intros [|j] b; discriminate.
  - intros p _. repeat split.
  - intros p bi. discriminate.
  - intros p k p' k' r. discriminate.
  - reflexivity.
Qed.

Lemma sams_ok_gx b b' bi pi : gx b b' -> sams_ok b bi pi -> sams_ok b' bi pi.
Proof.
  intros G H k r E. destruct (H k r E) as (A & ps & B & C). split; [exact A|].
  destruct (gx_sam _ _ G) as (t & T).
  assert (X : nth_error (map shape (pf_sample (b_profile b'))) (snd r) = Some (shape ps)).
  { rewrite T, nth_error_app1 by (rewrite map_length; exact (nth_error_len_some _ _ _ B)).
    now rewrite nth_error_map, B. }
  rewrite nth_error_map in X. destruct (nth_error (pf_sample (b_profile b')) (snd r)) as [ps'|]; [|discriminate X].
  exists ps'. split; [reflexivity|]. cbn in X. injection X as X _. congruence.
Qed.

(** * One builder and one entry change *)
Lemma inv_update c R h s s' pid bi b b' pi' k0 :
  Inv c R h s ->
  pi_builder (info s (okey c pid)) = Some bi -> nth_error (cs_builders s) bi = Some b ->
  gx b b' -> core b' ->
  maps_ok R b' pi' -> locs_ok b' pi' -> sams_ok b' bi pi' ->
  pi_builder pi' = pi_builder (info s pid) -> pi_comm pi' = pi_comm (info s pid) ->
  (forall k r, aget skey_eqb k (pi_sample pi') = Some r ->
     aget skey_eqb k (pi_sample (info s pid)) = Some r \/
     (k = k0 /\ r = (bi, List.length (pf_sample (b_profile b))))) ->
  cs_builders s' = set_nth bi b' (cs_builders s) ->
  List.length (cs_metas s') = List.length (cs_metas s) ->
  (forall q, info s' q = if q =? pid then pi' else info s q) ->
  Inv c R h s' /\ growing s s' /\ nth_error (cs_builders s') bi = Some b' /\
  (all_inside s -> locations_inside (b_profile b') -> all_inside s').
Proof.
  intros I PB NB G C M L S EB EC HK B LM Q.
  assert (NB' : nth_error (cs_builders s') bi = Some b').
  { rewrite B, nth_error_set_nth, Nat.eqb_refl.
    now rewrite (proj2 (Nat.ltb_lt _ _) (nth_error_len_some _ _ _ NB)). }
  assert (OTHER : forall j, j <> bi -> nth_error (cs_builders s') j = nth_error (cs_builders s) j).
  { intros j Hj. rewrite B, nth_error_set_nth. apply Nat.eqb_neq in Hj. now rewrite Hj. }
  assert (GR : growing s s').
  { intros j x Hx. destruct (Nat.eq_dec j bi) as [->|Hj].
    - rewrite NB in Hx. injection Hx as <-. eauto.
    - rewrite OTHER by exact Hj. exists x. split; [exact Hx|apply gx_refl]. }
  assert (EQB : forall q, pi_builder (info s' q) = pi_builder (info s q)).
  { intros q. rewrite Q. destruct (N.eqb_spec q pid) as [->|]; [exact EB|reflexivity]. }
  split; [|split; [exact GR|split; [exact NB'|]]].
  2:{ intros A LI j x Hx. destruct (Nat.eq_dec j bi) as [->|Hj].
      - rewrite NB' in Hx. injection Hx as <-. exact LI.
      - rewrite OTHER in Hx by exact Hj. exact (A j x Hx). }
  constructor.
  - rewrite LM, B, length_set_nth. exact (iv_len _ _ _ _ I).
  - intros j x Hx. destruct (Nat.eq_dec j bi) as [->|Hj].
    + rewrite NB' in Hx. injection Hx as <-. destruct (iv_core _ _ _ _ I bi b NB) as (_ & T & N).
      split; [exact C|]. split; [rewrite (gx_types _ _ G); exact T|].
      destruct (gx_map _ _ G) as (t & ->). destruct (pf_mapping (b_profile b)); [now contradiction N|discriminate].
    + rewrite OTHER in Hx by exact Hj. exact (iv_core _ _ _ _ I j x Hx).
  - intros p Hp. rewrite EQB in Hp. rewrite Q. destruct (N.eqb_spec p pid) as [->|Hn].
    + congruence.
    + now apply (iv_none _ _ _ _ I).
  - intros p bj Hp. rewrite EQB in Hp. rewrite Q. destruct (N.eqb_spec p pid) as [->|Hn].
    + rewrite PB in Hp. injection Hp as <-. eauto.
    + destruct (iv_some _ _ _ _ I p bj Hp) as (x & Hx & M0 & L0 & S0).
      destruct (GR bj x Hx) as (x' & Hx' & G'). exists x'. split; [exact Hx'|].
      split; [exact (maps_ok_gx _ _ _ _ G' M0)|]. split; [exact (locs_ok_gx _ _ _ G' L0)|exact (sams_ok_gx _ _ _ _ G' S0)].
  - (* injectivity *)
    assert (FRESH : forall p k, aget skey_eqb k (pi_sample (info s p)) = Some (bi, List.length (pf_sample (b_profile b))) -> False).
    { intros p k Hk. destruct (pi_builder (info s (okey c p))) as [bj|] eqn:Hp.
      - destruct (iv_some _ _ _ _ I p bj Hp) as (x & Hx & _ & _ & S0). destruct (S0 _ _ Hk) as (E & ps & Hps & _).
        cbn [fst snd] in E, Hps. subst bj. rewrite NB in Hx. injection Hx as <-.
        apply nth_error_len_some in Hps. lia.
      - destruct (iv_none _ _ _ _ I p Hp) as (_ & _ & E). rewrite E in Hk. discriminate Hk. }
    assert (OLD : forall p k r, aget skey_eqb k (pi_sample (info s' p)) = Some r ->
      aget skey_eqb k (pi_sample (info s p)) = Some r \/ (p = pid /\ k = k0 /\ r = (bi, List.length (pf_sample (b_profile b))))).
    { intros p k r Hk. rewrite Q in Hk. destruct (N.eqb_spec p pid) as [->|]; [|now left].
      destruct (HK k r Hk) as [|(-> & ->)]; [now left|now right]. }
    intros p k p' k' r H1 H2.
    destruct (OLD _ _ _ H1) as [H1'|(-> & -> & ->)]; destruct (OLD _ _ _ H2) as [H2'|(-> & -> & E)].
    + exact (iv_inj _ _ _ _ I _ _ _ _ _ H1' H2').
    + subst r. now destruct (FRESH _ _ H1').
    + now destruct (FRESH _ _ H2').
    + now split.
  - intros p tid. rewrite <- (iv_comm _ _ _ _ I p tid). unfold comm_of. rewrite Q.
    destruct (N.eqb_spec p pid) as [->|]; [now rewrite EC|reflexivity].
Qed.

(** * GetOrCreateBuilder *)
Lemma inv_get_or_create c R h s cx s1 bi :
  Inv c R h s -> (forall q m, cx_main cx = Some (q, m) -> R q (hm_start m) (hm_limit m)) ->
  get_or_create c s cx = Ok (s1, bi) ->
  let pid := dflt (s_pid (cx_sample cx)) in
  Inv c R h s1 /\ growing s s1 /\ pi_builder (info s1 (okey c pid)) = Some bi /\
  (exists b, nth_error (cs_builders s1) bi = Some b) /\
  (forall q, pi_loc (info s1 q) = pi_loc (info s q) /\ pi_sample (info s1 q) = pi_sample (info s q) /\
             pi_comm (info s1 q) = pi_comm (info s q)) /\
  (pi_builder (info s (okey c pid)) = Some bi \/
   (pi_builder (info s (okey c pid)) = None /\ bi = List.length (cs_builders s))) /\
  (nth_error (cs_builders s) bi = None -> pi_loc (info s pid) = []) /\
  (all_inside s -> all_inside s1).
Proof.
  intros I HR H. cbn zeta. set (pid := dflt (s_pid (cx_sample cx))).
  change (filed_under c cx) with (okey c pid) in *.
  destruct (get_or_create_inv _ _ _ _ _ H) as [(P & (b & NB & _) & B & Q & _ & MM)|(P & Hbi & pi & b & NB & B & _ & Q & MM)];
    fold pid in P, Q; change (filed_under c cx) with (okey c pid) in *.
  - assert (INFO : forall q, info s1 q = info s q) by (intros q; now apply info_pids).
    split; [|split; [|split; [|split; [|split; [|split; [|split]]]]]].
    + destruct I as [I1 I2 I3 I4 I5 I6]. constructor.
      * rewrite B, <- I1. destruct (int64_of (dflt (s_time (cx_sample cx))) =? 0)%Z; [now rewrite MM|].
        destruct MM as (m & _ & ->). apply length_set_nth.
      * intros j x. rewrite B. apply I2.
      * intros p. rewrite !INFO. apply I3.
      * intros p bj. rewrite !INFO, B. apply I4.
      * intros p k p' k' r. rewrite !INFO. apply I5.
      * intros p tid. rewrite INFO. apply I6.
    + intros j x Hx. rewrite B. exists x. split; [exact Hx|apply gx_refl].
    + rewrite INFO. exact P.
    + exists b. now rewrite B.
    + intros q. rewrite INFO. auto.
    + now left.
    + rewrite NB. discriminate.
    + intros A j x. rewrite B. apply A.
  - specialize (MM (iv_len _ _ _ _ I)). rewrite info_set in NB.
    set (pi0 := if pid =? okey c pid then pi_set_builder (Some bi) (info s (okey c pid)) else info s pid) in NB.
    destruct (iv_none _ _ _ _ I pid P) as (N1 & N2 & N3).
    assert (P0 : pi_loc pi0 = pi_loc (info s pid) /\ pi_map pi0 = [] /\ pi_sample pi0 = pi_sample (info s pid) /\
                 pi_comm pi0 = pi_comm (info s pid)).
    { unfold pi0. destruct (N.eqb_spec pid (okey c pid)) as [E|E]; [rewrite <- E|]; auto. }
    destruct P0 as (P1 & P2 & P3 & P4).
    destruct (new_builder_spec R _ _ _ _ _ P2 HR NB) as (C & M & PL & (SR1 & SR2 & SR3) & S0 & L0 & NE & T).
    assert (NB' : nth_error (cs_builders s1) bi = Some b).
    { rewrite B, nth_error_app2, Hbi, Nat.sub_diag by lia. reflexivity. }
    assert (SAME : forall q, pi_loc (info s1 q) = pi_loc (info s q) /\ pi_sample (info s1 q) = pi_sample (info s q) /\
             pi_comm (info s1 q) = pi_comm (info s q)).
    { intros q. rewrite Q. destruct (N.eqb_spec q pid) as [->|Hq].
      - rewrite PL, SR3, SR2. auto.
      - destruct (N.eqb_spec q (okey c pid)) as [->|Hq']; auto. }
    assert (GR : growing s s1).
    { intros j x Hx. exists x. split; [|apply gx_refl]. rewrite B, nth_error_app1; [exact Hx|].
      exact (nth_error_len_some _ _ _ Hx). }
    assert (OB : pi_builder (info s1 (okey c pid)) = Some bi).
    { rewrite Q. destruct (N.eqb_spec (okey c pid) pid) as [E|E].
      - rewrite SR1. unfold pi0. rewrite E, N.eqb_refl. reflexivity.
      - rewrite N.eqb_refl. reflexivity. }
    assert (OO : forall q, q <> okey c pid -> pi_builder (info s1 q) = pi_builder (info s q)).
    { intros q Hq. rewrite Q. destruct (N.eqb_spec q pid) as [->|Hq1].
      - rewrite SR1. unfold pi0. apply N.eqb_neq in Hq. now rewrite Hq.
      - apply N.eqb_neq in Hq. now rewrite Hq. }
    split; [|split; [exact GR|split; [exact OB|split; [eauto|split; [exact SAME|split; [now right|split]]]]]].
    + constructor.
      * rewrite MM, B, !app_length, (iv_len _ _ _ _ I). reflexivity.
      * intros j x Hx. rewrite B in Hx. destruct (Nat.ltb_spec j (List.length (cs_builders s))) as [Hj|Hj].
        -- rewrite nth_error_app1 in Hx by exact Hj. exact (iv_core _ _ _ _ I j x Hx).
        -- rewrite nth_error_app2 in Hx by exact Hj.
           destruct (j - List.length (cs_builders s))%nat as [|[|d]]; try discriminate Hx.
           injection Hx as <-. auto.
      * intros p Hp. destruct (N.eq_dec (okey c p) (okey c pid)) as [E|E]; [congruence|].
        rewrite OO in Hp by exact E. destruct (SAME p) as (E1 & E2 & _). rewrite E1, E2.
        destruct (iv_none _ _ _ _ I p Hp) as (X1 & X2 & X3). split; [exact X1|]. split; [|exact X3].
        rewrite Q. destruct (N.eqb_spec p pid) as [->|Hq]; [now contradiction E|].
        destruct (N.eqb_spec p (okey c pid)) as [->|Hq']; [|exact X2].
        cbn [pi_map pi_set_builder]. exact X2.
      * intros p bj Hp. destruct (N.eq_dec (okey c p) (okey c pid)) as [E|E].
        -- rewrite E, OB in Hp. injection Hp as <-. exists b. split; [exact NB'|].
           assert (Pn : pi_builder (info s (okey c p)) = None) by congruence.
           destruct (iv_none _ _ _ _ I p Pn) as (X1 & X2 & X3). destruct (SAME p) as (E1 & E2 & _).
           split; [|split].
           ++ rewrite Q. destruct (N.eqb_spec p pid) as [->|Hq]; [exact M|].
              intros q i. destruct (N.eqb_spec p (okey c pid)) as [->|Hq']; cbn [pi_map pi_set_builder];
                rewrite X2; discriminate.
           ++ intros a i. rewrite E1, X1. discriminate.
           ++ intros k r. rewrite E2, X3. discriminate.
        -- rewrite OO in Hp by exact E. destruct (iv_some _ _ _ _ I p bj Hp) as (x & Hx & X1 & X2 & X3).
           exists x. split; [rewrite B, nth_error_app1; [exact Hx|exact (nth_error_len_some _ _ _ Hx)]|].
           destruct (SAME p) as (E1 & E2 & _).
           split; [|split].
           ++ intros q i. rewrite Q. destruct (N.eqb_spec p pid) as [->|Hq]; [now contradiction E|].
              destruct (N.eqb_spec p (okey c pid)) as [->|Hq']; cbn [pi_map pi_set_builder]; apply X1.
           ++ intros a i. rewrite E1. apply X2.
           ++ intros k r. rewrite E2. apply X3.
      * intros p k p' k' r. destruct (SAME p) as (_ & E1 & _). destruct (SAME p') as (_ & E2 & _).
        rewrite E1, E2. apply (iv_inj _ _ _ _ I).
      * intros p tid. rewrite <- (iv_comm _ _ _ _ I p tid). unfold comm_of. destruct (SAME p) as (_ & _ & E).
        now rewrite E.
    + intros _. exact N1.
    + intros A j x Hx. rewrite B in Hx. destruct (Nat.ltb_spec j (List.length (cs_builders s))) as [Hj|Hj].
      * rewrite nth_error_app1 in Hx by exact Hj. exact (A j x Hx).
      * rewrite nth_error_app2 in Hx by exact Hj.
        destruct (j - List.length (cs_builders s))%nat as [|[|d]]; try discriminate Hx.
        injection Hx as <-. intros l Hl. rewrite L0 in Hl. destruct Hl.
Qed.

(** * Counting *)
Lemma bump_sample_inv s r i w s' :
  bump_sample s r i w = Ok s' ->
  exists b p vals, nth_error (cs_builders s) (fst r) = Some b /\
    nth_error (pf_sample (b_profile b)) (snd r) = Some p /\ bump (ps_val p) i w = Ok vals /\
    let b' := with_profile b (set_sample (set_nth (snd r)
                {| ps_loc := ps_loc p; ps_val := vals; ps_label := ps_label p |} (pf_sample (b_profile b))) (b_profile b)) in
    s' = set_builders (set_nth (fst r) b' (cs_builders s)) s /\ gx b b' /\ (core b -> core b').
Proof.
  unfold bump_sample. intros H.
  destruct (at_ (cs_builders s) (fst r)) as [b| | | |] eqn:E; try discriminate H. cbn [obind] in H.
  destruct (at_ (pf_sample (b_profile b)) (snd r)) as [p| | | |] eqn:E2; try discriminate H. cbn [obind] in H.
  destruct (bump (ps_val p) i w) as [vals| | | |] eqn:E3; try discriminate H. cbn [obind] in H.
  injection H as <-. apply at_ok in E, E2. exists b, p, vals. split; [exact E|]. split; [exact E2|].
  split; [exact E3|]. cbn zeta. split; [reflexivity|].
  set (p' := {| ps_loc := _ |}). split.
  - constructor; try reflexivity; try (exists []; now rewrite app_nil_r).
    + apply tables_with; reflexivity.
    + exists []. rewrite app_nil_r. cbn [b_profile with_profile pf_sample set_sample].
      rewrite set_nth_map. apply set_nth_same. rewrite nth_error_map, E2. reflexivity.
  - intros [T Er Mp Lc Lm Sm [R1 R2 R3 R4 R5]].
    assert (IN : forall x, In x (set_nth (snd r) p' (pf_sample (b_profile b))) -> x = p' \/ In x (pf_sample (b_profile b))).
    { intros x Hx. apply In_nth_error in Hx. destruct Hx as (n & Hn). rewrite nth_error_set_nth in Hn.
      destruct ((n =? snd r)%nat && (snd r <? List.length (pf_sample (b_profile b)))%nat).
      - injection Hn as <-. now left.
      - right. exact (nth_error_In _ _ Hn). }
    pose proof (nth_error_In _ _ E2) as Ip. destruct (bump_values _ _ _ _ E3) as (LV & _ & _).
    constructor; cbn [b_profile with_profile b_error pf_mapping pf_location pf_sample pf_sample_type set_sample]; try assumption.
    + apply tables_with; try reflexivity. exact T.
    + intros x Hx. destruct (IN x Hx) as [->|Hx']; [|now apply Sm].
      destruct (Sm p Ip) as (A & B & D). cbn [ps_loc ps_val p']. split; [exact A|]. split; [exact B|]. congruence.
    + constructor; try assumption. intros x l Hx Hl. cbn [pf_sample set_sample] in Hx.
      destruct (IN x Hx) as [->|Hx']; [exact (R3 p l Ip Hl)|exact (R3 x l Hx' Hl)].
Qed.

(** * A sample *)
Definition opt_frames (cx : sctx) : list (N * option mref) :=
  (dflt (s_addr (cx_sample cx)), cx_addr cx) :: (s_ip (cx_sample cx), cx_map cx) :: [].

Lemma frames_refs c cx a q m : In (a, Some (q, m)) (stack_frames c cx) -> In (q, m) (refs_of (HSample cx)).
Proof.
  unfold stack_frames, code_frames, refs_of. intros H.
  apply in_app_or in H. destruct H as [H|H].
  - destruct (data_frames c); [|destruct H]. destruct H as [H|[]]. injection H as _ H. rewrite H.
    apply in_or_app. right. apply in_or_app. right. apply in_or_app. left. now left.
  - destruct H as [H|H].
    + injection H as _ H. rewrite H. apply in_or_app. right. apply in_or_app. left. now left.
    + apply in_app_or in H. destruct H as [H|H].
      * unfold callchain_frames in H. apply in_map_iff in H. destruct H as ([x y] & E & H).
        injection E as _ E. cbn [snd] in E. subst y. apply filter_In in H. destruct H as (H & _).
        assert (H' : In (x, Some (q, m)) (cx_chain cx)).
        { assert (TL : forall (l : list (N * option mref)) z, In z (tl l) -> In z l) by (intros [|? ?] z Hz; [destruct Hz|now right]).
          apply TL in H. apply filter_In in H. destruct H as (H & _). destruct (from_branches cx); [|exact H].
          clear - H. induction (cx_chain cx) as [|y l IH]; cbn [before_user] in H; [destruct H|].
          destruct (fst y =? 2 ^ 64 - 512); [destruct H|]. destruct H as [->|H]; [now left|right; now apply IH]. }
        do 3 (apply in_or_app; right). apply in_or_app. left. apply in_flat_map.
        exists (x, Some (q, m)). split; [exact H'|]. now left.
      * unfold branch_sources in H. destruct (from_branches cx); [|destruct H].
        apply filter_In in H. destruct H as (H & _). apply in_map_iff in H. destruct H as (b & E & H).
        injection E as _ E. do 4 (apply in_or_app; right). apply in_flat_map. exists b. split; [exact H|].
        rewrite E. now left.
Qed.

Lemma frames_contain c cx a q m :
  addresses_ok (HSample cx) -> In (a, Some (q, m)) (stack_frames c cx) -> hm_start m <= a < hm_limit m.
Proof.
  intros (A1 & A2 & A3 & A4). unfold stack_frames, code_frames. intros H.
  apply in_app_or in H. destruct H as [H|H].
  - destruct (data_frames c); [|destruct H]. destruct H as [H|[]]. injection H as Ha H. rewrite H in *.
    cbn [mapped_or_zero] in Ha. subst a. destruct (s_addr (cx_sample cx)); [exact A2|discriminate A2].
  - destruct H as [H|H].
    + injection H as Ha H. rewrite H in *. cbn [mapped_or_zero] in Ha. subst a. exact A1.
    + apply in_app_or in H. destruct H as [H|H].
      * unfold callchain_frames in H. apply in_map_iff in H. destruct H as ([x y] & E & H).
        injection E as Ha E. cbn [fst snd] in E, Ha. subst y. apply filter_In in H. destruct H as (H & HS).
        unfold above_start in HS. cbn [snd fst] in HS. apply N.ltb_lt in HS.
        assert (H' : In (x, Some (q, m)) (cx_chain cx)).
        { assert (TL : forall (l : list (N * option mref)) z, In z (tl l) -> In z l) by (intros [|? ?] z Hz; [destruct Hz|now right]).
          apply TL in H. apply filter_In in H. destruct H as (H & _). destruct (from_branches cx); [|exact H].
          clear - H. induction (cx_chain cx) as [|y l IH]; cbn [before_user] in H; [destruct H|].
          destruct (fst y =? 2 ^ 64 - 512); [destruct H|]. destruct H as [->|H]; [now left|right; now apply IH]. }
        specialize (A3 _ _ H'). cbn [contains_opt] in A3. unfold contains in A3. lia.
      * unfold branch_sources in H. destruct (from_branches cx); [|destruct H].
        apply filter_In in H. destruct H as (H & _). apply in_map_iff in H. destruct H as (b & E & H).
        injection E as Ha E. destruct (A4 b H) as (A5 & _). rewrite E in A5. cbn [contains_opt] in A5.
        unfold contains in A5. lia.
Qed.

Lemma stack_frames_nonempty c cx : stack_frames c cx <> [].
Proof. unfold stack_frames, code_frames. destruct (data_frames c); discriminate. Qed.

(** Samples of the builder [j] so far. *)
Definition nsamples (s : cstate) (j : nat) : nat :=
  match nth_error (cs_builders s) j with Some b => List.length (pf_sample (b_profile b)) | None => 0 end.
Definition nlocs (s : cstate) (j : nat) : nat :=
  match nth_error (cs_builders s) j with Some b => List.length (pf_location (b_profile b)) | None => 0 end.

Record sample_step (c : cfg) (h : list hcall) (cx : sctx) (s s' : cstate) (r : sref) : Prop := {
  ss_grow : growing s s';
  ss_bi : pi_builder (info s' (okey c (dflt (s_pid (cx_sample cx))))) = Some (fst r);
  ss_bi_old : pi_builder (info s (okey c (dflt (s_pid (cx_sample cx))))) = Some (fst r) \/
    (pi_builder (info s (okey c (dflt (s_pid (cx_sample cx))))) = None /\ fst r = List.length (cs_builders s));
  ss_key : exists b k ids,
    nth_error (cs_builders s') (fst r) = Some b /\
    view_key b (dflt (s_pid (cx_sample cx))) (view_of c h cx) k /\
    Forall2 (fun f id => aget N.eqb (fst f) (pi_loc (info s' (dflt (s_pid (cx_sample cx))))) = Some id)
      (stack_frames c cx) ids /\
    aget skey_eqb (with_stack ids k) (pi_sample (info s' (dflt (s_pid (cx_sample cx))))) = Some r /\
    (forall k' r', aget skey_eqb k' (pi_sample (info s' (dflt (s_pid (cx_sample cx))))) = Some r' ->
       aget skey_eqb k' (pi_sample (info s (dflt (s_pid (cx_sample cx))))) = Some r' \/
       (k' = with_stack ids k /\ r' = r /\ snd r = nsamples s (fst r))) /\
    (snd r = nsamples s (fst r) -> exists ps, nth_error (pf_sample (b_profile b)) (snd r) = Some ps /\
       Forall2 (reads (b_profile b)) (ps_label ps) (expected_labels c h cx));
  ss_keep : forall k' r', aget skey_eqb k' (pi_sample (info s (dflt (s_pid (cx_sample cx))))) = Some r' ->
    aget skey_eqb k' (pi_sample (info s' (dflt (s_pid (cx_sample cx))))) = Some r';
  ss_loc_keep : forall x i, aget N.eqb x (pi_loc (info s (dflt (s_pid (cx_sample cx))))) = Some i ->
    aget N.eqb x (pi_loc (info s' (dflt (s_pid (cx_sample cx))))) = Some i;
  ss_loc_new : forall x i, aget N.eqb x (pi_loc (info s' (dflt (s_pid (cx_sample cx))))) = Some i ->
    aget N.eqb x (pi_loc (info s (dflt (s_pid (cx_sample cx))))) = Some i \/ N.of_nat (nlocs s (fst r)) < i;
  ss_other : forall q, q <> dflt (s_pid (cx_sample cx)) ->
    pi_loc (info s' q) = pi_loc (info s q) /\ pi_sample (info s' q) = pi_sample (info s q) }.

Lemma sample_step_ok c R h s cx s' o :
  Inv c R h s -> (forall q m, In (q, m) (refs_of (HSample cx)) -> R q (hm_start m) (hm_limit m)) ->
  on_sample_call c s cx = Ok (s', o) ->
  (kept c cx = false /\ s' = s /\ o = None) \/
  (kept c cx = true /\ exists r, o = Some r /\ Inv c R h s' /\ sample_step c h cx s s' r /\
   cs_stats s' = cs_stats s ++ map (fun f => (dflt (s_pid (cx_sample cx)), source_of (snd f))) (code_frames cx) /\
   (all_inside s -> (forall a q m s l, In (a, Some (q, m)) (stack_frames c cx) -> R q s l -> s <= a < l) -> all_inside s')).
Proof.
  intros I HR H. destruct (on_sample_inv _ _ _ _ _ H) as [X|(K & X)]; [now left|]. right. split; [exact K|].
  cbn zeta in X. set (pid := dflt (s_pid (cx_sample cx))) in *.
  destruct X as (s1 & bi & b & b1 & k & pi2 & b2 & ids & r & G & NB & MK & AL & AU & ->).
  exists r. split; [reflexivity|].
  assert (HRm : forall q m, cx_main cx = Some (q, m) -> R q (hm_start m) (hm_limit m)).
  { intros q m E. apply HR. unfold refs_of. rewrite E. apply in_or_app. left. now left. }
  destruct (inv_get_or_create _ _ _ _ _ _ _ I HRm G) as (I1 & GR1 & OB & (b' & NB') & SAME & OLD & EMP & INS1).
  fold pid in OB, OLD, EMP. assert (Eb : b' = b) by congruence. subst b'. clear NB'.
  destruct (iv_core _ _ _ _ I1 bi b NB) as (C & T & NE).
  destruct (iv_some _ _ _ _ I1 pid bi OB) as (b' & NB' & M1 & L1 & S1).
  assert (Eb : b' = b) by congruence. subst b'. clear NB'.
  assert (CM : forall tid, comm_of (info s1 pid) tid = thread_name h pid tid) by (intros; apply (iv_comm _ _ _ _ I1)).
  destruct (make_key_view _ _ _ _ _ _ _ (co_tab _ C) CM MK) as (VK & SX). fold pid in VK.
  pose proof (sx_gx _ _ SX) as G1. pose proof (sx_core _ _ SX C) as C1.
  assert (HRf : forall a q m, In (a, Some (q, m)) (stack_frames c cx) -> R q (hm_start m) (hm_limit m)).
  { intros a q m Hin. apply HR. exact (frames_refs _ _ _ _ _ Hin). }
  destruct (add_locations_spec R _ _ _ _ _ _ C1 (maps_ok_gx _ _ _ _ G1 M1) (locs_ok_gx _ _ _ G1 L1) HRf AL)
    as (C2 & M2 & L2 & (SR1 & SR2 & SR3) & F2 & P2 & N2 & INS2).
  destruct (add_locations_gx _ _ _ _ _ _ AL) as (G2 & SAM2).
  pose proof (gx_trans _ _ _ G1 G2) as G12.
  set (s2 := set_stats _ _) in AU.
  assert (Q2 : forall q, info s2 q = if q =? pid then pi2 else info s1 q).
  { intros q. unfold s2. rewrite info_stats, info_builders, info_set. reflexivity. }
  assert (S2 : sams_ok b2 bi pi2).
  { intros k0 r0 E. rewrite SR3 in E. exact (sams_ok_gx _ _ _ _ G12 S1 k0 r0 E). }
  destruct (inv_update c R h s1 s2 pid bi b b2 pi2 k I1 OB NB G12 C2 M2 L2 S2 SR1 SR2) as (I2 & GR2 & NB2 & INS3).
  { intros k0 r0 E. left. now rewrite <- SR3. }
  { reflexivity. } { reflexivity. } { exact Q2. }
  assert (OB2 : pi_builder (info s2 (okey c pid)) = Some bi).
  { rewrite Q2. destruct (N.eqb_spec (okey c pid) pid) as [E|E]; [rewrite SR1, <- E at 1; exact OB|exact OB]. }
  assert (STATS : cs_stats s2 = cs_stats s ++ map (fun f => (pid, source_of (snd f))) (code_frames cx)).
  { unfold s2. cbn [cs_stats set_stats]. f_equal.
    destruct (get_or_create_inv _ _ _ _ _ G) as [(_ & _ & _ & _ & E & _)|(_ & _ & ? & ? & _ & _ & E & _)]; exact E. }
  assert (VK2 : view_key b2 pid (view_of c h cx) k).
  { destruct (gx_tab _ _ G2 (co_tab _ C1)) as (_ & GG). exact (view_key_grows _ _ _ _ _ (co_tab _ C1) GG VK). }
  assert (SAMB : pf_sample (b_profile b2) = pf_sample (b_profile b)).
  { rewrite SAM2. exact (sx_samples _ _ SX). }
  assert (ALLIN2 : all_inside s -> (forall a q m s l, In (a, Some (q, m)) (stack_frames c cx) -> R q s l -> s <= a < l) ->
    all_inside s2).
  { intros A HF. apply INS3; [now apply INS1|]. apply INS2; [|exact HF].
    pose proof (INS1 A bi b NB) as LI. destruct SX as (PX & _). rewrite PX. exact LI. }
  (* locations *)
  assert (LN : forall x i, aget N.eqb x (pi_loc pi2) = Some i ->
    aget N.eqb x (pi_loc (info s pid)) = Some i \/ N.of_nat (nlocs s bi) < i).
  { intros x i Hx. destruct (N2 x i Hx) as [Hx'|Hx'].
    - left. destruct (SAME pid) as (E & _). now rewrite <- E.
    - right. unfold nlocs. destruct (nth_error (cs_builders s) bi) as [b0|] eqn:E0.
      + destruct (GR1 bi b0 E0) as (b0' & E1 & GX). assert (b0' = b) by congruence. subst b0'.
        destruct (gx_loc _ _ GX) as (t & TT). destruct (gx_loc _ _ G1) as (t' & TT').
        rewrite TT', TT, !app_length in Hx'. clear - Hx'. lia.
      + clear - Hx'. lia. }
  assert (LK : forall x i, aget N.eqb x (pi_loc (info s pid)) = Some i -> aget N.eqb x (pi_loc pi2) = Some i).
  { intros x i Hx. apply P2. destruct (SAME pid) as (E & _). now rewrite E. }
  assert (NS : nsamples s bi = List.length (pf_sample (b_profile b2))).
  { rewrite SAMB. unfold nsamples.
    destruct (get_or_create_inv _ _ _ _ _ G) as [(_ & (b0 & E0 & _) & EB & _)|(_ & EB0 & ? & b0 & E0 & EB & _)].
    - rewrite EB in NB. now rewrite NB.
    - rewrite EB, EB0, nth_error_app2, Nat.sub_diag in NB by lia. cbn in NB. injection NB as <-.
      rewrite (new_builder_samples _ _ _ _ _ E0). replace (nth_error (cs_builders s) bi) with (@None builder); [reflexivity|].
      symmetry. apply nth_error_None. lia. }
  pose proof (growing_trans _ _ _ GR1 GR2) as GR12.
  set (key := with_stack ids k) in *.
  (* add or update *)
  unfold add_or_update in AU. rewrite Q2, N.eqb_refl in AU.
  destruct (aget skey_eqb key (pi_sample pi2)) as [r0|] eqn:HIT.
  - destruct (bump_sample s2 r0 _ _) as [s3| | | |] eqn:BS; try discriminate AU. cbn [obind] in AU.
    injection AU as -> ->. destruct (bump_sample_inv _ _ _ _ _ BS) as (b3 & ps & vals & E1 & E2 & E3 & E4 & E5 & E6).
    destruct (S2 key r HIT) as (FR & ps' & PS' & _). rewrite FR in *.
    assert (Eb : b3 = b2) by congruence. subst b3.
    set (b3 := with_profile b2 _) in *.
    destruct (inv_update c R h s2 s' pid bi b2 b3 pi2 key I2 OB2 NB2 E5 (E6 C2)) as (I3 & GR3 & NB3 & INS4).
    + exact (maps_ok_gx _ _ _ _ E5 M2).
    + exact (locs_ok_gx _ _ _ E5 L2).
    + exact (sams_ok_gx _ _ _ _ E5 S2).
    + now rewrite Q2, N.eqb_refl.
    + now rewrite Q2, N.eqb_refl.
    + intros k0 r0. rewrite Q2, N.eqb_refl. auto.
    + now rewrite E4.
    + now rewrite E4.
    + intros q. rewrite E4, info_builders, Q2. now destruct (q =? pid).
    + assert (Q3 : forall q, info s' q = info s2 q) by (intros q; now rewrite E4).
      split; [exact I3|]. split; [|split].
      * constructor; fold pid; rewrite ?FR.
        -- exact (growing_trans _ _ _ GR12 GR3).
        -- rewrite Q3. exact OB2.
        -- exact OLD.
        -- exists b3, k, ids. split; [exact NB3|]. split.
           { destruct (gx_tab _ _ E5 (co_tab _ C2)) as (_ & GG). exact (view_key_grows _ _ _ _ _ (co_tab _ C2) GG VK2). }
           rewrite Q3, Q2, N.eqb_refl. split; [exact F2|]. split; [exact HIT|]. split.
           { intros k' r' Hk. left. rewrite SR3 in Hk. destruct (SAME pid) as (_ & E & _). now rewrite <- E. }
           intros E. exfalso. rewrite NS in E. apply nth_error_len_some in PS'. lia.
        -- intros k' r' Hk. rewrite Q3, Q2, N.eqb_refl, SR3. destruct (SAME pid) as (_ & E & _). now rewrite E.
        -- rewrite Q3, Q2, N.eqb_refl. exact LK.
        -- rewrite Q3, Q2, N.eqb_refl. exact LN.
        -- intros q Hq. rewrite Q3, Q2. apply N.eqb_neq in Hq. rewrite Hq. destruct (SAME q) as (A1 & A2 & _). now split.
      * rewrite E4. exact STATS.
      * intros A HF. apply INS4; [now apply ALLIN2|]. exact (ALLIN2 A HF bi b2 NB2).
  - (* a new sample *)
    destruct (at_ (cs_builders s2) bi) as [b3| | | |] eqn:A2; try discriminate AU. cbn [obind] in AU. apply at_ok in A2.
    assert (Eb : b3 = b2) by congruence. subst b3.
    set (r0 := (bi, List.length (pf_sample (b_profile b2)))) in *.
    set (bn := new_sample c b2 (cx_sample cx) key) in *.
    rewrite info_builders in AU. rewrite Q2, N.eqb_refl in AU.
    set (pi3 := pi_set_sample (aset key r0 (pi_sample pi2)) pi2) in *.
    set (s3 := set_info pid pi3 (set_builders (set_nth bi bn (cs_builders s2)) s2)) in *.
    match type of AU with obind ?e _ = _ => destruct e as [s4| | | |] eqn:BS; try discriminate AU end.
    cbn [obind] in AU. assert (Es : s4 = s' /\ r0 = r) by (injection AU; auto). destruct Es as (-> & <-). clear AU.
    assert (SN : sk_stack key <> []).
    { cbn [key with_stack sk_stack]. intros ->. pose proof (stack_frames_nonempty c cx) as NEF.
      inversion F2 as [EF|]. now rewrite <- EF in NEF. }
    assert (SI : forall i, In i (sk_stack key) -> 1 <= i <= N.of_nat (List.length (pf_location (b_profile b2)))).
    { cbn [key with_stack sk_stack]. intros i Hi. clear - F2 Hi L2.
      induction F2 as [|f id fs l HF F IH]; [destruct Hi|]. destruct Hi as [->|Hi]; [|now apply IH].
      destruct (L2 _ _ HF) as (ln & A & B & _). apply nth_error_len_some in A. lia. }
    assert (T2 : List.length (pf_sample_type (b_profile b2)) = (2 * events c)%nat).
    { rewrite (gx_types _ _ G12). exact T. }
    pose proof (with_stack_view _ _ _ _ ids VK2) as VKS. fold key in VKS.
    destruct (new_sample_spec c b2 (cx_sample cx) key C2 (view_key_strings _ _ _ _ VKS) SN SI T2)
      as (C3 & G3 & L3 & _ & bl & ls & EL & ST3 & SA3). fold bn in C3, G3, L3, ST3, SA3.
    assert (S3 : sams_ok bn bi pi3).
    { intros k0 r' E. unfold pi3 in E. cbn [pi_sample pi_set_sample] in E. rewrite aget_aset in E.
      destruct (skey_eqb k0 key) eqn:EK.
      - apply skey_eqb_eq in EK. subst k0. injection E as <-. split; [reflexivity|].
        exists {| ps_loc := sk_stack key; ps_val := repeat 0%Z (2 * events c); ps_label := ls |}.
        split; [|reflexivity]. rewrite SA3. cbn [snd r0]. rewrite nth_error_app2, Nat.sub_diag by lia. reflexivity.
      - exact (sams_ok_gx _ _ _ _ G3 S2 k0 r' E). }
    assert (Q3 : forall q, info s3 q = if q =? pid then pi3 else info s2 q).
    { intros q. unfold s3. rewrite info_set, info_builders. reflexivity. }
    destruct (inv_update c R h s2 s3 pid bi b2 bn pi3 key I2 OB2 NB2 G3 C3) as (I3 & GR3 & NB3 & INS4).
    { exact (maps_ok_gx _ _ _ _ G3 M2). }
    { exact (locs_ok_gx _ _ _ G3 L2). }
    { exact S3. }
    { rewrite Q2, N.eqb_refl. reflexivity. }
    { rewrite Q2, N.eqb_refl. reflexivity. }
    { intros k0 r'. rewrite Q2, N.eqb_refl. unfold pi3. cbn [pi_sample pi_set_sample]. rewrite aget_aset.
      destruct (skey_eqb k0 key) eqn:EK; [|now left]. intros E. injection E as <-. right. split; [|reflexivity].
      now apply skey_eqb_eq. }
    { reflexivity. } { reflexivity. } { exact Q3. }
    destruct (bump_sample_inv _ _ _ _ _ BS) as (b4 & ps & vals & E1 & E2 & E3 & E4 & E5 & E6).
    cbn [fst snd r0] in E1, E2, E4, E5, E6. assert (Eb : b4 = bn) by congruence. subst b4.
    set (b4 := with_profile bn _) in *.
    assert (OB3 : pi_builder (info s3 (okey c pid)) = Some bi).
    { rewrite Q3. destruct (N.eqb_spec (okey c pid) pid) as [E|E]; [|exact OB2].
      rewrite Q2, E, N.eqb_refl in OB2. exact OB2. }
    destruct (inv_update c R h s3 s' pid bi bn b4 pi3 key I3 OB3 NB3 E5 (E6 C3)) as (I4 & GR4 & NB4 & INS5).
    { exact (maps_ok_gx _ _ _ _ (gx_trans _ _ _ G3 E5) M2). }
    { exact (locs_ok_gx _ _ _ (gx_trans _ _ _ G3 E5) L2). }
    { exact (sams_ok_gx _ _ _ _ E5 S3). }
    { rewrite Q3, N.eqb_refl. reflexivity. }
    { rewrite Q3, N.eqb_refl. reflexivity. }
    { intros k0 r'. rewrite Q3, N.eqb_refl. auto. }
    { now rewrite E4. } { now rewrite E4. }
    { intros q. rewrite E4, info_builders, Q3. now destruct (q =? pid). }
    assert (Q4 : forall q, info s' q = if q =? pid then pi3 else info s2 q) by (intros q; rewrite E4; exact (Q3 q)).
    split; [exact I4|]. split; [|split].
    + constructor; fold pid; cbn [fst snd r0].
      * exact (growing_trans _ _ _ GR12 (growing_trans _ _ _ GR3 GR4)).
      * rewrite E4. exact OB3.
      * exact OLD.
      * exists b4, k, ids. split; [exact NB4|]. split.
        { pose proof (gx_trans _ _ _ G3 E5) as GG. destruct (gx_tab _ _ GG (co_tab _ C2)) as (_ & GG').
          exact (view_key_grows _ _ _ _ _ (co_tab _ C2) GG' VK2). }
        rewrite Q4, N.eqb_refl. split; [exact F2|]. fold key. split.
        { unfold pi3. cbn [pi_sample pi_set_sample]. rewrite aget_aset.
          replace (skey_eqb key key) with true by (symmetry; now apply skey_eqb_eq). reflexivity. }
        split.
        { intros k' r'. unfold pi3. cbn [pi_sample pi_set_sample]. rewrite aget_aset.
          destruct (skey_eqb k' key) eqn:EK.
          - intros E. injection E as <-. right. apply skey_eqb_eq in EK. split; [exact EK|]. split; [reflexivity|].
            symmetry. exact NS.
          - intros E. left. rewrite SR3 in E. destruct (SAME pid) as (_ & E' & _). now rewrite <- E'. }
        intros _. assert (Eps : ps = {| ps_loc := sk_stack key; ps_val := repeat 0%Z (2 * events c); ps_label := ls |}).
        { rewrite SA3, nth_error_app2, Nat.sub_diag in E2 by lia. cbn in E2. now injection E2 as <-. }
        exists {| ps_loc := ps_loc ps; ps_val := vals; ps_label := ps_label ps |}. split.
        { unfold b4. cbn [b_profile with_profile pf_sample set_sample]. rewrite nth_error_set_nth, Nat.eqb_refl.
          now rewrite (proj2 (Nat.ltb_lt _ _) (nth_error_len_some _ _ _ E2)). }
        cbn [ps_label]. rewrite Eps. cbn [ps_label].
        rewrite <- (labels_shown c h cx b2 pid key (co_tab _ C2) VKS). 
        assert (RD : Forall2 (reads (b_profile bl)) ls (flat_map (shown (fun i => match string_of (b_profile b2) i with
            Some s => s | None => [] end)) (label_list c (cx_sample cx) key))).
        { apply (emit_reads _ _ b2 bl ls (co_tab _ C2) EL). intros w kk i Hin _.
          destruct (view_key_strings _ _ _ _ VKS) as (K1 & K2 & K3 & K4 & K5 & K6).
          assert (SO : forall i, str_ok (nstr b2) i -> string_of (b_profile b2) i =
             Some (match string_of (b_profile b2) i with Some s => s | None => [] end)).
          { clear. intros i (A & B). unfold string_of, nstr in *. apply Z.leb_le in A. rewrite A. apply Z.leb_le in A.
            destruct (nth_error (pf_string (b_profile b2)) (Z.to_nat i)) eqn:E; [reflexivity|].
            apply nth_error_None in E. lia. }
          apply SO. unfold label_list in Hin. cbn [In] in Hin.
          repeat (destruct Hin as [Hin|Hin]; [injection Hin as _ _ Hi; first [discriminate Hi | subst i; assumption] || discriminate Hin|]).
          destruct Hin. }
        assert (RS : forall l e, reads (b_profile bl) l e -> reads (b_profile b4) l e).
        { intros l e. unfold reads, string_of. unfold b4. cbn [b_profile with_profile pf_string set_sample].
          now rewrite ST3. }
        clear - RD RS. induction RD; constructor; auto.
      * intros k' r' Hk. rewrite Q4, N.eqb_refl. unfold pi3. cbn [pi_sample pi_set_sample]. rewrite aget_aset.
        destruct (SAME pid) as (_ & E & _). rewrite <- E, <- SR3 in Hk.
        destruct (skey_eqb k' key) eqn:EK; [|exact Hk]. apply skey_eqb_eq in EK. subst k'. congruence.
      * rewrite Q4, N.eqb_refl. exact LK.
      * rewrite Q4, N.eqb_refl. exact LN.
      * intros q Hq. rewrite Q4. pose proof Hq as Hq'. apply N.eqb_neq in Hq. rewrite Hq, Q2, Hq.
        destruct (SAME q) as (A1 & B2 & _). now split.
    + rewrite E4. exact STATS.
    + intros A HF. pose proof (ALLIN2 A HF) as A3. pose proof (A3 bi b2 NB2) as LI.
      assert (LIn : locations_inside (b_profile bn)).
      { intros l Hl. rewrite L3 in Hl. destruct (LI l Hl) as [X|(m & Hm & X)]; [now left|]. right. exists m.
        split; [|exact X]. destruct (gx_map _ _ G3) as (t & ->). apply in_or_app. now left. }
      apply INS5; [now apply INS4|]. exact LIn.
Qed.
