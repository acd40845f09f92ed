(** The converter's results. *)
From Coq Require Import String.
From Verif Require Import Base BytesModel TextModel Assoc ProfileModel BuilderModel BuilderSpec BuilderProofs
  SpeModel PerfProto NormalizerModel NormalizerSpec NormalizerProofs NormalizerProps
  ConverterModel ConverterSpec ConverterProofs
  ConverterOpenProofs ConverterInvProofs ConverterKeyProofs ConverterStateProofs ConverterRunProofs ConverterTrackProofs.
Local Open Scope N_scope.
Local Open Scope list_scope.

(** * Finalize changes nothing *)
Lemma finalize_core b : core b -> b_profile (fst (finalize b)) = b_profile b.
Proof.
  intros C. unfold finalize. rewrite (co_err _ C). cbn [fst b_profile with_profile].
  assert (CL : create_locations (b_profile b) = b_profile b).
  { unfold create_locations. destruct (pf_location (b_profile b)) eqn:EL; [|reflexivity].
    assert (ES : pf_sample (b_profile b) = []).
    { destruct (pf_sample (b_profile b)) as [|s ss] eqn:E; [reflexivity|exfalso].
      destruct (co_sam _ C s) as (A & B & _); [rewrite E; now left|].
      destruct (ps_loc s) as [|i r] eqn:EP; [now contradiction A|]. specialize (B i (or_introl eq_refl)).
      rewrite EL in B. cbn in B. clear - B. lia. }
    rewrite ES. cbn [intern_samples]. destruct (b_profile b). cbn in *. now subst. }
  rewrite CL. unfold assign_mappings. destruct (pf_mapping (b_profile b)) eqn:EM; [reflexivity|].
  assert (EQ : map (assign_mapping (build_mapping_map (p :: l) [])) (pf_location (b_profile b)) = pf_location (b_profile b)).
  { rewrite <- (map_id (pf_location (b_profile b))) at 2. apply map_ext_in. intros x Hx. unfold assign_mapping.
    destruct (co_lm _ C x Hx) as (_ & Z). destruct (lc_mapping x =? 0) eqn:E0; [|now rewrite andb_false_r].
    apply N.eqb_eq in E0. now rewrite (Z E0). }
  rewrite EQ. destruct (b_profile b). reflexivity.
Qed.

Lemma profiles_nth s : List.length (cs_metas s) = List.length (cs_builders s) -> forall k,
  match nth_error (cs_builders s) k with
  | Some b => exists m, nth_error (cs_metas s) k = Some m /\ nth_error (profiles s) k = Some (make_profile s b m)
  | None => nth_error (profiles s) k = None
  end.
Proof.
  intros L k. unfold profiles. rewrite nth_error_map. revert L k.
  generalize (cs_metas s) as ms, (cs_builders s) as bs. intros ms bs. revert ms.
  induction bs as [|b bs IH]; intros [|m ms] L k; cbn in L; try discriminate L.
  - now destruct k.
  - destruct k as [|k]; cbn [nth_error combine option_map].
    + exists m. split; reflexivity.
    + apply IH. lia.
Qed.

Lemma sample_at_cell s r :
  List.length (cs_metas s) = List.length (cs_builders s) ->
  option_map ps_val (sample_at (profiles s) r) = cell s r.
Proof.
  intros L. unfold sample_at, cell. pose proof (profiles_nth s L (fst r)) as H.
  destruct (nth_error (cs_builders s) (fst r)) as [b|]; [|now rewrite H].
  destruct H as (m & _ & ->). cbn [make_profile pr_data].
  rewrite <- !nth_error_map. now rewrite finalize_vals.
Qed.

(** * Values *)
Lemma run_cells c hs : forall s s' os,
  run_calls c s hs = Ok (s', os) -> forall x,
  (cell s' x <> None <-> cell s x <> None \/ In (Some x) os) /\
  forall i, (value (cell s' x) (2 * i) = value (cell s x) (2 * i) +
      Z.of_nat (List.length (filter (sample_of c i) (placed x hs os))))%Z /\
    (value (cell s' x) (2 * i + 1) = value (cell s x) (2 * i + 1) +
      sum (map (weight c i) (filter (sample_of c i) (placed x hs os))))%Z.
Proof.
  induction hs as [|h hs IH]; intros s s' os H x; cbn [run_calls] in H.
  - injection H as <- <-. cbn. split; [tauto|]. intros i. lia.
  - destruct (on_call c s h) as [[s1 o]| | | |] eqn:E; try discriminate H. cbn [obind] in H.
    destruct (run_calls c s1 hs) as [[s2 os2]| | | |] eqn:E2; try discriminate H. cbn [obind] in H.
    injection H as <- <-. destruct (IH _ _ _ E2 x) as (A & V).
    assert (NOP : o = None -> (forall y, cell s1 y = cell s y) ->
      (cell s2 x <> None <-> cell s x <> None \/ In (Some x) (o :: os2)) /\
      forall i, (value (cell s2 x) (2 * i) = value (cell s x) (2 * i) +
          Z.of_nat (List.length (filter (sample_of c i) (placed x (h :: hs) (o :: os2)))))%Z /\
        (value (cell s2 x) (2 * i + 1) = value (cell s x) (2 * i + 1) +
          sum (map (weight c i) (filter (sample_of c i) (placed x (h :: hs) (o :: os2)))))%Z).
    { intros -> Q. cbn [placed In]. rewrite <- (Q x). split; [|exact V]. rewrite A. split; [tauto|].
      intros [B|[B|B]]; [tauto|discriminate B|tauto]. }
    destruct h as [cx|cm e|pid [q m]]; cbn [on_call] in E.
    + destruct (on_sample_inv _ _ _ _ _ E) as [(_ & -> & ->)|(K & X)]; [now apply NOP|].
      destruct X as (? & ? & ? & ? & ? & ? & ? & ? & r & _ & _ & _ & _ & _ & ->).
      destruct (sample_cell _ _ _ _ _ E x) as (V1 & A1). split.
      * rewrite A, A1. cbn [In]. split.
        -- intros [[B|B]|B]; [tauto|subst; tauto|tauto].
        -- intros [B|[B|B]]; [tauto|injection B as ->; tauto|tauto].
      * intros i. destruct (V i) as (VA & VB). rewrite VA, VB, !V1. cbn [placed].
        change ((fst r =? fst x) && (snd r =? snd x))%nat with (same_place r x).
        destruct (same_place r x); [|lia].
        cbn [filter sample_of]. rewrite K. cbn [andb]. pose proof (weight_eq c cx K) as W.
        unfold kept in K. rewrite !andb_true_iff in K. destruct K as ((K1 & _) & _). apply Z.leb_le in K1.
        destruct (Z.eqb_spec (cx_attr cx) (Z.of_nat i)) as [He|He].
        -- rewrite He, Nat2Z.id in *. cbn [List.length map]. rewrite <- W.
           replace (2 * i =? 2 * i)%nat with true by (symmetry; apply Nat.eqb_refl).
           replace (2 * i + 1 =? 2 * i + 1)%nat with true by (symmetry; apply Nat.eqb_refl).
           replace (2 * i =? 2 * i + 1)%nat with false by (symmetry; apply Nat.eqb_neq; clear; lia).
           replace (2 * i + 1 =? 2 * i)%nat with false by (symmetry; apply Nat.eqb_neq; clear; lia).
           unfold sum. cbn [fold_right]. clear. lia.
        -- replace (2 * i =? 2 * Z.to_nat (cx_attr cx))%nat with false by (symmetry; apply Nat.eqb_neq; clear - He K1; lia).
           replace (2 * i + 1 =? 2 * Z.to_nat (cx_attr cx) + 1)%nat with false
             by (symmetry; apply Nat.eqb_neq; clear - He K1; lia).
           replace (2 * i =? 2 * Z.to_nat (cx_attr cx) + 1)%nat with false by (symmetry; apply Nat.eqb_neq; clear; lia).
           replace (2 * i + 1 =? 2 * Z.to_nat (cx_attr cx))%nat with false by (symmetry; apply Nat.eqb_neq; clear; lia).
           clear. lia.
    + injection E as <- <-. apply NOP; [reflexivity|]. intros y. unfold on_comm_call. now destruct e.
    + unfold on_mmap_call in E. destruct (hm_limit m <? hm_start m); [discriminate E|].
      cbn [obind] in E. injection E as <- <-. apply NOP; reflexivity.
Qed.

Lemma run_kept c hs : forall s s' os,
  run_calls c s hs = Ok (s', os) -> forall i h, nth_error hs i = Some h ->
    ((exists r, nth_error os i = Some (Some r)) <-> exists cx, h = HSample cx /\ kept c cx = true).
Proof.
  induction hs as [|x hs IH]; intros s s' os H i h Hi; cbn [run_calls] in H.
  - now destruct i.
  - destruct (on_call c s x) as [[s1 o]| | | |] eqn:E; try discriminate H. cbn [obind] in H.
    destruct (run_calls c s1 hs) as [[s2 os2]| | | |] eqn:E2; try discriminate H. cbn [obind] in H.
    injection H as <- <-. destruct i as [|i]; cbn [nth_error] in *; [|exact (IH _ _ _ E2 _ _ Hi)].
    injection Hi as ->. destruct h as [cx|cm e|pid [q m]]; cbn [on_call] in E.
    + destruct (on_sample_inv _ _ _ _ _ E) as [(K & -> & ->)|(K & X)].
      * split; [intros (r & B); discriminate B|]. intros (cy & B & K'). injection B as <-. congruence.
      * destruct X as (? & ? & ? & ? & ? & ? & ? & ? & r & _ & _ & _ & _ & _ & ->). split; eauto.
    + injection E as <- <-. split; [intros (r & B); discriminate B|intros (cy & B & _); discriminate B].
    + destruct (on_mmap_call s pid m); try discriminate E. cbn [obind] in E. injection E as <- <-.
      split; [intros (r & B); discriminate B|intros (cy & B & _); discriminate B].
Qed.

Lemma convert_inv c ps :
  convert c = Ok ps -> exists hs s os, process (cf_data c) = Ok hs /\ run_calls c cstate0 hs = Ok (s, os) /\
    ps = profiles s /\ List.length (cs_metas s) = List.length (cs_builders s).
Proof.
  unfold convert. intros H. destruct (process (cf_data c)) as [hs| | | |] eqn:E; try discriminate H. cbn [obind] in H.
  destruct (run_calls c cstate0 hs) as [[s os]| | | |] eqn:E2; try discriminate H. cbn [obind] in H. injection H as <-.
  exists hs, s, os. split; [reflexivity|]. split; [exact E2|]. split; [reflexivity|].
  exact (proj1 (run_open _ _ _ _ _ _ open0 E2)).
Qed.

Lemma cell0 x : cell cstate0 x = None.
Proof. unfold cell. cbn. now destruct (fst x). Qed.

Lemma run_counted c hs s os :
  run_calls c cstate0 hs = Ok (s, os) -> counted c hs (profiles s) os.
Proof.
  intros E. pose proof (proj1 (run_open _ _ _ _ _ _ open0 E)) as L. constructor.
  - exact (run_length _ _ _ _ _ E).
  - exact (run_kept _ _ _ _ _ E).
  - intros r. destruct (run_cells _ _ _ _ _ E r) as (A & _). rewrite <- (sample_at_cell s r L) in A.
    rewrite cell0 in A. destruct (sample_at (profiles s) r); cbn [option_map] in A.
    + split; [intros _|discriminate]. assert (X : Some (ps_val p) <> None) by discriminate. apply A in X.
      destruct X as [X|X]; [now contradiction X|exact X].
    + split; [intros X; now contradiction X|]. intros X _. apply (proj2 A); [now right|reflexivity].
  - intros r p i Hp Hi. destruct (run_cells _ _ _ _ _ E r) as (_ & V). destruct (V i) as (VA & VB).
    rewrite cell0 in VA, VB. rewrite <- (sample_at_cell s r L), Hp in VA, VB. cbn [option_map value] in VA, VB.
    split; [exact VA|exact VB].
Qed.

(** * Statistics *)
Definition counted_sources (c : cfg) (h : hcall) : list (N * bsource) :=
  match h with
  | HSample cx => if kept c cx then map (fun f => (dflt (s_pid (cx_sample cx)), source_of (snd f))) (code_frames cx) else []
  | _ => []
  end.

Lemma run_stats c hs : forall s s' os,
  run_calls c s hs = Ok (s', os) -> cs_stats s' = cs_stats s ++ flat_map (counted_sources c) hs.
Proof.
  induction hs as [|h hs IH]; intros s s' os H; cbn [run_calls] in H.
  - injection H as <- <-. cbn. now rewrite app_nil_r.
  - destruct (on_call c s h) as [[s1 o]| | | |] eqn:E; try discriminate H. cbn [obind] in H.
    destruct (run_calls c s1 hs) as [[s2 os2]| | | |] eqn:E2; try discriminate H. cbn [obind] in H.
    injection H as <- <-. rewrite (IH _ _ _ E2). cbn [flat_map]. rewrite app_assoc. f_equal.
    destruct h as [cx|cm e|pid [q m]]; cbn [on_call] in E; cbn [counted_sources].
    + destruct (on_sample_inv _ _ _ _ _ E) as [(K & -> & _)|(K & X)]; rewrite K; [now rewrite app_nil_r|].
      cbn zeta in X. destruct X as (t1 & bi & b & b1 & k & pi2 & b2 & ids & r' & G & NB & MK & AL & AU & _).
      destruct (add_or_update_keeps _ _ _ _ _ _ _ _ AU) as (_ & EST & _). rewrite EST. cbn [cs_stats set_stats]. f_equal.
      destruct (get_or_create_inv _ _ _ _ _ G) as [(_ & _ & _ & _ & Es & _)|(_ & _ & ? & ? & _ & _ & Es & _)]; exact Es.
    + injection E as <- <-. unfold on_comm_call. destruct e; cbn; now rewrite app_nil_r.
    + unfold on_mmap_call in E. destruct (hm_limit m <? hm_start m); [discriminate E|].
      cbn [obind] in E. injection E as <- <-. cbn. now rewrite app_nil_r.
Qed.

(** * The relation of pointers and ranges *)
Definition pointed (hs : list hcall) (q : ptr) (s l : N) : Prop :=
  exists h m, In h hs /\ In (q, m) (refs_of h) /\ hm_start m = s /\ hm_limit m = l.

Lemma pointed_known hs : Forall (refs_known (pointed hs)) hs.
Proof. rewrite Forall_forall. intros h Hh q m Hm. exists h, m. auto. Qed.

Lemma never_reset_spec c hs : never_reset c hs -> Forall (fun x => ~ resets c x) hs.
Proof.
  intros [G|F]; rewrite Forall_forall in *.
  - intros x _ (E & _). congruence.
  - intros x Hx (_ & E). exact (F x Hx E).
Qed.

Lemma pointed_within c p hs :
  process p = Ok hs -> Forall addresses_ok hs -> Forall (frames_within c (pointed hs)) hs.
Proof.
  intros P A. rewrite Forall_forall in *. intros h Hh. destruct h as [cx| |]; cbn [frames_within]; try exact I.
  intros a q m s l Hin (h2 & m2 & H2 & R2 & <- & <-).
  pose proof (frames_contain c cx a q m (A _ Hh) Hin) as X.
  pose proof (C18_pointers_are_stable _ _ _ _ _ _ _ P Hh H2 (frames_refs _ _ _ _ _ Hin) R2) as (E1 & E2 & _).
  now rewrite <- E1, <- E2.
Qed.

Lemma all_inside0 : all_inside cstate0.
Proof. intros [|j] b; discriminate. Qed.

Lemma core_sound c b :
  core b -> List.length (pf_sample_type (b_profile b)) = (2 * events c)%nat -> pf_mapping (b_profile b) <> [] ->
  sound c (b_profile b).
Proof.
  intros C T M. destruct (co_str _ C) as [R1 R2 R3 R4 R5]. unfold nstr, str_ok in *.
  constructor.
  - exact (co_map _ C).
  - exact (co_loc _ C).
  - exact (co_lm _ C).
  - exact (co_sam _ C).
  - exact T.
  - exact M.
  - unfold string_index. auto.
Qed.

(** * Tracking whole runs *)
Lemma split_at {A} (l : list A) i x : nth_error l i = Some x -> l = firstn i l ++ x :: skipn (S i) l.
Proof.
  revert i. induction l as [|y l IH]; intros [|i] H; cbn in *; try discriminate H.
  - now injection H as ->.
  - f_equal. now apply IH.
Qed.

(** The state around the sample at position [i]. *)
Lemma run_at c R hs s os i cx r :
  Forall (refs_known R) hs -> Forall (fun x => ~ resets c x) hs ->
  run_calls c cstate0 hs = Ok (s, os) -> placed_at hs os i cx r ->
  exists s1 s2 o1 o2,
    run_calls c cstate0 (firstn i hs) = Ok (s1, o1) /\ on_sample_call c s1 cx = Ok (s2, Some r) /\
    run_calls c s2 (skipn (S i) hs) = Ok (s, o2) /\ List.length o1 = i /\ os = o1 ++ Some r :: o2 /\
    Inv c R (before i hs) s1 /\ Inv c R (before i hs) s2 /\ sample_step c (before i hs) cx s1 s2 r /\ growing s2 s.
Proof.
  intros K NR H (Hi & Ho). pose proof (split_at _ _ _ Hi) as SP. rewrite SP in H. apply run_app in H.
  destruct H as (s1 & o1 & o2 & H1 & H2 & EO). cbn [run_calls] in H2.
  destruct (on_call c s1 (HSample cx)) as [[s2 o]| | | |] eqn:E; try discriminate H2. cbn [obind] in H2.
  destruct (run_calls c s2 (skipn (S i) hs)) as [[s3 os2]| | | |] eqn:E2; try discriminate H2. cbn [obind] in H2.
  injection H2 as <- <-. cbn [on_call] in E.
  assert (L1 : List.length o1 = i).
  { rewrite (run_length _ _ _ _ _ H1), firstn_length. apply nth_error_len_some in Hi. lia. }
  assert (EOr : o = Some r).
  { rewrite EO, nth_error_app2, L1, Nat.sub_diag in Ho by lia. cbn in Ho. now injection Ho as ->. }
  subst o. rewrite SP in K, NR. rewrite Forall_app in K, NR. destruct K as (K1 & K2). destruct NR as (N1 & N2).
  inversion K2 as [|? ? K3 K4]; subst. inversion N2 as [|? ? N3 N4]; subst.
  destruct (run_inv _ _ _ _ _ _ _ (inv0 c R) K1 N1 H1) as (I1 & _). rewrite app_nil_r in I1.
  exists s1, s2, o1, os2. split; [exact H1|]. split; [exact E|]. split; [exact E2|]. split; [reflexivity|]. split; [reflexivity|].
  split; [exact I1|].
  destruct (sample_step_ok _ _ _ _ _ _ _ I1 K3 E) as [(_ & _ & X)|(_ & r' & X & I2 & SS & _)]; [discriminate X|].
  injection X as <-. split; [exact I2|]. split; [exact SS|].
  destruct (run_inv _ _ _ _ _ _ _ (inv_sample_history _ _ _ _ cx I2) K4 N4 E2) as (_ & G & _). exact G.
Qed.

Lemma firstn_firstn_le {A} (l : list A) i j : (i <= j)%nat -> firstn i (firstn j l) = firstn i l.
Proof. intros H. rewrite firstn_firstn. now rewrite Nat.min_l by exact H. Qed.

Lemma merge_iff c R hs s os i j cx cy r r' :
  Forall (refs_known R) hs -> Forall (fun x => ~ resets c x) hs ->
  run_calls c cstate0 hs = Ok (s, os) -> (i < j)%nat ->
  placed_at hs os i cx r -> placed_at hs os j cy r' ->
  (r = r' <-> alike c hs i j cx cy).
Proof.
  intros K NR H Hij Pi Pj.
  destruct (run_at _ R _ _ _ _ _ _ K NR H Pj) as (s1 & s2 & o1 & o2 & H1 & H2 & H3 & L1 & EO & I1 & I2 & SS & _).
  (* the earlier one, in the prefix *)
  assert (Kj : Forall (refs_known R) (firstn j hs)).
  { rewrite Forall_forall in *. intros x Hx. apply K. rewrite <- (firstn_skipn j hs). apply in_or_app. now left. }
  assert (Nj : Forall (fun x => ~ resets c x) (firstn j hs)).
  { rewrite Forall_forall in *. intros x Hx. apply NR. rewrite <- (firstn_skipn j hs). apply in_or_app. now left. }
  assert (Pi' : placed_at (firstn j hs) o1 i cx r).
  { destruct Pi as (A & B). destruct Pj as (C & _). split.
    - rewrite <- A. rewrite <- (firstn_skipn j hs) at 2. rewrite nth_error_app1; [reflexivity|].
      rewrite firstn_length. apply nth_error_len_some in C. lia.
    - rewrite EO, nth_error_app1 in B by lia. exact B. }
  destruct (run_at _ R _ _ _ _ _ _ Kj Nj H1 Pi') as (t1 & t2 & p1 & p2 & G1 & G2 & G3 & _ & _ & J1 & J2 & SSi & _).
  assert (EB : before i (firstn j hs) = before i hs) by (unfold before; rewrite firstn_firstn_le by lia; reflexivity).
  assert (EM : skipn (S i) (firstn j hs) = between i j hs).
  { unfold between. now rewrite skipn_firstn_comm. }
  rewrite EB in *. rewrite EM in *.
  pose proof (track_birth _ _ _ _ _ _ _ J2 SSi) as T.
  assert (Kb : Forall (refs_known R) (between i j hs) /\ Forall (fun x => ~ resets c x) (between i j hs)).
  { rewrite <- EM. rewrite !Forall_forall in *. split; intros x Hx.
    - apply Kj. rewrite <- (firstn_skipn (S i) (firstn j hs)). apply in_or_app. now right.
    - apply Nj. rewrite <- (firstn_skipn (S i) (firstn j hs)). apply in_or_app. now right. }
  pose proof (track_run _ _ _ _ _ _ _ _ _ _ _ _ (inv_sample_history _ _ _ _ cx J2) (proj1 Kb) (proj2 Kb) G3 T) as T'.
  cbn [app] in T'.
  pose proof (track_join _ _ _ _ _ _ _ _ _ _ _ _ I1 I2 SS T') as X. unfold alike. rewrite X. tauto.
Qed.

Lemma stack_final c R hs s os i cx r :
  Forall (refs_known R) hs -> Forall (fun x => ~ resets c x) hs ->
  run_calls c cstate0 hs = Ok (s, os) -> placed_at hs os i cx r ->
  exists b p, nth_error (cs_builders s) (fst r) = Some b /\ nth_error (pf_sample (b_profile b)) (snd r) = Some p /\
    Forall2 (fun a id => location_at (b_profile b) id a) (map fst (stack_frames c cx)) (ps_loc p).
Proof.
  intros K NR H P.
  destruct (run_at _ R _ _ _ _ _ _ K NR H P) as (s1 & s2 & o1 & o2 & _ & _ & _ & _ & _ & I1 & I2 & SS & G).
  exact (stack_grows _ _ _ _ G (tk_stack _ _ _ _ _ _ (track_birth _ _ _ _ _ _ _ I2 SS))).
Qed.

Lemma labels_final c R hs s os i cx r :
  Forall (refs_known R) hs -> Forall (fun x => ~ resets c x) hs ->
  run_calls c cstate0 hs = Ok (s, os) -> placed_at hs os i cx r ->
  (forall j, (j < i)%nat -> nth_error os j <> Some (Some r)) ->
  exists b p, nth_error (cs_builders s) (fst r) = Some b /\ nth_error (pf_sample (b_profile b)) (snd r) = Some p /\
    Forall2 (reads (b_profile b)) (ps_label p) (expected_labels c (before i hs) cx).
Proof.
  intros K NR H P FIRST.
  destruct (run_at _ R _ _ _ _ _ _ K NR H P) as (s1 & s2 & o1 & o2 & H1 & H2 & _ & L1 & EO & I1 & I2 & SS & G).
  destruct (ss_key _ _ _ _ _ _ SS) as (b & k & ids & NB & _ & _ & HK & NEW & LAB).
  (* no sample there before *)
  assert (FR : cell s1 r = None).
  { destruct (cell s1 r) eqn:E; [exfalso|reflexivity]. destruct (run_cells _ _ _ _ _ H1 r) as (A & _).
    rewrite E, cell0 in A. destruct (proj1 A) as [X|X]; [discriminate|now contradiction X|].
    apply In_nth_error in X. destruct X as (j & Hj). pose proof (nth_error_len_some _ _ _ Hj) as Lj.
    apply (FIRST j); [lia|]. rewrite EO, nth_error_app1 by lia. exact Hj. }
  destruct (iv_some _ _ _ _ I2 _ _ (ss_bi _ _ _ _ _ _ SS)) as (b' & NB' & _ & _ & S).
  assert (b' = b) by congruence. subst b'. 
  assert (FRESH : snd r = nsamples s1 (fst r)).
  { destruct (NEW _ _ HK) as [OLD|(_ & _ & X)]; [exfalso|exact X].
    pose proof (live_builder _ _ _ _ _ _ _ I1 OLD) as OB.
    destruct (iv_some _ _ _ _ I1 _ _ OB) as (b0 & NB0 & _ & _ & S0). destruct (S0 _ _ OLD) as (_ & ps & X & _).
    unfold cell in FR. rewrite NB0, X in FR. discriminate FR. }
  destruct (LAB FRESH) as (ps & NP & RD).
  destruct (G _ _ NB) as (b2 & NB2 & GX). exists b2.
  destruct (gx_sam _ _ GX) as (t & T).
  assert (X : nth_error (map shape (pf_sample (b_profile b2))) (snd r) = Some (shape ps)).
  { rewrite T, nth_error_app1 by (rewrite map_length; exact (nth_error_len_some _ _ _ NP)).
    now rewrite nth_error_map, NP. }
  rewrite nth_error_map in X. destruct (nth_error (pf_sample (b_profile b2)) (snd r)) as [ps'|]; [|discriminate X].
  exists ps'. split; [exact NB2|]. split; [reflexivity|]. cbn in X. injection X as _ X. rewrite X.
  destruct (iv_core _ _ _ _ I2 _ _ NB) as (CO & _). destruct (gx_tab _ _ GX (co_tab _ CO)) as (_ & GG).
  clear - RD GG. induction RD; constructor; auto. now apply (reads_grows b).
Qed.

(** * The profile each sample goes to *)
Lemma run_assigned c R hs : forall h s s' os openp,
  Inv c R h s -> Forall (refs_known R) hs -> Forall (fun x => ~ resets c x) hs ->
  is_open s openp -> run_calls c s hs = Ok (s', os) ->
  map (option_map fst) os = assign c (List.length (cs_builders s)) openp hs.
Proof.
  induction hs as [|x hs IH]; intros h s s' os openp I K NR O H; cbn [run_calls] in H.
  - now injection H as <- <-.
  - destruct (on_call c s x) as [[s1 o]| | | |] eqn:E; try discriminate H. cbn [obind] in H.
    destruct (run_calls c s1 hs) as [[s2 os2]| | | |] eqn:E2; try discriminate H. cbn [obind] in H.
    injection H as <- <-. inversion K as [|? ? K1 K2]; subst. inversion NR as [|? ? N1 N2]; subst.
    destruct (call_step _ _ _ _ _ _ _ I K1 N1 E) as (I1 & _ & _).
    destruct (call_open _ _ _ _ _ _ O E) as (a & openp' & A & O' & _).
    cbn [map]. rewrite A, (IH _ _ _ _ _ I1 K2 N2 O' E2). f_equal. specialize (A []).
    destruct x as [cx|cm e|pid [q m]]; cbn [on_call] in E; cbn [assign] in A.
    + destruct (sample_step_ok _ _ _ _ _ _ _ I K1 E) as [(X & _ & ->)|(X & r & -> & _ & SS & _)]; rewrite X in A.
      * injection A as <-. reflexivity.
      * destruct O as (_ & O & _). change (filed_under c cx) with (okey c (dflt (s_pid (cx_sample cx)))) in A.
        rewrite <- O in A.
        destruct (ss_bi_old _ _ _ _ _ _ SS) as [Y|(Y & Y2)]; rewrite Y in A; injection A as <-; cbn; congruence.
    + injection E as <- <-. now injection A as <-.
    + destruct (on_mmap_call s pid m); try discriminate E. cbn [obind] in E. injection E as <- <-. now injection A as <-.
Qed.
