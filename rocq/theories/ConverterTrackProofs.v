(** When later samples join an earlier one. *)
From Coq Require Import String.
From Verif Require Import Base BytesModel TextModel Assoc ProfileModel BuilderModel BuilderSpec BuilderProofs
  SpeModel PerfProto NormalizerModel NormalizerSpec NormalizerProofs ConverterModel ConverterSpec ConverterProofs
  ConverterOpenProofs ConverterInvProofs ConverterKeyProofs ConverterStateProofs ConverterRunProofs.
Local Open Scope N_scope.
Local Open Scope list_scope.

(** A sample placed into [r] [l] callbacks ago. *)
Record tracked (s : cstate) (r : sref) (pid : N) (v : view) (addrs : list N) (l : list hcall) : Prop := {
  tk_dead : execed pid l = true -> forall q k, aget skey_eqb k (pi_sample (info s q)) <> Some r;
  tk_live : execed pid l = false -> exists b k ids,
    nth_error (cs_builders s) (fst r) = Some b /\ view_key b pid v k /\
    aget skey_eqb (with_stack ids k) (pi_sample (info s pid)) = Some r /\
    Forall2 (fun a id => location_at (b_profile b) id a /\
      (remapped pid a l = false -> aget N.eqb a (pi_loc (info s pid)) = Some id) /\
      (remapped pid a l = true -> aget N.eqb a (pi_loc (info s pid)) <> Some id)) addrs ids;
  tk_stack : exists b ps, nth_error (cs_builders s) (fst r) = Some b /\
    nth_error (pf_sample (b_profile b)) (snd r) = Some ps /\
    Forall2 (fun a id => location_at (b_profile b) id a) addrs (ps_loc ps) }.

Lemma F2_impl {A B} (P Q : A -> B -> Prop) l l' : (forall a b, P a b -> Q a b) -> Forall2 P l l' -> Forall2 Q l l'.
Proof. induction 2; constructor; auto. Qed.
Lemma F2_both {A B} (P Q : A -> B -> Prop) l l' : Forall2 P l l' -> Forall2 Q l l' -> Forall2 (fun a b => P a b /\ Q a b) l l'.
Proof. induction 1; intros H1; inversion H1; subst; constructor; auto. Qed.
Lemma F2_map {A B C} (f : A -> C) (P : C -> B -> Prop) l : forall l', Forall2 P (map f l) l' <-> Forall2 (fun a => P (f a)) l l'.
Proof.
  induction l as [|x l IH]; intros l'; cbn [map]; split; intros H; inversion H; subst; constructor; auto; now apply IH.
Qed.

Lemma stack_grows s s' r addrs :
  growing s s' ->
  (exists b ps, nth_error (cs_builders s) (fst r) = Some b /\
    nth_error (pf_sample (b_profile b)) (snd r) = Some ps /\
    Forall2 (fun a id => location_at (b_profile b) id a) addrs (ps_loc ps)) ->
  (exists b ps, nth_error (cs_builders s') (fst r) = Some b /\
    nth_error (pf_sample (b_profile b)) (snd r) = Some ps /\
    Forall2 (fun a id => location_at (b_profile b) id a) addrs (ps_loc ps)).
Proof.
  intros G (b & ps & A & B & F). destruct (G _ _ A) as (b' & A' & GX). exists b'.
  destruct (gx_sam _ _ GX) as (t & T).
  assert (X : nth_error (map shape (pf_sample (b_profile b'))) (snd r) = Some (shape ps)).
  { rewrite T, nth_error_app1 by (rewrite map_length; exact (nth_error_len_some _ _ _ B)).
    now rewrite nth_error_map, B. }
  rewrite nth_error_map in X. destruct (nth_error (pf_sample (b_profile b')) (snd r)) as [ps'|]; [|discriminate X].
  exists ps'. split; [exact A'|]. split; [reflexivity|]. cbn in X. injection X as X _. rewrite X.
  revert F. apply F2_impl. intros a id. now apply location_at_gx.
Qed.

Lemma stack_valid s r addrs :
  (exists b ps, nth_error (cs_builders s) (fst r) = Some b /\
    nth_error (pf_sample (b_profile b)) (snd r) = Some ps /\
    Forall2 (fun a id => location_at (b_profile b) id a) addrs (ps_loc ps)) -> (snd r < nsamples s (fst r))%nat.
Proof. intros (b & ps & A & B & _). unfold nsamples. rewrite A. exact (nth_error_len_some _ _ _ B). Qed.

Lemma execed_app pid l x : execed pid (l ++ [x]) = execed pid l || execed pid [x].
Proof. unfold execed. apply existsb_app. Qed.
Lemma remapped_app pid a l x : remapped pid a (l ++ [x]) = remapped pid a l || remapped pid a [x].
Proof. unfold remapped. apply existsb_app. Qed.

(** What the invariant says about a tracked sample. *)
Lemma live_builder c R h s p k r :
  Inv c R h s -> aget skey_eqb k (pi_sample (info s p)) = Some r ->
  pi_builder (info s (okey c p)) = Some (fst r).
Proof.
  intros I H. destruct (pi_builder (info s (okey c p))) as [bi|] eqn:E.
  - destruct (iv_some _ _ _ _ I p bi E) as (b & _ & _ & _ & S). destruct (S _ _ H) as (-> & _). reflexivity.
  - destruct (iv_none _ _ _ _ I p E) as (_ & _ & X). rewrite X in H. discriminate H.
Qed.

Lemma track_birth c R h s cx s' r :
  Inv c R h s' -> sample_step c h cx s s' r ->
  tracked s' r (dflt (s_pid (cx_sample cx))) (view_of c h cx) (map fst (stack_frames c cx)) [].
Proof.
  intros I SS. set (pid := dflt (s_pid (cx_sample cx))).
  destruct (ss_key _ _ _ _ _ _ SS) as (b & k & ids & NB & VK & F & HK & _). fold pid in VK, F, HK.
  pose proof (ss_bi _ _ _ _ _ _ SS) as OB. fold pid in OB.
  destruct (iv_some _ _ _ _ I pid _ OB) as (b' & NB' & _ & L & S). assert (b' = b) by congruence. subst b'.
  constructor.
  - discriminate.
  - intros _. exists b, k, ids. split; [exact NB|]. split; [exact VK|]. split; [exact HK|].
    apply F2_map. revert F. apply F2_impl. intros a id E. split; [exact (L _ _ E)|]. split; [auto|discriminate].
  - destruct (S _ _ HK) as (_ & ps & NP & EP). exists b, ps. split; [exact NB|]. split; [exact NP|].
    rewrite EP. cbn [with_stack sk_stack]. apply F2_map. revert F. apply F2_impl. intros a id E. exact (L _ _ E).
Qed.

Lemma track_step c R h s x s' o r pid v addrs l :
  Inv c R h s -> refs_known R x -> ~ resets c x -> on_call c s x = Ok (s', o) ->
  tracked s r pid v addrs l -> tracked s' r pid v addrs (l ++ [x]).
Proof.
  intros I K NR H T.
  destruct (call_step _ _ _ _ _ _ _ I K NR H) as (_ & GR & _).
  pose proof (stack_grows _ _ _ _ GR (tk_stack _ _ _ _ _ _ T)) as ST.
  pose proof (stack_valid _ _ _ (tk_stack _ _ _ _ _ _ T)) as VALID.
  destruct x as [cx|cm e|p [q m]]; cbn [on_call] in H.
  - (* a sample *)
    assert (EX : execed pid (l ++ [HSample cx]) = execed pid l) by (rewrite execed_app; apply orb_false_r).
    assert (RX : forall a, remapped pid a (l ++ [HSample cx]) = remapped pid a l)
      by (intros a; rewrite remapped_app; apply orb_false_r).
    destruct (sample_step_ok _ _ _ _ _ _ _ I K H) as [(_ & -> & _)|(_ & r2 & _ & I' & SS & _)].
    + destruct T as [T1 T2 T3]. constructor; [rewrite EX; exact T1|rewrite EX|exact T3].
      intros E. destruct (T2 E) as (b & k & ids & A & B & C & F). exists b, k, ids.
      split; [exact A|]. split; [exact B|]. split; [exact C|]. revert F. apply F2_impl. intros a id. now rewrite RX.
    + set (p2 := dflt (s_pid (cx_sample cx))) in *.
      constructor; [rewrite EX|rewrite EX|exact ST].
      * intros E q k Hk. pose proof (tk_dead _ _ _ _ _ _ T E) as D.
        destruct (N.eq_dec q p2) as [->|Hq].
        -- destruct (ss_key _ _ _ _ _ _ SS) as (_ & k2 & ids2 & _ & _ & _ & _ & X & _).
           destruct (X _ _ Hk) as [Y|(_ & -> & Y)]; [exact (D _ _ Y)|lia].
        -- destruct (ss_other _ _ _ _ _ _ SS q Hq) as (_ & Y). rewrite Y in Hk. exact (D _ _ Hk).
      * intros E. destruct (tk_live _ _ _ _ _ _ T E) as (b & k & ids & A & B & C & F).
        destruct (GR _ _ A) as (b' & A' & G). exists b', k, ids. split; [exact A'|]. split.
        { destruct (iv_core _ _ _ _ I _ _ A) as (CO & _). destruct (gx_tab _ _ G (co_tab _ CO)) as (_ & GG).
          exact (view_key_grows _ _ _ _ _ (co_tab _ CO) GG B). }
        pose proof (live_builder _ _ _ _ _ _ _ I C) as OB.
        destruct (N.eq_dec pid p2) as [Ep|Hq].
        -- rewrite Ep in *. split; [exact (ss_keep _ _ _ _ _ _ SS _ _ C)|].
           assert (EB : fst r2 = fst r).
           { destruct (ss_bi_old _ _ _ _ _ _ SS) as [X|(X & _)]; fold p2 in X; congruence. }
           revert F. apply F2_impl. intros a id (F1 & F2 & F3). split; [exact (location_at_gx _ _ _ _ G F1)|]. rewrite RX.
           split; [intros X; exact (ss_loc_keep _ _ _ _ _ _ SS _ _ (F2 X))|].
           intros X Y. destruct (ss_loc_new _ _ _ _ _ _ SS _ _ Y) as [Z|Z]; [exact (F3 X Z)|].
           destruct F1 as (ln & L1 & _). apply nth_error_len_some in L1. unfold nlocs in Z. rewrite EB, A in Z. lia.
        -- destruct (ss_other _ _ _ _ _ _ SS pid Hq) as (Y1 & Y2). rewrite Y1, Y2. split; [exact C|].
           revert F. apply F2_impl. intros a id (F1 & F2 & F3). split; [exact (location_at_gx _ _ _ _ G F1)|]. now rewrite RX.
  - (* a comm *)
    injection H as <- <-. destruct (comm_step _ _ _ _ _ _ I NR) as (_ & EB & _ & CASES).
    assert (EX : execed pid (l ++ [HComm cm e]) = execed pid l || (e && (cm_pid cm =? pid))).
    { rewrite execed_app. cbn. now rewrite orb_false_r. }
    assert (RX : forall a, remapped pid a (l ++ [HComm cm e]) = remapped pid a l)
      by (intros a; rewrite remapped_app; apply orb_false_r).
    constructor; [rewrite EX|rewrite EX|exact ST].
    + intros E q k Hk.
      assert (OLD : aget skey_eqb k (pi_sample (info s q)) = Some r).
      { destruct (CASES q) as [(_ & Y & _)|(_ & _ & _ & Y & _)]; rewrite Y in Hk; [exact Hk|discriminate Hk]. }
      destruct (execed pid l) eqn:E0; [exact (tk_dead _ _ _ _ _ _ T E0 _ _ OLD)|].
      cbn [orb] in E. rewrite andb_true_iff in E. destruct E as (-> & E). apply N.eqb_eq in E.
      destruct (tk_live _ _ _ _ _ _ T E0) as (b & k0 & ids & _ & _ & C & _).
      destruct (iv_inj _ _ _ _ I _ _ _ _ _ OLD C) as (-> & _).
      destruct (CASES pid) as [(_ & _ & _ & Y)|(_ & _ & _ & Y & _)]; [now apply Y|]. rewrite Y in Hk. discriminate Hk.
    + rewrite orb_false_iff. intros (E0 & E1).
      destruct (tk_live _ _ _ _ _ _ T E0) as (b & k & ids & A & B & C & F). exists b, k, ids. rewrite EB.
      destruct (CASES pid) as [(Y1 & Y2 & _)|(Y1 & Y2 & _)].
      * rewrite Y1, Y2. split; [exact A|]. split; [exact B|]. split; [exact C|]. revert F. apply F2_impl. intros a id. now rewrite RX.
      * rewrite Y1, Y2, N.eqb_refl in E1. discriminate E1.
  - (* a mapping *)
    destruct (on_mmap_call s p m) as [s1| | | |] eqn:E; try discriminate H. cbn [obind] in H. injection H as <- <-.
    destruct (mmap_step _ _ _ _ _ q _ _ I E) as (_ & EB & _ & CASES).
    assert (EX : execed pid (l ++ [HMMap p (q, m)]) = execed pid l) by (rewrite execed_app; apply orb_false_r).
    assert (RX : forall a, remapped pid a (l ++ [HMMap p (q, m)]) = remapped pid a l || ((p =? pid) && covers m a)).
    { intros a. rewrite remapped_app. cbn. rewrite orb_false_r. unfold covers. now rewrite andb_assoc. }
    constructor; [rewrite EX|rewrite EX|exact ST].
    + intros E0 q0 k. destruct (CASES q0) as (-> & _). exact (tk_dead _ _ _ _ _ _ T E0 q0 k).
    + intros E0. destruct (tk_live _ _ _ _ _ _ T E0) as (b & k & ids & A & B & C & F). exists b, k, ids. rewrite EB.
      destruct (CASES pid) as (-> & _ & Y). split; [exact A|]. split; [exact B|]. split; [exact C|].
      revert F. apply F2_impl. intros a id (F1 & F2 & F3). split; [exact F1|]. rewrite RX, Y.
      destruct ((p =? pid) && covers m a).
      * split; [rewrite orb_true_r|]; discriminate.
      * rewrite orb_false_r. now split.
Qed.

Lemma track_run c R hs : forall h s s' os r pid v addrs l,
  Inv c R h s -> Forall (refs_known R) hs -> Forall (fun x => ~ resets c x) hs ->
  run_calls c s hs = Ok (s', os) ->
  tracked s r pid v addrs l -> tracked s' r pid v addrs (l ++ hs).
Proof.
  induction hs as [|x hs IH]; intros h s s' os r pid v addrs l I K NR H T; cbn [run_calls] in H.
  - injection H as <- <-. now rewrite app_nil_r.
  - destruct (on_call c s x) as [[s1 o]| | | |] eqn:E; try discriminate H. cbn [obind] in H.
    destruct (run_calls c s1 hs) as [[s2 os2]| | | |] eqn:E2; try discriminate H. cbn [obind] in H.
    injection H as <- <-. inversion K as [|? ? K1 K2]; subst. inversion NR as [|? ? N1 N2]; subst.
    destruct (call_step _ _ _ _ _ _ _ I K1 N1 E) as (I1 & _ & _).
    pose proof (track_step _ _ _ _ _ _ _ _ _ _ _ _ I K1 N1 E T) as T1.
    pose proof (IH _ _ _ _ _ _ _ _ _ I1 K2 N2 E2 T1) as T2. now rewrite <- app_assoc in T2.
Qed.

(** * The comparison *)
Lemma same_addresses p addrs addrs' ids :
  Forall2 (fun a id => location_at p id a) addrs ids -> Forall2 (fun a id => location_at p id a) addrs' ids -> addrs = addrs'.
Proof.
  intros H. revert addrs'. induction H as [|a id addrs ids E H IH]; intros addrs' H1; inversion H1; subst; [reflexivity|].
  f_equal; [|now apply IH]. eapply location_at_inj; eassumption.
Qed.

Lemma track_join c R h s cx s' r2 r pid v addrs l :
  Inv c R h s -> Inv c R h s' -> sample_step c h cx s s' r2 ->
  tracked s r pid v addrs l ->
  (r = r2 <-> pid = dflt (s_pid (cx_sample cx)) /\ execed pid l = false /\ v = view_of c h cx /\
              addrs = map fst (stack_frames c cx) /\ Forall (fun a => remapped pid a l = false) addrs).
Proof.
  intros I I' SS T. set (p2 := dflt (s_pid (cx_sample cx))) in *.
  destruct (ss_key _ _ _ _ _ _ SS) as (b2 & k2 & ids2 & NB2 & VK2 & F2 & HK2 & NEW & _). fold p2 in VK2, F2, HK2, NEW.
  pose proof (ss_bi _ _ _ _ _ _ SS) as OB2. fold p2 in OB2.
  destruct (iv_some _ _ _ _ I' p2 _ OB2) as (b2' & NB2' & _ & L2 & _). assert (b2' = b2) by congruence. subst b2'.
  pose proof (stack_valid _ _ _ (tk_stack _ _ _ _ _ _ T)) as VALID.
  destruct (iv_core _ _ _ _ I' _ _ NB2) as (CO2 & _).
  split.
  - intros <-.
    destruct (NEW _ _ HK2) as [OLD|(_ & _ & X)]; [|lia].
    destruct (execed pid l) eqn:EX; [now destruct (tk_dead _ _ _ _ _ _ T EX _ _ OLD)|].
    destruct (tk_live _ _ _ _ _ _ T EX) as (b & k & ids & A & B & C & F).
    destruct (iv_inj _ _ _ _ I _ _ _ _ _ C OLD) as (EP & EK).
    destruct (ss_grow _ _ _ _ _ _ SS _ _ A) as (b' & A' & G). assert (b' = b2) by congruence. subst b'.
    destruct (iv_core _ _ _ _ I _ _ A) as (CO & _). destruct (gx_tab _ _ G (co_tab _ CO)) as (_ & GG).
    pose proof (view_key_grows _ _ _ _ _ (co_tab _ CO) GG B) as VK.
    apply (view_key_inj _ _ _ _ _ _ _ _ _ VK VK2) in EK. destruct EK as (_ & EV & EI).
    split; [exact EP|]. split; [reflexivity|]. split; [exact EV|]. subst ids2.
    assert (AD : addrs = map fst (stack_frames c cx)).
    { apply (same_addresses (b_profile b2) addrs _ ids).
      - revert F. apply F2_impl. intros a id (F1 & _). exact (location_at_gx _ _ _ _ G F1).
      - apply F2_map. revert F2. apply F2_impl. intros a id Hf. exact (L2 _ _ Hf). }
    split; [exact AD|].
    apply (F2_map fst (fun a id => aget N.eqb a (pi_loc (info s' p2)) = Some id)) in F2. rewrite <- AD in F2.
    pose proof (F2_both _ _ _ _ F F2) as FB. clear - FB SS A EP.
    induction FB as [|a id la li ((F1 & F2 & F3) & F4) FB IH]; constructor; [|exact IH].
    destruct (remapped pid a l) eqn:RX; [|reflexivity]. exfalso.
    destruct (ss_loc_new _ _ _ _ _ _ SS _ _ F4) as [Z|Z].
    + unfold p2 in EP. rewrite <- EP in Z. exact (F3 eq_refl Z).
    + destruct F1 as (ln & L1 & _). apply nth_error_len_some in L1. unfold nlocs in Z. rewrite A in Z. lia.
  - intros (EP & EX & EV & AD & RM).
    destruct (tk_live _ _ _ _ _ _ T EX) as (b & k & ids & A & B & C & F). rewrite EP in C.
    pose proof (ss_keep _ _ _ _ _ _ SS _ _ C) as C'. fold p2 in C'.
    pose proof (live_builder _ _ _ _ _ _ _ I C) as OB.
    assert (EB : fst r2 = fst r).
    { destruct (ss_bi_old _ _ _ _ _ _ SS) as [X|(X & _)]; fold p2 in X; congruence. }
    destruct (ss_grow _ _ _ _ _ _ SS _ _ A) as (b' & A' & G). assert (b' = b2) by congruence. subst b'.
    destruct (iv_core _ _ _ _ I _ _ A) as (CO & _). destruct (gx_tab _ _ G (co_tab _ CO)) as (_ & GG).
    pose proof (view_key_grows _ _ _ _ _ (co_tab _ CO) GG B) as VK.
    assert (EI : ids = ids2).
    { apply (F2_map fst (fun a id => aget N.eqb a (pi_loc (info s' p2)) = Some id)) in F2. rewrite <- AD in F2. clear - F F2 RM SS EP. subst pid. fold p2 in RM.
      revert ids2 F2. induction F as [|a id la li (F1 & F3 & _) F IH]; intros ids2 F2; inversion F2 as [|? i2 ? l2 H1 H2]; subst; [reflexivity|].
      inversion RM as [|? ? R1 R2]; subst. f_equal; [|now apply IH].
      pose proof (ss_loc_keep _ _ _ _ _ _ SS _ _ (F3 R1)) as X. unfold p2 in *. congruence. }
    assert (EK : with_stack ids k = with_stack ids2 k2).
    { apply (view_key_inj _ _ _ _ _ _ _ _ _ VK VK2). auto. }
    rewrite EK in C'. congruence.
Qed.
