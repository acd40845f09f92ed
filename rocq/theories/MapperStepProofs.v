(** One MapWithID call, then histories of calls. *)
From Verif Require Import Base BytesModel BytesProofs BytesMoreProofs MapperModel MapperSpec
  MapperProofs MapperPlaceProofs.
From Coq Require Import Permutation.
Local Open Scope N_scope.

Definition strict (real size : N) (e : range) : bool :=
  (r_real e <=? real) && (real + size <=? r_real e + r_size e) && (size <? r_size e).

Lemma covers_spec al e real size :
  rok al e -> 0 < size -> real + size < two64 ->
  covers e real size && (size <? r_size e) = strict real size e.
Proof.
  intros (H1 & H2 & _) H3 H4. unfold covers, strict. rewrite !last_addr_eq by lia. lia.
Qed.

Lemma collect_some real size o : forall c dels,
  collect c real size (Some o) dels
  = (Some o, dels ++ map r_real (filter (fun e => intersects e real size) c)).
Proof.
  induction c as [|e c IH]; intros dels; cbn; [now rewrite app_nil_r|].
  destruct (intersects e real size) eqn:E; cbn; rewrite IH; auto. now rewrite <- app_assoc.
Qed.

Lemma collect_none real size : forall c dels,
  (forall e, In e c -> covers e real size && (size <? r_size e) = false) ->
  collect c real size None dels
  = (None, dels ++ map r_real (filter (fun e => intersects e real size) c)).
Proof.
  induction c as [|e c IH]; intros dels H; cbn; [now rewrite app_nil_r|].
  rewrite (H e) by now left. assert (H' := fun e He => H e (or_intror He)).
  destruct (intersects e real size) eqn:E; cbn; rewrite IH; auto. now rewrite <- app_assoc.
Qed.

Lemma collect_cover al real size o : 0 < size -> real + size < two64 -> forall c,
  good al c -> In o c -> strict real size o = true ->
  collect c real size None [] = (Some o, []).
Proof.
  intros Hs Hr. induction c as [|e c IH]; intros G Hi Hc; [easy|].
  pose proof G as (G1 & G2 & G3). inversion G1 as [|? ? Ge Gc]; subst.
  assert (Ho : rok al o) by (rewrite Forall_forall in G1; auto).
  assert (Hdis : forall f, rdisj o f -> rok al f -> intersects f real size = false).
  { intros f D F. rewrite (intersects_spec al) by auto. unfold strict in Hc. unfold rdisj in D. lia. }
  cbn. destruct Hi as [->|Hi].
  - replace (intersects o real size) with true.
    2:{ symmetry. rewrite (intersects_spec al) by auto. unfold strict in Hc. lia. }
    cbn. rewrite (covers_spec al) by auto. rewrite Hc. rewrite collect_some. f_equal.
    rewrite filter_none; auto. intros f Hf. apply Hdis; auto.
    rewrite Forall_forall in Gc. auto.
  - rewrite Hdis; auto.
    + cbn. apply IH; auto. now split.
    + apply rdisj_sym. auto.
Qed.

Lemma bad_range_ok real size : 0 < size -> real + size < two64 -> bad_range real size = false.
Proof.
  intros. unfold bad_range. rewrite w64_small by lia. lia.
Qed.

Lemma map_fresh_spec m real size id off :
  Inv m -> fresh_for (m_ranges m) real size -> 0 < size -> real + size < two64 -> off < two64 ->
  top_of (m_ranges m) + size + 2 * m_align m < two64 ->
  exists m', map_fresh m real size id off = Ok (true, m') /\ grown m m' real size id off.
Proof.
  intros I F Hs Hr Ho Ht. unfold map_fresh. rewrite bad_range_ok by auto.
  destruct (candidates_spec m real size I Hs Hr) as (c & -> & H1 & H2 & H3). cbn [obind].
  replace (existsb _ _) with false; [now apply place_spec|].
  symmetry. apply not_true_iff_false. intros X. apply existsb_exists in X as (e & He & E).
  destruct H2 as (H2 & _). rewrite Forall_forall in H2.
  rewrite (intersects_spec (m_align m)) in E by auto.
  specialize (F e (H1 e He)). lia.
Qed.

Lemma overlap_intersects al e c : rok al e -> call_ok c ->
  overlapb (as_call e) c = intersects e (c_start c) (c_size c).
Proof.
  intros R (H1 & H2 & H3). rewrite (intersects_spec al) by auto.
  unfold overlapb, c_end. cbn. lia.
Qed.

Lemma perm_filter_out al : forall l o, good al l -> In o l ->
  Permutation l (o :: filter (not_key (r_real o)) l).
Proof.
  induction l as [|e l IH]; intros o G Hi; [easy|].
  pose proof (good_real_notin _ _ _ G) as Hn. destruct G as (G1 & G2 & G3).
  inversion G1 as [|? ? Ge Gl]; subst. cbn. destruct Hi as [->|Hi].
  - unfold not_key at 1. rewrite N.eqb_refl. cbn. constructor.
    rewrite filter_all; auto. intros x Hx. unfold not_key. specialize (Hn x Hx).
    apply negb_true_iff. lia.
  - unfold not_key at 1. specialize (Hn o Hi).
    replace (r_real e =? r_real o) with false by lia. cbn. rewrite perm_swap. constructor.
    apply IH; auto. now split.
Qed.

Lemma as_call_core l : map as_call (map core l) = map as_call l.
Proof. rewrite map_map. apply map_ext. now intros. Qed.

Lemma grown_calls m m' real size id off :
  grown m m' real size id off ->
  Permutation (map as_call (m_ranges m')) (mkCall real size id off :: map as_call (m_ranges m)).
Proof.
  intros (_ & _ & _ & q & P). apply (Permutation_map as_call) in P. cbn in P.
  rewrite !as_call_core in P. exact P.
Qed.

Lemma call_perm_in l l' x : Permutation (map as_call l) l' -> In x l -> In (as_call x) l'.
Proof. intros P Hi. eapply Permutation_in; [exact P|now apply in_map]. Qed.

Definition stay (c : call) (l : list range) : list range :=
  filter (fun e => negb (overlapb (as_call e) c)) l.

Lemma cut_none c l :
  (forall e, In e l -> overlapb (as_call e) c = true -> strict (c_start c) (c_size c) e = false) ->
  flat_map (cut c) (map as_call l) = map as_call (stay c l).
Proof.
  induction l as [|e l IH]; intros H; auto. cbn. unfold cut at 1.
  rewrite IH by (intros; apply H; [now right|auto]).
  specialize (H e (or_introl eq_refl)).
  change (overlapb (mkCall (r_real e) (r_size e) (r_id e) (r_off e)) c) with (overlapb (as_call e) c).
  destruct (overlapb (as_call e) c) eqn:E; cbn; auto.
  specialize (H eq_refl). unfold strict in H. unfold c_end. cbn.
  rewrite H. reflexivity.
Qed.

Lemma top_core_eq l l' : map core l = map core l' -> top_of l = top_of l'.
Proof.
  intros E. apply N.le_antisymm; apply top_perm; rewrite E; apply Permutation_refl.
Qed.

Theorem step_spec m c :
  Inv m -> call_ok c -> roomy m c ->
  exists m', map_with_id m (c_start c) (c_size c) (c_id c) (c_off c) true = Ok (true, m') /\
    Inv m' /\ m_align m' = m_align m /\
    Permutation (map as_call (m_ranges m')) (pieces_step (map as_call (m_ranges m)) c) /\
    exists n, (n = c_size c \/ exists e, In e (m_ranges m) /\ n = r_size e) /\
      top_of (m_ranges m') <= top_of (m_ranges m) + n + 6 * m_align m.
Proof.
  intros I C R. pose proof I as (Ha & G & T). pose proof C as (C1 & C2 & C3). unfold c_end in C2.
  assert (Gin : forall e, In e (m_ranges m) -> rok (m_align m) e).
  { destruct G as (G1 & _). now rewrite Forall_forall in G1. }
  unfold map_with_id. rewrite bad_range_ok by auto.
  destruct (candidates_spec m _ _ I C1 C2) as (cs & -> & S1 & S2 & S3). cbn [obind].
  assert (S4 : forall e, In e cs -> rok (m_align m) e) by auto.
  unfold roomy in R. cbv zeta in R. fold (stay c (m_ranges m)) in R.
  assert (Hstay : top_of (stay c (m_ranges m)) <= top_of (m_ranges m)).
  { apply top_le. intros e He. apply filter_In in He. now apply top_in. }
  destruct (existsb (strict (c_start c) (c_size c)) cs) eqn:Ex.
  - (* strictly covered by o *)
    apply existsb_exists in Ex as (o & Ho & Es).
    rewrite (collect_cover (m_align m) _ _ o) by auto. cbn [fold_left]. 
    pose proof (S1 o Ho) as Hol. pose proof (Gin o Hol) as (O1 & O2 & O3 & O4).
    assert (Hov : overlap (as_call o) c).
    { unfold overlap, c_end. cbn. unfold strict in Es. lia. }
    specialize (R (r_size o) (or_intror (ex_intro _ o (conj Hol (conj Hov eq_refl))))).
    unfold split_over. cbn [m_align m_ranges negb andb].
    destruct (unmap_spec (m_align m) (r_real o) _ G T) as (U1 & U2 & _).
    set (m2 := mkMapper (unmap_list (m_ranges m) (r_real o)) (m_align m)).
    assert (Estay : filter (not_key (r_real o)) (m_ranges m) = stay c (m_ranges m)).
    { apply filter_ext_in. intros e He. rewrite (overlap_intersects (m_align m)) by auto.
      rewrite (intersects_spec (m_align m)) by auto. unfold not_key. f_equal.
      destruct G as (_ & G2). destruct (pw_in _ _ _ G2 He Hol) as [->|D].
      - unfold strict in Es. lia.
      - unfold strict in Es. unfold rdisj in D. destruct (Gin e He) as (? & _). lia. }
    assert (I2 : Inv m2).
    { split; [exact Ha|]. split; [|exact U1]. cbn. apply good_core. rewrite U2. apply good_core.
      now apply good_filter. }
    assert (T2 : top_of (m_ranges m2) = top_of (stay c (m_ranges m))).
    { apply top_core_eq. cbn. now rewrite U2, Estay. }
    assert (P2 : map as_call (m_ranges m2) = map as_call (stay c (m_ranges m))).
    { rewrite <- as_call_core. cbn. rewrite U2, as_call_core. now rewrite Estay. }
    assert (F2 : forall e, In e (m_ranges m2) ->
              r_real e + r_size e <= r_real o \/ r_real o + r_size o <= r_real e).
    { intros e He. apply (in_map core) in He. cbn [m_ranges m2] in He. rewrite U2 in He.
      apply in_map_iff in He as (g & Eg & Hg). apply filter_In in Hg as (Hg & Hk).
      assert (r_real g = r_real e) by exact (f_equal r_real Eg).
      assert (r_size g = r_size e) by exact (f_equal r_size Eg).
      destruct G as (_ & G2). destruct (pw_in _ _ _ G2 Hg Hol) as [->|D].
      - unfold not_key in Hk. rewrite N.eqb_refl in Hk. easy.
      - unfold rdisj in D. lia. }
    assert (A2 : m_align m2 = m_align m) by reflexivity.
    unfold strict in Es.
    rewrite (w64_small (r_real o + r_size o)), (w64_small (c_start c + c_size c)) by lia.
    rewrite !sub64_le by lia.
    set (gb := c_start c - r_real o). set (ga := r_real o + r_size o - (c_start c + c_size c)).
    (* the piece before *)
    assert (Hm3 : exists m3, (if gb =? 0 then Ok (true, m2)
                              else map_fresh m2 (r_real o) gb (r_id o) (r_off o) : mres) = Ok (true, m3) /\
              Inv m3 /\ m_align m3 = m_align m /\
              top_of (m_ranges m3) <= top_of (m_ranges m2) + gb + 2 * m_align m /\
              Permutation (map as_call (m_ranges m3))
                ((if gb =? 0 then [] else [mkCall (r_real o) gb (r_id o) (r_off o)])
                 ++ map as_call (m_ranges m2))).
    { destruct (gb =? 0) eqn:Eg.
      - exists m2. do 3 (split; [auto|]). split; [lia|]. apply Permutation_refl.
      - destruct (map_fresh_spec m2 (r_real o) gb (r_id o) (r_off o)) as (m3 & E3 & G3);
          auto; try lia.
        { intros e He. specialize (F2 e He). unfold gb. lia. }
        exists m3. split; [exact E3|]. pose proof (grown_calls _ _ _ _ _ _ G3) as P3.
        destruct G3 as (I3 & A3 & T3 & _). do 2 (split; [auto|]). split; [exact T3|]. exact P3. }
    destruct Hm3 as (m3 & E3 & I3 & A3 & T3 & P3).
    match goal with |- context [and_then ?x _] =>
      replace x with (Ok (true, m3) : mres) by (symmetry; exact E3) end. cbn [and_then].
    assert (F3 : forall e, In e (m_ranges m3) ->
              r_real e + r_size e <= c_start c \/ r_real o + r_size o <= r_real e).
    { intros e He. apply (call_perm_in _ _ _ P3) in He. apply in_app_or in He as [He|He].
      - destruct (gb =? 0); [easy|]. destruct He as [He|[]].
        assert (r_real o = r_real e) by exact (f_equal c_start He).
        assert (gb = r_size e) by exact (f_equal c_size He). unfold gb in *. lia.
      - apply in_map_iff in He as (g & Eg & Hg).
        assert (r_real g = r_real e) by exact (f_equal c_start Eg).
        assert (r_size g = r_size e) by exact (f_equal c_size Eg).
        specialize (F2 g Hg). lia. }
    destruct (map_fresh_spec m3 (c_start c) (c_size c) (c_id c) (c_off c)) as (m4 & -> & G4);
      auto; try lia.
    { intros e He. specialize (F3 e He). lia. }
    cbn [and_then]. pose proof (grown_calls _ _ _ _ _ _ G4) as P4. destruct G4 as (I4 & A4 & T4 & _).
    assert (F4 : forall e, In e (m_ranges m4) ->
              r_real e + r_size e <= c_start c + c_size c \/ r_real o + r_size o <= r_real e).
    { intros e He. apply (call_perm_in _ _ _ P4) in He. destruct He as [He|He].
      - assert (c_start c = r_real e) by exact (f_equal c_start He).
        assert (c_size c = r_size e) by exact (f_equal c_size He). lia.
      - apply in_map_iff in He as (g & Eg & Hg).
        assert (r_real g = r_real e) by exact (f_equal c_start Eg).
        assert (r_size g = r_size e) by exact (f_equal c_size Eg).
        specialize (F3 g Hg). lia. }
    set (off3 := w64 (w64 (r_off o + gb) + c_size c)).
    assert (Hm5 : exists m5, (if ga =? 0 then Ok (true, m4)
                              else map_fresh m4 (c_start c + c_size c) ga (r_id o) off3 : mres) = Ok (true, m5) /\
              Inv m5 /\ m_align m5 = m_align m /\
              top_of (m_ranges m5) <= top_of (m_ranges m4) + ga + 2 * m_align m /\
              Permutation (map as_call (m_ranges m5))
                ((if ga =? 0 then [] else [mkCall (c_start c + c_size c) ga (r_id o) off3])
                 ++ map as_call (m_ranges m4))).
    { destruct (ga =? 0) eqn:Eg.
      - exists m4. do 2 (split; [auto|]). split; [congruence|]. split; [lia|]. apply Permutation_refl.
      - destruct (map_fresh_spec m4 (c_start c + c_size c) ga (r_id o) off3) as (m5 & E5 & G5);
          auto; try lia.
        { intros e He. specialize (F4 e He). unfold ga. lia. }
        { unfold off3, w64. apply N.mod_lt. easy. }
        exists m5. split; [exact E5|]. pose proof (grown_calls _ _ _ _ _ _ G5) as P5.
        destruct G5 as (I5 & A5 & T5 & _). split; [auto|]. split; [congruence|].
        split; [rewrite A4, A3 in T5; exact T5|]. exact P5. }
    destruct Hm5 as (m5 & E5 & I5 & A5 & T5 & P5).
    exists m5. split; [exact E5|]. split; [exact I5|]. split; [exact A5|]. split.
    2:{ exists (r_size o). split; [right; eauto|]. lia. }
    rewrite P5, P4, P3, P2. unfold pieces_step.
    assert (PL : Permutation (flat_map (cut c) (map as_call (m_ranges m)))
              (cut c (as_call o) ++ map as_call (stay c (m_ranges m)))).
    { rewrite (Permutation_map as_call (perm_filter_out _ _ _ G Hol)). cbn [map flat_map].
      apply Permutation_app_head. rewrite Estay. rewrite cut_none.
      - replace (stay c (stay c (m_ranges m))) with (stay c (m_ranges m)); [apply Permutation_refl|].
        unfold stay. rewrite filter_filter. apply filter_ext.
        intros e. now destruct (overlapb (as_call e) c).
      - intros e He Hv. unfold stay in He. apply filter_In in He as (_ & He). now rewrite Hv in He. }
    rewrite PL.
    assert (EC : cut c (as_call o) =
              (if gb =? 0 then [] else [mkCall (r_real o) gb (r_id o) (r_off o)]) ++
              (if ga =? 0 then [] else [mkCall (c_start c + c_size c) ga (r_id o) off3])).
    { unfold cut. replace (overlapb (as_call o) c) with true
        by (symmetry; unfold overlapb, overlap, c_end in *; cbn in *; lia).
      cbn [negb]. unfold c_end. cbn [as_call c_start c_size c_id c_off].
      replace ((r_real o <=? c_start c) && (c_start c + c_size c <=? r_real o + r_size o)
                 && (c_size c <? r_size o)) with true by lia.
      f_equal.
      - fold gb. replace (gb =? 0) with (negb (r_real o <? c_start c)) by (unfold gb; lia).
        now destruct (r_real o <? c_start c).
      - fold ga. replace (ga =? 0) with (negb (c_start c + c_size c <? r_real o + r_size o))
          by (unfold ga; lia).
        destruct (c_start c + c_size c <? r_real o + r_size o); cbn; auto.
        do 2 f_equal. unfold off3, w64.
        rewrite N.add_mod_idemp_l by easy. f_equal. unfold gb. lia. }
    rewrite EC. set (A := if gb =? 0 then _ else _). set (B := if ga =? 0 then _ else _).
    replace (mkCall (c_start c) (c_size c) (c_id c) (c_off c)) with c by now destruct c.
    rewrite <- !app_assoc. etransitivity; [symmetry; apply Permutation_middle|]. constructor.
    rewrite (app_assoc A B). rewrite (Permutation_app_comm A B). now rewrite <- app_assoc.
  - (* not strictly covered *)
    assert (Hns : forall e, In e (m_ranges m) -> overlapb (as_call e) c = true ->
              strict (c_start c) (c_size c) e = false).
    { intros e He Hv. rewrite (overlap_intersects (m_align m)) in Hv by auto.
      destruct (strict (c_start c) (c_size c) e) eqn:E; auto.
      exfalso. apply not_true_iff_false in Ex. apply Ex. apply existsb_exists. exists e. auto. }
    rewrite collect_none.
    2:{ intros e He. rewrite (covers_spec (m_align m)) by auto.
        destruct (strict (c_start c) (c_size c) e) eqn:E; auto.
        exfalso. apply not_true_iff_false in Ex. apply Ex. apply existsb_exists. eauto. }
    cbn [app]. set (ks := map r_real _).
    destruct (unmap_fold_spec (m_align m) ks _ G T) as (U1 & U2).
    assert (Estay : filter (not_keys ks) (m_ranges m) = stay c (m_ranges m)).
    { apply filter_ext_in. intros e He. rewrite (overlap_intersects (m_align m)) by auto.
      unfold not_keys. f_equal. destruct (intersects e (c_start c) (c_size c)) eqn:Ei.
      - apply existsb_exists. exists (r_real e). split; [|apply N.eqb_refl].
        unfold ks. apply in_map. apply filter_In. auto.
      - apply not_true_iff_false. intros X. apply existsb_exists in X as (k & Hk & E).
        unfold ks in Hk. apply in_map_iff in Hk as (f & Ef & Hf). apply filter_In in Hf as (Hf & Hi).
        assert (e = f) by (apply (good_real_inj _ _ e f G); auto; lia). subst f. congruence. }
    set (m2 := mkMapper (fold_left unmap_list ks (m_ranges m)) (m_align m)).
    assert (I2 : Inv m2).
    { split; [exact Ha|]. split; [|exact U1]. cbn. apply good_core. rewrite U2. apply good_core.
      now apply good_filter. }
    assert (T2 : top_of (m_ranges m2) = top_of (stay c (m_ranges m))).
    { apply top_core_eq. cbn. now rewrite U2, Estay. }
    assert (P2 : map as_call (m_ranges m2) = map as_call (stay c (m_ranges m))).
    { rewrite <- as_call_core. cbn. rewrite U2, as_call_core. now rewrite Estay. }
    assert (F2 : fresh_for (m_ranges m2) (c_start c) (c_size c)).
    { intros e He. apply (in_map as_call) in He. rewrite P2 in He.
      apply in_map_iff in He as (g & Eg & Hg).
      assert (r_real g = r_real e) by exact (f_equal c_start Eg).
      assert (r_size g = r_size e) by exact (f_equal c_size Eg).
      apply filter_In in Hg as (_ & Hg). unfold overlapb, c_end in Hg. cbn in Hg. lia. }
    specialize (R (c_size c) (or_introl eq_refl)).
    destruct (place_spec m2 (c_start c) (c_size c) (c_id c) (c_off c)) as (m3 & E3 & G3); auto.
    { rewrite T2. change (m_align m2) with (m_align m). lia. }
    exists m3. split; [exact E3|]. pose proof (grown_calls _ _ _ _ _ _ G3) as P3.
    destruct G3 as (I3 & A3 & T3 & _). split; [exact I3|]. split; [exact A3|]. split.
    2:{ exists (c_size c). split; [now left|]. change (m_align m2) with (m_align m) in T3. lia. }
    rewrite P3, P2. unfold pieces_step. rewrite cut_none by auto.
    now destruct c.
Qed.

(** * Histories *)

Lemma pieces_step_perm c ps ps' : Permutation ps ps' -> Permutation (pieces_step ps c) (pieces_step ps' c).
Proof. intros P. unfold pieces_step. constructor. now apply Permutation_flat_map. Qed.

Lemma fold_pieces_perm h : forall ps ps', Permutation ps ps' ->
  Permutation (fold_left pieces_step h ps) (fold_left pieces_step h ps').
Proof.
  induction h as [|c h IH]; intros ps ps' P; cbn; auto. apply IH. now apply pieces_step_perm.
Qed.

Theorem run_spec h : forall m,
  Inv m -> Forall call_ok h -> all_roomy m h ->
  exists m', run_calls m h = Some m' /\ Inv m' /\ m_align m' = m_align m /\
    Permutation (map as_call (m_ranges m')) (fold_left pieces_step h (map as_call (m_ranges m))).
Proof.
  induction h as [|c h IH]; intros m I F R.
  - exists m. cbn. auto.
  - inversion F as [|? ? Hc Fh]; subst. destruct R as (R1 & R2).
    destruct (step_spec m c I Hc R1) as (m1 & E1 & I1 & A1 & P1 & _).
    destruct (IH m1 I1 Fh (R2 m1 E1)) as (m2 & E2 & I2 & A2 & P2).
    exists m2. cbn. rewrite E1. split; [exact E2|]. split; [exact I2|]. split; [congruence|].
    rewrite P2. apply fold_pieces_perm. exact P1.
Qed.

Lemma new_mapper_inv a m0 : align_ok a -> new_mapper a = Ok m0 ->
  m0 = mkMapper [] a /\ Inv m0.
Proof.
  intros Ha E. unfold new_mapper in E. destruct (_ || _); [|easy]. injection E as <-.
  split; auto. split; auto. split; [|exact Logic.I]. split; [constructor|exact Logic.I].
Qed.

Lemma new_mapper_ok a : align_ok a -> new_mapper a = Ok (mkMapper [] a).
Proof.
  intros [->|(k & Hk & ->)]; [reflexivity|]. unfold new_mapper.
  pose proof (align_land (2 ^ k) k (2 ^ k) eq_refl Hk) as H. unfold aligned_offset in H.
  rewrite H, N.mod_same by (apply N.pow_nonzero; lia). now rewrite orb_true_r.
Qed.

(** Pieces are disjoint, so an address is in at most one of them. *)
Lemma resolve_in m ps x c :
  Inv m -> Permutation (map as_call (m_ranges m)) ps ->
  In c ps -> in_call x c -> resolve ps x = Some (c_id c, (x - c_start c + c_off c) mod two64).
Proof.
  intros (_ & (G1 & G2) & _) P Hc Hx. unfold resolve.
  destruct (find (in_callb x) ps) as [d|] eqn:E.
  - apply find_some in E as (Hd & Hb).
    assert (d = c) as ->; auto.
    apply (Permutation_in _ (Permutation_sym P)) in Hd, Hc.
    apply in_map_iff in Hd as (f & <- & Hf), Hc as (e & <- & He).
    destruct (pw_in _ _ _ G2 Hf He) as [->|D]; auto.
    unfold in_call, in_callb, c_end, rdisj in *. cbn in *. lia.
  - apply (find_none _ _ E) in Hc. unfold in_call, in_callb in *. lia.
Qed.

Lemma resolve_none ps x : (forall c, In c ps -> ~ in_call x c) -> resolve ps x = None.
Proof.
  intros H. unfold resolve. destruct (find (in_callb x) ps) as [d|] eqn:E; auto.
  apply find_some in E as (Hd & Hb). exfalso. apply (H d Hd). unfold in_call, in_callb in *. lia.
Qed.

Theorem lookup_spec m ps x :
  Inv m -> Permutation (map as_call (m_ranges m)) ps -> x < two64 ->
  option_map (fun '(_, i, o) => (i, o)) (get_mapped m x) = resolve ps x.
Proof.
  intros I P Hx. unfold get_mapped. pose proof (range_containing_spec m x I Hx) as R.
  destruct (range_containing m x) as [e|].
  - destruct R as (He & Hr). cbn.
    rewrite (resolve_in m ps x (as_call e) I P); [|now apply (call_perm_in _ _ _ P)|].
    + cbn. unfold w64. rewrite sub64_le by lia. reflexivity.
    + unfold in_call, c_end. cbn. lia.
  - cbn. symmetry. apply resolve_none. intros c Hc Hi.
    apply (Permutation_in _ (Permutation_sym P)) in Hc. apply in_map_iff in Hc as (e & <- & He).
    apply (R e He). unfold in_call, c_end in Hi. exact Hi.
Qed.

(** The synthetic address of an address, from the range that contains it. *)
Lemma get_mapped_some m x a i o :
  Inv m -> x < two64 -> get_mapped m x = Some (a, i, o) ->
  exists e, In e (m_ranges m) /\ r_real e <= x < r_real e + r_size e /\
    a = r_mapped e + (x - r_real e) /\ r_mapped e + r_size e <= max64.
Proof.
  intros I Hx E. unfold get_mapped in E. pose proof (range_containing_spec m x I Hx) as R.
  destruct (range_containing m x) as [e|]; [|easy]. injection E as <- <- <-.
  destruct R as (He & Hr). exists e. do 2 (split; [auto|]).
  destruct I as (_ & _ & T). pose proof (tiled_end _ _ T He).
  rewrite sub64_le by lia. unfold w64. rewrite N.mod_small by (unfold two64, max64 in *; lia).
  split; [lia|auto].
Qed.

Theorem mapped_injective m x y a i o a' i' o' :
  Inv m -> x < two64 -> y < two64 -> x <> y ->
  get_mapped m x = Some (a, i, o) -> get_mapped m y = Some (a', i', o') -> a <> a'.
Proof.
  intros I Hx Hy Hn Ex Ey. pose proof I as (_ & _ & T).
  apply get_mapped_some in Ex as (e & He & R1 & -> & B1); auto.
  apply get_mapped_some in Ey as (f & Hf & R2 & -> & B2); auto.
  destruct (tiled_disjoint _ _ _ T He Hf) as [->|D]; lia.
Qed.

Theorem mapped_page_offset m x a i o :
  Inv m -> x < two64 -> m_align m <> 0 ->
  get_mapped m x = Some (a, i, o) -> a mod m_align m = x mod m_align m.
Proof.
  intros I Hx Ha E. pose proof I as (_ & (G & _) & _).
  apply get_mapped_some in E as (e & He & R & -> & B); auto.
  rewrite Forall_forall in G. destruct (G e He) as (_ & _ & _ & H). specialize (H Ha).
  rewrite N.add_mod, H, <- N.add_mod by auto. f_equal. lia.
Qed.

Theorem mapped_same_piece m ps c x y a i o a' i' o' :
  Inv m -> Permutation (map as_call (m_ranges m)) ps -> x < two64 -> y < two64 -> x <= y ->
  In c ps -> in_call x c -> in_call y c ->
  get_mapped m x = Some (a, i, o) -> get_mapped m y = Some (a', i', o') -> a' = a + (y - x).
Proof.
  intros I P Hx Hy Hxy Hc Cx Cy Ex Ey. pose proof I as (_ & (_ & G) & _).
  apply get_mapped_some in Ex as (e & He & R1 & -> & B1); auto.
  apply get_mapped_some in Ey as (f & Hf & R2 & -> & B2); auto.
  apply (Permutation_in _ (Permutation_sym P)) in Hc. apply in_map_iff in Hc as (g & <- & Hg).
  unfold in_call, c_end in *. cbn in *.
  destruct (pw_in _ _ _ G He Hg) as [->|D]; [|unfold rdisj in D; lia].
  destruct (pw_in _ _ _ G Hf Hg) as [->|D]; [lia|unfold rdisj in D; lia].
Qed.

(** * Reading the pieces: who owns an address *)

Lemma cut_in c f d x : call_ok c -> call_ok f -> In d (cut c f) -> in_call x d ->
  in_call x f /\ ~ in_call x c /\ c_id d = c_id f /\
  (x - c_start d + c_off d) mod two64 = (x - c_start f + c_off f) mod two64.
Proof.
  intros (C1 & C2 & C3) (F1 & F2 & F3) Hd Hx. unfold cut in Hd.
  destruct (overlapb f c) eqn:V; cbn [negb] in Hd.
  - destruct ((c_start f <=? c_start c) && (c_end c <=? c_end f) && (c_size c <? c_size f)) eqn:S; [|easy].
    unfold in_call, c_end, overlapb in *.
    apply in_app_or in Hd as [Hd|Hd].
    + destruct (c_start f <? c_start c) eqn:L; [|easy]. destruct Hd as [<-|[]]. cbn in *.
      do 2 (split; [lia|]). auto.
    + destruct (c_start c + c_size c <? c_start f + c_size f) eqn:L; [|easy].
      destruct Hd as [<-|[]]. cbn in *. do 2 (split; [lia|]). split; auto.
      rewrite N.add_mod_idemp_r by easy. f_equal. lia.
  - destruct Hd as [<-|[]]. split; auto. split; auto.
    unfold in_call, overlapb in *. lia.
Qed.

Lemma find_rev_snoc {A} (p : A -> bool) h c :
  find p (rev (h ++ [c])) = if p c then Some c else find p (rev h).
Proof. now rewrite rev_app_distr. Qed.

Theorem pieces_latest h : Forall call_ok h -> forall d x,
  In d (pieces h) -> in_call x d ->
  call_ok d /\ exists c, last_covering h x = Some c /\ c_id d = c_id c /\
    (x - c_start d + c_off d) mod two64 = (x - c_start c + c_off c) mod two64.
Proof.
  induction h as [|c h IH] using rev_ind; intros F d x Hd Hx; [easy|].
  apply Forall_app in F as (F & Fc). inversion Fc as [|? ? Hc _]; subst.
  unfold pieces in Hd. rewrite fold_left_app in Hd. cbn [fold_left] in Hd.
  change (fold_left pieces_step h []) with (pieces h) in Hd.
  unfold last_covering. rewrite find_rev_snoc. destruct Hd as [<-|Hd].
  - replace (in_callb x c) with true by (unfold in_callb, in_call in *; lia).
    split; auto. exists c. auto.
  - apply in_flat_map in Hd as (f & Hf & Hd).
    assert (Hfok : call_ok f).
    { assert (Hne : forall g, In g (pieces h) -> call_ok g).
      { clear -F. induction h as [|b h IH] using rev_ind; [easy|].
        apply Forall_app in F as (F & Fb). inversion Fb as [|? ? Hb _]; subst.
        unfold pieces. rewrite fold_left_app. cbn [fold_left].
        change (fold_left pieces_step h []) with (pieces h). intros g [<-|Hg]; auto.
        apply in_flat_map in Hg as (f & Hf & Hg). pose proof (IH F f Hf) as (F1 & F2 & F3).
        destruct Hb as (B1 & B2 & B3). unfold cut in Hg. unfold call_ok, c_end in *.
        destruct (negb (overlapb f b)); [destruct Hg as [<-|[]]; auto|].
        destruct ((_ && _) && _) eqn:S; [|easy].
        apply in_app_or in Hg as [Hg|Hg]; destruct (_ <? _) eqn:L in Hg; try easy;
          destruct Hg as [<-|[]]; cbn.
        - repeat split; lia.
        - split; [lia|]. split; [lia|]. apply N.mod_lt. easy. }
      auto. }
    destruct (cut_in c f d x Hc Hfok Hd Hx) as (Hxf & Hxc & Ei & Eo).
    replace (in_callb x c) with false by (unfold in_callb, in_call in *; lia).
    destruct (IH F f x Hf Hxf) as (_ & c' & L & Ei' & Eo').
    split.
    + destruct Hfok as (F1 & F2 & F3), Hc as (B1 & B2 & B3).
      unfold cut in Hd. unfold call_ok, c_end in *.
      destruct (negb (overlapb f c)); [destruct Hd as [<-|[]]; auto|].
      destruct ((_ && _) && _) eqn:S; [|easy].
      apply in_app_or in Hd as [Hd|Hd]; destruct (_ <? _) eqn:L' in Hd; try easy;
        destruct Hd as [<-|[]]; cbn.
      * clear - L' F1 F2 F3 B1 B2 B3 S. repeat split; lia.
      * clear - L' F1 F2 F3 B1 B2 B3 S. split; [lia|]. split; [lia|]. apply N.mod_lt. easy.
    + exists c'. split; [exact L|]. split; congruence.
Qed.

(** A mapping that no later call touches stays whole. *)
Theorem pieces_untouched h1 c h2 :
  (forall d, In d h2 -> ~ overlap c d) -> In c (pieces (h1 ++ c :: h2)).
Proof.
  induction h2 as [|d h2 IH] using rev_ind; intros H.
  - unfold pieces. rewrite fold_left_app. cbn. now left.
  - rewrite app_comm_cons, app_assoc. unfold pieces. rewrite fold_left_app. cbn [fold_left].
    right. apply in_flat_map. exists c. split.
    + apply IH. intros e He. apply H. apply in_or_app. now left.
    + unfold cut. replace (overlapb c d) with false; [now left|].
      assert (~ overlap c d) by (apply H, in_or_app; right; now left).
      unfold overlapb, overlap in *. lia.
Qed.

(** A bound on the history that guarantees room. *)
Theorem bounded_roomy B h : forall m n,
  Inv m -> Forall call_ok h -> (forall c, In c h -> c_size c <= B) ->
  (forall e, In e (m_ranges m) -> r_size e <= B) ->
  top_of (m_ranges m) <= n * (B + 6 * m_align m) ->
  (n + N.of_nat (length h)) * (B + 6 * m_align m) < two64 ->
  all_roomy m h.
Proof.
  induction h as [|c h IH]; intros m n I F HB HM Ht Hn; [exact Logic.I|].
  inversion F as [|? ? Hc Fh]; subst.
  assert (R : roomy m c).
  { intros k Hk.
    assert (k <= B).
    { destruct Hk as [->|(e & He & _ & ->)]; [apply HB; now left|auto]. }
    assert (top_of (filter (fun e => negb (overlapb (as_call e) c)) (m_ranges m)) <= top_of (m_ranges m)).
    { apply top_le. intros e He. apply filter_In in He. now apply top_in. }
    cbn [length] in Hn. nia. }
  split; [exact R|]. intros m' E.
  destruct (step_spec m c I Hc R) as (m1 & E1 & I1 & A1 & P1 & k & Hk & T1).
  assert (m1 = m') by congruence. subst m1.
  assert (HkB : k <= B).
  { destruct Hk as [->|(e & He & ->)]; [apply HB; now left|auto]. }
  apply (IH m' (n + 1)); auto.
  - intros d Hd. apply HB. now right.
  - intros e He. apply (call_perm_in _ _ _ P1) in He. destruct He as [He|He].
    + assert (c_size c = r_size e) by exact (f_equal c_size He).
      specialize (HB c (or_introl eq_refl)). lia.
    + apply in_flat_map in He as (f & Hf & He). apply in_map_iff in Hf as (g & <- & Hg).
      specialize (HM g Hg). unfold cut in He.
      destruct (negb (overlapb (as_call g) c)).
      * destruct He as [He|[]]. assert (r_size g = r_size e) by exact (f_equal c_size He). lia.
      * destruct ((_ && _) && _) eqn:S; [|easy]. unfold c_end in *. cbn in S.
        apply in_app_or in He as [He|He]; destruct (_ <? _) eqn:L in He; try easy;
          destruct He as [He|[]]; pose proof (f_equal c_size He) as X; cbn in X; cbn in L; lia.
  - rewrite A1. nia.
  - rewrite A1. cbn [length] in Hn. nia.
Qed.

(** Without permission for unaligned splits the call does the same when it succeeds. *)
Theorem aligned_same m real size id off m' :
  map_with_id m real size id off false = Ok (true, m') ->
  map_with_id m real size id off true = Ok (true, m').
Proof.
  unfold map_with_id. destruct (bad_range real size); auto.
  destruct (candidates m real size) as [c| | | |]; cbn [obind]; auto.
  destruct (collect c real size None []) as ([o|] & dels); auto.
  unfold split_over. cbn [negb andb m_align m_ranges].
  match goal with |- context [if ?b then Ok (false, _) else _] => destruct b end; [easy|auto].
Qed.

(** * Statements used by the property file *)

Lemma fresh_inv a : align_ok a -> Inv (mkMapper [] a).
Proof. intros Ha. now apply (new_mapper_inv a _ Ha (new_mapper_ok a Ha)). Qed.

Theorem fits_roomy a h : align_ok a -> Forall call_ok h -> history_fits a h ->
  all_roomy (mkMapper [] a) h.
Proof.
  intros Ha F (B & HB & Hn). apply (bounded_roomy B h (mkMapper [] a) 0); auto.
  - now apply fresh_inv.
  - easy.
  - cbn. lia.
Qed.

Theorem history_lookup a h m x :
  align_ok a -> Forall call_ok h -> all_roomy (mkMapper [] a) h ->
  run_calls (mkMapper [] a) h = Some m -> x < two64 ->
  option_map (fun '(_, i, o) => (i, o)) (get_mapped m x) = resolve (pieces h) x.
Proof.
  intros Ha F R E Hx. destruct (run_spec h _ (fresh_inv a Ha) F R) as (m' & E' & I & _ & P).
  assert (m' = m) by congruence. subst. now apply lookup_spec.
Qed.

Theorem history_succeeds a h :
  align_ok a -> Forall call_ok h -> all_roomy (mkMapper [] a) h ->
  exists m, run_calls (mkMapper [] a) h = Some m.
Proof.
  intros Ha F R. destruct (run_spec h _ (fresh_inv a Ha) F R) as (m' & E' & _). eauto.
Qed.

Theorem history_not_stale a h m x mx i o :
  align_ok a -> Forall call_ok h -> all_roomy (mkMapper [] a) h ->
  run_calls (mkMapper [] a) h = Some m -> x < two64 -> get_mapped m x = Some (mx, i, o) ->
  exists c, last_covering h x = Some c /\ i = c_id c /\ o = (x - c_start c + c_off c) mod two64.
Proof.
  intros Ha F R E Hx G. pose proof (history_lookup a h m x Ha F R E Hx) as L. rewrite G in L.
  cbn in L. unfold resolve in L. destruct (find (in_callb x) (pieces h)) as [d|] eqn:Fd; [|easy].
  apply find_some in Fd as (Hd & Hb).
  destruct (pieces_latest h F d x Hd) as (_ & c & Lc & Ei & Eo).
  { unfold in_callb, in_call in *. lia. }
  exists c. split; auto. injection L as -> ->. auto.
Qed.

Theorem history_untouched a h1 c h2 m x :
  align_ok a -> Forall call_ok (h1 ++ c :: h2) -> all_roomy (mkMapper [] a) (h1 ++ c :: h2) ->
  run_calls (mkMapper [] a) (h1 ++ c :: h2) = Some m -> x < two64 ->
  (forall d, In d h2 -> ~ overlap c d) -> in_call x c ->
  exists mx, get_mapped m x = Some (mx, c_id c, (x - c_start c + c_off c) mod two64).
Proof.
  intros Ha F R E Hx Hd Hc.
  destruct (run_spec _ _ (fresh_inv a Ha) F R) as (m' & E' & I & _ & P).
  assert (m' = m) by congruence. subst m'. cbn [m_ranges map] in P.
  change (fold_left pieces_step (h1 ++ c :: h2) []) with (pieces (h1 ++ c :: h2)) in P.
  pose proof (lookup_spec m _ x I P Hx) as L.
  rewrite (resolve_in m _ x c I P (pieces_untouched h1 c h2 Hd) Hc) in L.
  destruct (get_mapped m x) as [((mx & i) & o)|]; [|easy]. cbn in L. injection L as -> ->. eauto.
Qed.

Theorem history_injective a h m x y mx i o my i' o' :
  align_ok a -> Forall call_ok h -> all_roomy (mkMapper [] a) h ->
  run_calls (mkMapper [] a) h = Some m -> x < two64 -> y < two64 -> x <> y ->
  get_mapped m x = Some (mx, i, o) -> get_mapped m y = Some (my, i', o') -> mx <> my.
Proof.
  intros Ha F R E. destruct (run_spec h _ (fresh_inv a Ha) F R) as (m' & E' & I & _ & P).
  assert (m' = m) by congruence. subst. intros Hx Hy Hn Ex Ey.
  exact (mapped_injective m x y mx i o my i' o' I Hx Hy Hn Ex Ey).
Qed.

Theorem history_page_offset a h m x mx i o :
  align_ok a -> a <> 0 -> Forall call_ok h -> all_roomy (mkMapper [] a) h ->
  run_calls (mkMapper [] a) h = Some m -> x < two64 ->
  get_mapped m x = Some (mx, i, o) -> mx < two64 /\ mx mod a = x mod a.
Proof.
  intros Ha Hn F R E Hx G. destruct (run_spec h _ (fresh_inv a Ha) F R) as (m' & E' & I & A & P).
  assert (m' = m) by congruence. subst. cbn in A. split.
  - apply get_mapped_some in G as (e & _ & ? & -> & ?); auto. unfold max64, two64 in *. lia.
  - rewrite <- A. eapply mapped_page_offset; eauto. now rewrite A.
Qed.

Theorem history_distance a h m c x y mx i o my i' o' :
  align_ok a -> Forall call_ok h -> all_roomy (mkMapper [] a) h ->
  run_calls (mkMapper [] a) h = Some m -> x <= y -> y < two64 ->
  In c (pieces h) -> in_call x c -> in_call y c ->
  get_mapped m x = Some (mx, i, o) -> get_mapped m y = Some (my, i', o') -> my = mx + (y - x).
Proof.
  intros Ha F R E Hxy Hy Hc Cx Cy Ex Ey.
  destruct (run_spec h _ (fresh_inv a Ha) F R) as (m' & E' & I & _ & P).
  assert (m' = m) by congruence. subst.
  eapply (mapped_same_piece m (pieces h) c x y); eauto. lia.
Qed.

Theorem rejects_empty_or_wrapping m real size id off u :
  size = 0 \/ (real < two64 /\ size < two64 /\ two64 < real + size) ->
  map_with_id m real size id off u = Ok (false, m).
Proof.
  intros H. unfold map_with_id. replace (bad_range real size) with true; auto.
  symmetry. unfold bad_range, last_addr, w64, sub64, two64, max64 in *. lia.
Qed.
