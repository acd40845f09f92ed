From Coq Require Import String.
From Verif Require Import Base BytesModel TextModel TextProofs Assoc ProfileModel BuilderModel BuilderSpec.
Local Open Scope N_scope.
Local Open Scope list_scope.

(** * Association lists *)
Lemma list_eqb_eq a : forall b, list_eqb a b = true <-> a = b.
Proof.
  induction a as [|x a IH]; intros [|y b]; cbn [list_eqb]; split; intros H; try easy.
  - apply andb_prop in H. destruct H as [H1 H2]. apply N.eqb_eq in H1. apply IH in H2. now subst.
  - injection H as -> ->. rewrite N.eqb_refl. now apply IH.
Qed.

Lemma tuple4_eqb_eq x y : tuple4_eqb x y = true <-> x = y.
Proof.
  destruct x as [[[a b] c] d], y as [[[a' b'] c'] d']. unfold tuple4_eqb.
  rewrite !andb_true_iff, !Z.eqb_eq. split.
  - intros [[[-> ->] ->] ->]. reflexivity.
  - intros E. injection E. tauto.
Qed.

Lemma mem_by_N i l : mem_by N.eqb i l = true <-> In i l.
Proof.
  unfold mem_by. rewrite existsb_exists. split.
  - intros (x & H & E). apply N.eqb_eq in E. now subst.
  - intros H. exists i. split; [exact H|apply N.eqb_refl].
Qed.

Lemma mem_by_Z i l : mem_by Z.eqb i l = true <-> In i l.
Proof.
  unfold mem_by. rewrite existsb_exists. split.
  - intros (x & H & E). apply Z.eqb_eq in E. now subst.
  - intros H. exists i. split; [exact H|apply Z.eqb_refl].
Qed.

Lemma mem_by_N_false i l : mem_by N.eqb i l = false <-> ~ In i l.
Proof. rewrite <- mem_by_N. destruct (mem_by N.eqb i l); intuition congruence. Qed.

(** * Invariant of the tables *)
Record tables (b : builder) : Prop := {
  tb_first : nth_error (pf_string (b_profile b)) 0 = Some [];
  tb_strings : forall s i, aget list_eqb s (b_strings b) = Some i ->
    (1 <= i)%Z /\ nth_error (pf_string (b_profile b)) (Z.to_nat i) = Some s;
  tb_functions : forall t i, aget tuple4_eqb t (b_functions b) = Some i ->
    (1 <= i)%Z /\ nth_error (pf_function (b_profile b)) (Z.to_nat (i - 1)) =
      Some {| fn_id := Z.to_N i; fn_name := fst (fst (fst t)); fn_sys := snd (fst (fst t));
              fn_file := snd (fst t); fn_start := snd t |};
  tb_ids : forall k f, nth_error (pf_function (b_profile b)) k = Some f ->
    fn_id f = N.of_nat k + 1 }.

(** Monotonicity: tables only grow, recorded ids stay. *)
Record grows (b b' : builder) : Prop := {
  gr_str : exists t, pf_string (b_profile b') = pf_string (b_profile b) ++ t;
  gr_fun : exists t, pf_function (b_profile b') = pf_function (b_profile b) ++ t;
  gr_smap : forall s i, aget list_eqb s (b_strings b) = Some i -> aget list_eqb s (b_strings b') = Some i;
  gr_fmap : forall s i, aget tuple4_eqb s (b_functions b) = Some i -> aget tuple4_eqb s (b_functions b') = Some i }.

Lemma grows_refl b : grows b b.
Proof. constructor; try tauto; exists []; now rewrite app_nil_r. Qed.

Lemma grows_trans a b c : grows a b -> grows b c -> grows a c.
Proof.
  intros [[t1 H1] [u1 H2] H3 H4] [[t2 H5] [u2 H6] H7 H8]. constructor; auto.
  - exists (t1 ++ t2). now rewrite H5, H1, app_assoc.
  - exists (u1 ++ u2). now rewrite H6, H2, app_assoc.
Qed.

Lemma nth_error_len_some {A} (l : list A) k x : nth_error l k = Some x -> (k < List.length l)%nat.
Proof. intros H. apply nth_error_Some. now rewrite H. Qed.

Lemma internal_string_id_spec b s b' i :
  tables b -> internal_string_id b s = (b', i) ->
  tables b' /\ grows b b' /\ aget list_eqb s (b_strings b') = Some i /\
  pf_function (b_profile b') = pf_function (b_profile b) /\ b_functions b' = b_functions b.
Proof.
  intros T. unfold internal_string_id, aemplace.
  destruct (aget list_eqb s (b_strings b)) as [v|] eqn:E; intros H; injection H as <- <-.
  - split; [exact T|]. split; [apply grows_refl|]. auto.
  - assert (L : (0 < List.length (pf_string (b_profile b)))%nat).
    { apply (nth_error_len_some _ _ _ (tb_first _ T)). }
    split; [|split; [|split]]; cbn.
    + destruct T as [T1 T2 T3 T4]. constructor; cbn -[nth_error].
      * rewrite nth_error_app1 by exact L. exact T1.
      * intros s0 i0. destruct (list_eqb s0 s) eqn:Es.
        -- apply list_eqb_eq in Es. subst. intros H. injection H as <-. split; [lia|].
           rewrite Nat2Z.id. rewrite nth_error_app2 by lia. now rewrite Nat.sub_diag.
        -- intros H. destruct (T2 _ _ H) as [H1 H2]. split; [exact H1|].
           rewrite nth_error_app1; [exact H2|]. now apply nth_error_len_some in H2.
      * exact T3.
      * exact T4.
    + constructor; cbn; auto.
      * exists [s]. reflexivity.
      * exists []. now rewrite app_nil_r.
      * intros s0 i0 H. destruct (list_eqb s0 s) eqn:Es; [|exact H].
        apply list_eqb_eq in Es. subst. congruence.
    + assert (X : list_eqb s s = true) by now apply list_eqb_eq. now rewrite X.
    + auto.
Qed.

Lemma string_id_spec b s b' i :
  tables b -> string_id b s = (b', i) ->
  tables b' /\ grows b b' /\
  ((s = [] /\ i = 0%Z) \/ (s <> [] /\ aget list_eqb s (b_strings b') = Some i)) /\
  pf_function (b_profile b') = pf_function (b_profile b) /\ b_functions b' = b_functions b.
Proof.
  intros T. destruct s as [|c s].
  - cbn. intros H. injection H as <- <-. split; [exact T|]. split; [apply grows_refl|]. auto.
  - intros H. apply internal_string_id_spec in H; [|exact T].
    destruct H as (H1 & H2 & H3 & H4 & H5). repeat (split; auto). right. split; [discriminate|exact H3].
Qed.

Lemma string_id_value b s b' i :
  tables b -> string_id b s = (b', i) -> (0 <= i)%Z /\ nth_error (pf_string (b_profile b')) (Z.to_nat i) = Some s.
Proof.
  intros T H. apply string_id_spec in H; [|exact T]. destruct H as (H1 & H2 & H3 & _).
  destruct H3 as [[-> ->]|[Hs H3]].
  - split; [lia|]. exact (tb_first _ H1).
  - destruct (tb_strings _ H1 _ _ H3) as [A B]. split; [lia|exact B].
Qed.

Lemma string_id_again b s b' i b2 :
  tables b -> string_id b s = (b', i) -> grows b' b2 -> string_id b2 s = (b2, i).
Proof.
  intros T H G. apply string_id_spec in H; [|exact T]. destruct H as (H1 & H2 & H3 & _).
  destruct H3 as [[-> ->]|[Hs H3]]; [reflexivity|].
  destruct s as [|c s]; [easy|]. cbn [string_id]. unfold internal_string_id, aemplace.
  now rewrite (gr_smap _ _ G _ _ H3).
Qed.

Lemma function_id_spec b n s f l b' i :
  tables b -> function_id b n s f l = (b', i) ->
  tables b' /\ grows b b' /\
  exists b1 b2 ni si fi,
    string_id b n = (b1, ni) /\ string_id b1 s = (b2, si) /\ tables b1 /\ tables b2 /\
    grows b1 b2 /\
    (exists b3, string_id b2 f = (b3, fi) /\ grows b2 b3 /\ tables b3 /\ grows b3 b') /\
    aget tuple4_eqb (ni, si, fi, l) (b_functions b') = Some i.
Proof.
  intros T. unfold function_id.
  destruct (string_id b n) as [b1 ni] eqn:E1.
  destruct (string_id b1 s) as [b2 si] eqn:E2.
  destruct (string_id b2 f) as [b3 fi] eqn:E3.
  destruct (string_id_spec _ _ _ _ T E1) as (T1 & G1 & V1 & _).
  destruct (string_id_spec _ _ _ _ T1 E2) as (T2 & G2 & V2 & _).
  destruct (string_id_spec _ _ _ _ T2 E3) as (T3 & G3 & V3 & _).
  unfold aemplace.
  assert (G : grows b b3) by (eapply grows_trans; [|exact G3]; eapply grows_trans; eassumption).
  destruct (aget tuple4_eqb (ni, si, fi, l) (b_functions b3)) as [v|] eqn:E; intros H; injection H as <- <-.
  - split; [exact T3|]. split; [exact G|].
    exists b1, b2, ni, si, fi.
    refine (conj eq_refl (conj E2 (conj T1 (conj T2 (conj G2 (conj _ E)))))).
    exists b3. exact (conj E3 (conj G3 (conj T3 (grows_refl _)))).
  - set (fs := pf_function (b_profile b3)).
    match goal with |- tables ?x /\ _ => set (b4 := x) end.
    assert (G4 : grows b3 b4).
    { constructor; cbn; auto.
      - exists []. now rewrite app_nil_r.
      - eexists. reflexivity.
      - intros t j H. change (aget tuple4_eqb t (((ni, si, fi, l), (Z.of_nat (List.length fs) + 1)%Z) :: b_functions b3) = Some j).
        cbn [aget]. destruct (tuple4_eqb t (ni, si, fi, l)) eqn:Et; [|exact H].
        apply tuple4_eqb_eq in Et. subst t. congruence. }
    split; [|split].
    + destruct T3 as [A1 A2 A3 A4]. constructor; cbn -[Z.of_nat nth_error].
      * exact A1.
      * exact A2.
      * intros t j. change (aget tuple4_eqb t (((ni, si, fi, l), (Z.of_nat (List.length fs) + 1)%Z) :: b_functions b3) = Some j -> 
          (1 <= j)%Z /\ nth_error (fs ++ [{| fn_id := Z.to_N (Z.of_nat (List.length fs) + 1); fn_name := ni; fn_sys := si; fn_file := fi; fn_start := l |}]) (Z.to_nat (j - 1)) =
          Some {| fn_id := Z.to_N j; fn_name := fst (fst (fst t)); fn_sys := snd (fst (fst t)); fn_file := snd (fst t); fn_start := snd t |}).
        cbn [aget]. destruct (tuple4_eqb t (ni, si, fi, l)) eqn:Et.
        -- apply tuple4_eqb_eq in Et. subst t. intros H. injection H as <-. split; [lia|].
           rewrite nth_error_app2 by lia.
           replace (Z.to_nat (Z.of_nat (List.length fs) + 1 - 1) - List.length fs)%nat with O by lia.
           reflexivity.
        -- intros H. destruct (A3 _ _ H) as [H1 H2]. split; [exact H1|].
           rewrite nth_error_app1; [exact H2|]. now apply nth_error_len_some in H2.
      * intros k g H. fold fs in H. destruct (Nat.lt_ge_cases k (List.length fs)) as [Hk|Hk].
        -- rewrite nth_error_app1 in H by exact Hk. now apply A4.
        -- rewrite nth_error_app2 in H by exact Hk.
           destruct (k - List.length fs)%nat as [|m] eqn:Em.
           ++ cbn in H. injection H as <-. cbn. lia.
           ++ destruct m; discriminate.
    + eapply grows_trans; eassumption.
    + exists b1, b2, ni, si, fi.
      refine (conj eq_refl (conj E2 (conj T1 (conj T2 (conj G2 (conj _ _)))))).
      * exists b3. exact (conj E3 (conj G3 (conj T3 G4))).
      * unfold b4. cbn -[Z.of_nat tuple4_eqb].
        assert (X : tuple4_eqb (ni, si, fi, l) (ni, si, fi, l) = true) by now apply tuple4_eqb_eq.
        now rewrite X.
Qed.

Lemma tables0 : tables builder0.
Proof. constructor; cbn; try easy. intros [|k] f; discriminate. Qed.

Lemma finalize_keeps b :
  pf_string (b_profile (fst (finalize b))) = pf_string (b_profile b) /\
  pf_function (b_profile (fst (finalize b))) = pf_function (b_profile b) /\
  b_strings (fst (finalize b)) = b_strings b /\ b_functions (fst (finalize b)) = b_functions b.
Proof.
  unfold finalize. destruct (b_error b); [easy|]. cbn.
  unfold assign_mappings, create_locations.
  destruct (pf_location (b_profile b)).
  - destruct (intern_samples [] [] (pf_sample (b_profile b))); cbn.
    destruct (pf_mapping (b_profile b)); cbn; auto.
  - destruct (pf_mapping (b_profile b)); cbn; auto.
Qed.

Lemma same_tables b b' :
  pf_string (b_profile b') = pf_string (b_profile b) ->
  pf_function (b_profile b') = pf_function (b_profile b) ->
  b_strings b' = b_strings b -> b_functions b' = b_functions b ->
  tables b -> tables b' /\ grows b b'.
Proof.
  intros E1 E2 E3 E4 [T1 T2 T3 T4]. split; constructor; rewrite ?E1, ?E2, ?E3, ?E4; auto;
  exists []; now rewrite app_nil_r.
Qed.

Lemma bstep_inv b o : tables b -> op_ok o -> tables (bstep b o) /\ grows b (bstep b o).
Proof.
  intros T Ho. destruct o as [s|n s f l|u|f|]; cbn [bstep].
  - destruct (string_id b s) as [b' i] eqn:E. apply string_id_spec in E; [|exact T]. tauto.
  - destruct (function_id b n s f l) as [b' i] eqn:E. apply function_id_spec in E; [|exact T]. tauto.
  - unfold set_url. destruct (negb _ && _ && _).
    + apply same_tables; auto.
    + destruct (internal_string_id b u) as [b1 i] eqn:E.
      apply internal_string_id_spec in E; [|exact T]. destruct E as (T1 & G1 & _).
      destruct (same_tables b1 (with_profile b1 (set_doc_url i (b_profile b1)))) as [A B]; auto.
      split; [exact A|]. eapply grows_trans; eassumption.
  - cbn in Ho. destruct (Ho (b_profile b)) as [H1 H2]. apply same_tables; auto.
  - destruct (finalize_keeps b) as (H1 & H2 & H3 & H4). now apply same_tables.
Qed.

Lemma brun_inv os : forall b, tables b -> Forall op_ok os -> tables (brun b os) /\ grows b (brun b os).
Proof.
  induction os as [|o os IH]; intros b T H; cbn.
  - split; [exact T|apply grows_refl].
  - inversion H as [|? ? H1 H2]; subst. destruct (bstep_inv b o T H1) as [T' G'].
    destruct (IH _ T' H2) as [T'' G'']. split; [exact T''|]. eapply grows_trans; eassumption.
Qed.

Lemma reachable_tables b : reachable b -> tables b.
Proof. intros (os & H & ->). now apply brun_inv; [apply tables0|]. Qed.

Lemma later_inv b b' : tables b -> later b b' -> tables b' /\ grows b b'.
Proof. intros T (os & H & ->). now apply brun_inv. Qed.

(** * C14 *)
Lemma first_string_empty b : reachable b -> string_at b 0 = Some [].
Proof. intros H. exact (tb_first _ (reachable_tables _ H)). Qed.

Lemma string_id_denotes b s b' i :
  reachable b -> string_id b s = (b', i) -> string_at b' i = Some s.
Proof.
  intros R H. destruct (string_id_value _ _ _ _ (reachable_tables _ R) H) as [A B].
  unfold string_at. rewrite (proj2 (Z.leb_le 0 i)) by lia. exact B.
Qed.

Lemma string_at_later b b' i s :
  reachable b -> later b b' -> string_at b i = Some s -> string_at b' i = Some s.
Proof.
  intros R L. destruct (later_inv b b' (reachable_tables _ R) L) as [T G].
  unfold string_at. destruct (0 <=? i)%Z; [|easy]. intros H.
  destruct (gr_str _ _ G) as [t ->]. rewrite nth_error_app1; [exact H|].
  now apply nth_error_len_some in H.
Qed.

Lemma reachable_string b s b' i : reachable b -> string_id b s = (b', i) -> reachable b'.
Proof.
  intros (os & H & ->) E. exists (os ++ [BString s]). split.
  - apply Forall_app. split; [exact H|]. constructor; [exact I|constructor].
  - unfold brun. rewrite fold_left_app. cbn. fold (brun builder0 os). now rewrite E.
Qed.

Lemma reachable_later b b' : reachable b -> later b b' -> reachable b'.
Proof.
  intros (os & H & ->) (os' & H' & ->). exists (os ++ os'). split.
  - now apply Forall_app.
  - unfold brun. now rewrite fold_left_app.
Qed.

Lemma string_ids_agree b s b1 i b2 t b3 j :
  reachable b -> string_id b s = (b1, i) -> later b1 b2 -> string_id b2 t = (b3, j) ->
  (i = j <-> s = t).
Proof.
  intros R E1 L E2.
  assert (R1 := reachable_string _ _ _ _ R E1).
  assert (R2 := reachable_later _ _ R1 L).
  destruct (later_inv _ _ (reachable_tables _ R1) L) as [T2 G2].
  split; intros E.
  - subst j.
    assert (H1 := string_id_denotes _ _ _ _ R E1).
    assert (H2 := string_id_denotes _ _ _ _ R2 E2).
    apply (string_at_later _ _ _ _ R1 L) in H1.
    assert (L3 : later b2 b3).
    { exists [BString t]. split; [constructor; [exact I|constructor]|]. cbn. now rewrite E2. }
    apply (string_at_later _ _ _ _ R2 L3) in H1. congruence.
  - subst t. rewrite (string_id_again _ _ _ _ _ (reachable_tables _ R) E1 G2) in E2. congruence.
Qed.


Record distinct (b : builder) : Prop := {
  di_tables : tables b;
  di_noempty : aget list_eqb [] (b_strings b) = None;
  di_complete : forall k s, nth_error (pf_string (b_profile b)) (S k) = Some s ->
    aget list_eqb s (b_strings b) = Some (Z.of_nat (S k)) }.

Lemma distinct_nodup b : distinct b -> NoDup (pf_string (b_profile b)).
Proof.
  intros [T E C]. apply NoDup_nth_error. intros i j Hi H.
  destruct (nth_error (pf_string (b_profile b)) i) as [s|] eqn:Ei.
  2:{ apply nth_error_None in Ei. lia. }
  symmetry in H. destruct i as [|i], j as [|j].
  - reflexivity.
  - apply C in H. rewrite (tb_first _ T) in Ei. injection Ei as <-. congruence.
  - apply C in Ei. rewrite (tb_first _ T) in H. injection H as <-. congruence.
  - apply C in H. apply C in Ei. rewrite H in Ei. injection Ei. lia.
Qed.

Lemma internal_distinct b s : distinct b -> s <> [] -> distinct (fst (internal_string_id b s)).
Proof.
  intros [T E C] Hs. destruct (internal_string_id b s) as [b' i] eqn:H.
  assert (H' := H). apply internal_string_id_spec in H'; [|exact T]. destruct H' as (T' & _).
  cbn. unfold internal_string_id, aemplace in H.
  destruct (aget list_eqb s (b_strings b)) as [v|] eqn:Es; injection H as <- <-.
  - constructor; assumption.
  - constructor; [exact T'| |]; cbn -[nth_error].
    + destruct s as [|c s]; [easy|]. exact E.
    + intros k t H.
      destruct (Nat.lt_ge_cases (S k) (List.length (pf_string (b_profile b)))) as [Hk|Hk].
      * rewrite nth_error_app1 in H by exact Hk. apply C in H.
        destruct (list_eqb t s) eqn:Et; [|exact H]. apply list_eqb_eq in Et. congruence.
      * rewrite nth_error_app2 in H by exact Hk.
        destruct (S k - List.length (pf_string (b_profile b)))%nat as [|m] eqn:Em.
        -- cbn in H. injection H as <-.
           assert (X : list_eqb s s = true) by now apply list_eqb_eq. rewrite X. f_equal. lia.
        -- destruct m; discriminate.
Qed.

Lemma string_distinct b s : distinct b -> distinct (fst (string_id b s)).
Proof. intros D. destruct s; [exact D|]. now apply internal_distinct. Qed.

Lemma same_distinct b b' :
  pf_string (b_profile b') = pf_string (b_profile b) -> tables b' ->
  b_strings b' = b_strings b -> distinct b -> distinct b'.
Proof. intros E1 T E2 [_ E C]. constructor; rewrite ?E1, ?E2; auto. Qed.

Lemma bstep_distinct b o : distinct b -> op_ok o -> no_empty_url o -> distinct (bstep b o).
Proof.
  intros D Ho Hu. assert (T := di_tables _ D). destruct o as [s|n s f l|u|f|]; cbn [bstep].
  - now apply string_distinct.
  - destruct (function_id b n s f l) as [b' i] eqn:E.
    assert (T' := proj1 (function_id_spec _ _ _ _ _ _ _ T E)).
    unfold function_id in E. cbn.
    assert (D1 := string_distinct b n D). destruct (string_id b n) as [b1 ni].
    assert (D2 := string_distinct b1 s D1). cbn [fst] in *. destruct (string_id b1 s) as [b2 si].
    assert (D3 := string_distinct b2 f D2). cbn [fst] in *. destruct (string_id b2 f) as [b3 fi].
    cbn [fst] in *.
    destruct (aemplace _ _ _ _) as [[m v] []]; injection E as <- <-; [|exact D3].
    eapply same_distinct; [| |  |exact D3]; auto.
  - assert (T' := proj1 (bstep_inv b (BUrl u) T I)). cbn [bstep] in T'.
    unfold set_url in *. destruct (negb _ && _ && _).
    + eapply same_distinct; [| | |exact D]; auto.
    + assert (X : u <> []) by (intros ->; exact Hu). assert (D1 := internal_distinct b u D X).
      destruct (internal_string_id b u) as [b1 i].
      eapply same_distinct; [| | |exact D1]; auto.
  - assert (T' := proj1 (bstep_inv b (BEdit f) T Ho)). cbn [bstep] in T'.
    eapply same_distinct; [| | |exact D]; auto. exact (proj1 (Ho _)).
  - assert (T' := proj1 (bstep_inv b BFinalize T I)). cbn [bstep] in T'.
    destruct (finalize_keeps b) as (H1 & H2 & H3 & H4).
    eapply same_distinct; [| | |exact D]; auto.
Qed.

Lemma string_table_nodup os :
  Forall op_ok os -> Forall no_empty_url os -> NoDup (pf_string (b_profile (brun builder0 os))).
Proof.
  intros H1 H2. apply distinct_nodup.
  assert (D : distinct builder0).
  { constructor; [apply tables0|reflexivity|]. intros [|k] s; discriminate. }
  unfold brun. clear - H1 H2 D. revert D. generalize builder0.
  induction os as [|o os IH]; intros b D; [exact D|].
  cbn. inversion H1; inversion H2; subst. apply IH; auto. now apply bstep_distinct.
Qed.

(** * C15 *)
Lemma function_id_denotes b n s f l b' i :
  reachable b -> function_id b n s f l = (b', i) ->
  exists g, function_at b' i = Some g /\ fn_id g = Z.to_N i /\
    string_at b' (fn_name g) = Some n /\ string_at b' (fn_sys g) = Some s /\
    string_at b' (fn_file g) = Some f /\ fn_start g = l.
Proof.
  intros R H. assert (T := reachable_tables _ R).
  destruct (function_id_spec _ _ _ _ _ _ _ T H)
    as (T' & G & b1 & b2 & ni & si & fi & E1 & E2 & T1 & T2 & G12 & (b3 & E3 & G23 & T3 & G3') & A).
  destruct (tb_functions _ T' _ _ A) as [Hi Hg]. cbn [fst snd] in Hg.
  eexists. split.
  { unfold function_at. rewrite (proj2 (Z.leb_le 1 i)) by lia. exact Hg. }
  cbn [fn_id fn_name fn_sys fn_file fn_start]. split; [reflexivity|].
  assert (X : forall c d x j, grows c d -> (0 <= j)%Z /\ nth_error (pf_string (b_profile c)) (Z.to_nat j) = Some x ->
              string_at d j = Some x).
  { intros c d x j Gc [Hj Hx]. unfold string_at. rewrite (proj2 (Z.leb_le 0 j)) by lia.
    destruct (gr_str _ _ Gc) as [t ->]. rewrite nth_error_app1; [exact Hx|].
    now apply nth_error_len_some in Hx. }
  split; [|split; [|split]]; [| | |reflexivity].
  - apply (X b1). { eapply grows_trans; [exact G12|]. eapply grows_trans; eassumption. }
    eapply string_id_value; [|exact E1]. exact T.
  - apply (X b2). { eapply grows_trans; eassumption. } eapply string_id_value; [|exact E2]. exact T1.
  - apply (X b3). { assumption. } eapply string_id_value; [|exact E3]. exact T2.
Qed.

Lemma function_at_later b b' i g :
  reachable b -> later b b' -> function_at b i = Some g -> function_at b' i = Some g.
Proof.
  intros R L. destruct (later_inv b b' (reachable_tables _ R) L) as [T G].
  unfold function_at. destruct (1 <=? i)%Z; [|easy]. intros H.
  destruct (gr_fun _ _ G) as [t ->]. rewrite nth_error_app1; [exact H|].
  now apply nth_error_len_some in H.
Qed.

Lemma function_later b n s f l b' i : function_id b n s f l = (b', i) -> later b b'.
Proof.
  intros E. exists [BFunction n s f l]. split; [constructor; [exact I|constructor]|]. cbn. now rewrite E.
Qed.

Lemma function_ids_agree b n s f l b1 i b2 n' s' f' l' b3 j :
  reachable b -> function_id b n s f l = (b1, i) -> later b1 b2 ->
  function_id b2 n' s' f' l' = (b3, j) ->
  (i = j <-> (n, s, f, l) = (n', s', f', l')).
Proof.
  intros R E1 L E2. assert (L1 := function_later _ _ _ _ _ _ _ E1).
  assert (R1 := reachable_later _ _ R L1).
  assert (R2 := reachable_later _ _ R1 L).
  assert (L3 := function_later _ _ _ _ _ _ _ E2).
  split; intros E.
  - subst j. destruct (function_id_denotes _ _ _ _ _ _ _ R E1) as (g & A1 & A2 & A3 & A4 & A5 & A6).
    destruct (function_id_denotes _ _ _ _ _ _ _ R2 E2) as (g' & B1 & B2 & B3 & B4 & B5 & B6).
    apply (function_at_later _ _ _ _ R1 L) in A1. apply (function_at_later _ _ _ _ R2 L3) in A1.
    rewrite A1 in B1. injection B1 as <-.
    apply (string_at_later _ _ _ _ R1 L) in A3, A4, A5. apply (string_at_later _ _ _ _ R2 L3) in A3, A4, A5.
    congruence.
  - injection E as <- <- <- <-.
    destruct (function_id_spec _ _ _ _ _ _ _ (reachable_tables _ R) E1)
    as (T' & G & c1 & c2 & ni & si & fi & F1 & F2 & T1 & T2 & G12 & (c3 & F3 & G23 & T3 & G3') & A).
    destruct (later_inv _ _ T' L) as [T2' GL].
    unfold function_id in E2.
    assert (X1 : grows c3 b2) by (eapply grows_trans; eassumption).
    assert (X2 : grows c2 b2) by (eapply grows_trans; eassumption).
    assert (X3 : grows c1 b2) by (eapply grows_trans; eassumption).
    rewrite (string_id_again _ _ _ _ _ (reachable_tables _ R) F1 X3) in E2.
    rewrite (string_id_again _ _ _ _ _ T1 F2 X2) in E2.
    rewrite (string_id_again _ _ _ _ _ T2 F3 X1) in E2.
    unfold aemplace in E2. rewrite (gr_fmap _ _ GL _ _ A) in E2. congruence.
Qed.

Lemma function_ids_dense b :
  reachable b -> map fn_id (pf_function (b_profile b)) =
    map (fun k => N.of_nat k + 1) (seq 0 (List.length (pf_function (b_profile b)))).
Proof.
  intros R. assert (H := tb_ids _ (reachable_tables _ R)). clear R. revert H.
  generalize (pf_function (b_profile b)). intros l H.
  assert (G : forall l k, (forall i f, nth_error l i = Some f -> fn_id f = N.of_nat (k + i) + 1) ->
             map fn_id l = map (fun k => N.of_nat k + 1) (seq k (List.length l))).
  { clear. induction l as [|f l IH]; intros k H; [reflexivity|]. cbn. f_equal.
    - rewrite (H O f eq_refl). f_equal. f_equal. lia.
    - apply IH. intros i g Hg. rewrite (H (S i) g Hg). f_equal. f_equal. lia. }
  apply (G l O). intros i f Hf. now apply H.
Qed.
