(** Proofs about names and about combining mappings. *)
From Coq Require Import String.
From Verif Require Import Base BytesModel TextModel TextProofs Assoc HugePageModel HugePageSpec.
Local Open Scope N_scope.
Local Open Scope list_scope.

(** * Names *)

Lemma leqb_eq a b : list_eqb a b = true <-> a = b.
Proof.
  revert b. induction a as [|x a IH]; intros [|y b]; cbn; try easy.
  rewrite andb_true_iff, N.eqb_eq, IH. split; [intros (-> & ->); reflexivity|injection 1; auto].
Qed.

Lemma starts_with_app p s : starts_with p s = true <-> exists r, s = p ++ r.
Proof.
  revert s. induction p as [|x p IH]; intros s; cbn.
  - split; [eauto|reflexivity].
  - destruct s as [|y s]; [split; [discriminate|intros (r & H); discriminate H]|].
    rewrite andb_true_iff, N.eqb_eq, IH. split.
    + intros (-> & r & ->). eauto.
    + intros (r & H). injection H as -> ->. eauto.
Qed.

Lemma rfind_some c s n : rfind_char c s = Some n -> s = firstn n s ++ c :: skipn (S n) s /\ ~ In c (skipn (S n) s).
Proof.
  revert n. induction s as [|x s IH]; intros n; cbn [rfind_char]; [discriminate|].
  destruct (rfind_char c s) as [k|] eqn:E.
  - intros H. injection H as <-. destruct (IH k eq_refl) as (A & B). cbn [firstn skipn app]. split; [now f_equal|exact B].
  - destruct (N.eqb_spec x c) as [->|]; [|discriminate]. intros H. injection H as <-. cbn. split; [reflexivity|].
    clear IH. revert E. induction s as [|y s IH]; cbn; [tauto|]. destruct (rfind_char c s); [discriminate|].
    destruct (N.eqb_spec y c); [discriminate|]. intros _ [H|H]; [congruence|]. now apply IH.
Qed.

Lemma rfind_app c d r : ~ In c r -> rfind_char c (d ++ c :: r) = Some (List.length d).
Proof.
  intros H. induction d as [|x d IH]; cbn.
  - assert (E : rfind_char c r = None).
    { induction r as [|y r IH]; cbn; [reflexivity|]. rewrite IH by (intros X; apply H; now right).
      destruct (N.eqb_spec y c); [exfalso; apply H; now left|reflexivity]. }
    rewrite E, N.eqb_refl. reflexivity.
  - now rewrite IH.
Qed.

Lemma find_str_some p s n : find_str p s = Some n -> exists r, s = firstn n s ++ p ++ r.
Proof.
  revert n. induction s as [|x s IH]; intros n; cbn [find_str].
  - destruct (starts_with p []) eqn:E; [|discriminate]. intros H. injection H as <-.
    apply starts_with_app in E. exact E.
  - destruct (starts_with p (x :: s)) eqn:E.
    + intros H. injection H as <-. apply starts_with_app in E. exact E.
    + destruct (find_str p s) as [k|]; [|discriminate]. intros H. injection H as <-.
      destruct (IH k eq_refl) as (r & R). exists r. cbn. now f_equal.
Qed.

Lemma find_str_first p a r : exists n, find_str p (a ++ p ++ r) = Some n /\ (n <= List.length a)%nat.
Proof.
  induction a as [|x a IH].
  - exists 0%nat. split; [|cbn; lia].
    assert (E : starts_with p (p ++ r) = true) by (apply starts_with_app; eauto).
    destruct (p ++ r) eqn:EQ; cbn [find_str app]; rewrite ?EQ, E; reflexivity.
  - destruct IH as (n & E & L). cbn [app find_str]. destruct (starts_with p (x :: a ++ p ++ r)).
    + exists 0%nat. split; [reflexivity|lia].
    + rewrite E. exists (S n). split; [reflexivity|cbn; lia].
Qed.

Lemma skipn_app_len {A} (a b : list A) : skipn (List.length a) (a ++ b) = b.
Proof. rewrite skipn_app, skipn_all, Nat.sub_diag. reflexivity. Qed.

Lemma huge_iff m : is_huge m = true <-> huge_name (v_file m).
Proof.
  unfold is_huge, huge_name, is_anon. set (f := v_file m).
  destruct (list_eqb f (str "//anon") || list_eqb f (str "/anon_hugepage") || list_eqb f (str "/anon_hugepage (deleted)")) eqn:A.
  { split; [intros _|reflexivity]. rewrite !orb_true_iff, !leqb_eq in A. tauto. }
  rewrite !orb_false_iff in A. destruct A as ((A1 & A2) & A3).
  assert (B : forall s, list_eqb f s = false -> f <> s).
  { intros s E ->. rewrite (proj2 (leqb_eq s s) eq_refl) in E. discriminate E. }
  apply B in A1, A2, A3. clear B. split.
  - intros H. right. right. right. destruct (rfind_char 47 f) as [n|] eqn:R; [|discriminate H].
    destruct (rfind_some _ _ _ R) as (E & NI). unfold find_str_from in H.
    destruct (find_str (str ".buildid_") (skipn n f)) as [d|] eqn:FS; [|discriminate H]. cbn [option_map] in H.
    destruct (find_str_some _ _ _ FS) as (y & Y).
    assert (SK : skipn n f = 47 :: skipn (S n) f).
    { assert (L : List.length (firstn n f) = n).
      { apply firstn_length_le. destruct (le_lt_dec n (List.length f)) as [L|L]; [exact L|].
        rewrite (skipn_all2 f) in NI by lia. exfalso.
        assert (X : List.length f = List.length (firstn n f ++ 47 :: skipn (S n) f)) by now rewrite <- E.
        rewrite app_length, (firstn_all2 f) in X by lia. cbn in X. lia. }
      rewrite E at 1. rewrite <- L at 1. apply skipn_app_len. }
    assert (LN : List.length (firstn n f) = n).
    { apply firstn_length_le. destruct (le_lt_dec n (List.length f)) as [L|L]; [exact L|].
      rewrite (skipn_all2 f) in SK by lia. discriminate SK. }
    rewrite SK in Y. clear FS SK. revert E NI Y. generalize (skipn (S n) f). intros t E NI Y.
    destruct d as [|d].
    { cbn in Y. discriminate Y. }
    cbn [firstn app] in Y. injection Y as Y.
    change (t = firstn d t ++ str ".buildid_" ++ y) in Y. exists (firstn n f), (firstn d t), y.
    split; [|split; [|split]].
    + rewrite E at 1. change (str "/") with [47]. cbn [app]. f_equal. f_equal. exact Y.
    + intros ->. apply Nat.ltb_lt in H.
      assert (X : List.length f = (n + 1 + List.length t)%nat).
      { rewrite E at 1. rewrite app_length, LN. cbn [List.length]. lia. }
      rewrite Y in X. rewrite !app_length in X. change (List.length (str ".buildid_")) with 9%nat in X.
      assert (L2 : (List.length (firstn d t) <= d)%nat) by apply firstn_le_length. cbn [List.length] in X.
      lia.
    + intros HI. apply NI. rewrite Y. apply in_or_app. left. exact HI.
    + intros HI. apply NI. rewrite Y. apply in_or_app. right. apply in_or_app. right. exact HI.
  - intros [H|[H|[H|H]]]; try contradiction. destruct H as (dir & x & y & E & NE & NX & NY).
    assert (R : rfind_char 47 f = Some (List.length dir)).
    { rewrite E. change (str "/") with [47]. cbn [app]. apply rfind_app. intros HI.
      apply in_app_or in HI. destruct HI as [HI|HI]; [tauto|]. apply in_app_or in HI. destruct HI as [HI|HI]; [|tauto].
      cbn in HI. repeat (destruct HI as [HI|HI]; [discriminate HI|]). exact HI. }
    rewrite R. unfold find_str_from. rewrite E at 1. rewrite skipn_app_len.
    destruct (find_str_first (str ".buildid_") (str "/" ++ x) y) as (n & FN & L). rewrite <- app_assoc in FN. rewrite FN.
    cbn [option_map]. apply Nat.ltb_lt. rewrite E. rewrite !app_length. change (List.length (str ".buildid_")) with 9%nat.
    rewrite app_length in L. destruct y; [contradiction|]. cbn [List.length] in *. lia.
Qed.

Lemma huge_file a b : v_file a = v_file b -> is_huge a = is_huge b.
Proof. intros H. unfold is_huge, is_anon. now rewrite H. Qed.

Lemma anon_huge m : is_anon m = true -> is_huge m = true.
Proof. intros H. unfold is_huge. now rewrite H. Qed.

(** * Combining *)

Lemma maps_app k a b : maps_of k (a ++ b) = maps_of k a ++ maps_of k b.
Proof. unfold maps_of. apply flat_map_app. Qed.

Definition fitm (m : vmap) : Prop := v_start m + v_len m < 2 ^ 64.

(** The mappings [ms] and their combination [ns] agree on every address. *)
Definition agree (ms ns : list vmap) : Prop :=
  forall a, match find (fun m => coversb m a) (rev ms) with
  | None => find (fun m => coversb m a) (rev ns) = None
  | Some m => exists m', find (fun m => coversb m a) (rev ns) = Some m' /\
                (is_huge m = false -> v_file m' = v_file m /\ offset m' a = offset m a)
  end.

Lemma agree_app ms ns m : agree ms ns -> agree (ms ++ [m]) (ns ++ [m]).
Proof.
  intros H a. rewrite !rev_app_distr. cbn [rev app find]. destruct (coversb m a).
  - exists m. auto.
  - apply H.
Qed.

Definition merged (a b : vmap) : vmap :=
  set_len (w64 (v_len a + v_len b))
    (if is_huge a && negb (is_huge b)
     then set_build (or_else (v_build b) (v_build a)) (set_file (v_file b) (v_md5 b) (set_pgoff (sub64 (v_pgoff b) (v_len a)) a))
     else a).

Lemma merge_into_map ea a b : e_map ea = Some a -> e_map (merge_into ea a b) = Some (merged a b).
Proof. intros H. unfold merge_into, merged. destruct (is_huge a && negb (is_huge b)); reflexivity. Qed.

Lemma merge_into_rest ea a b :
  e_time (merge_into ea a b) = e_time ea /\ e_other (merge_into ea a b) = e_other ea.
Proof. unfold merge_into. destruct (is_huge a && negb (is_huge b)); split; reflexivity. Qed.

Lemma merged_same a b : same_object a (merged a b).
Proof. unfold merged, same_object. destruct (is_huge a && negb (is_huge b)); repeat split. Qed.

Lemma same_object_trans a b c : same_object a b -> same_object b c -> same_object a c.
Proof. unfold same_object. intros H1 H2. repeat match goal with H : _ /\ _ |- _ => destruct H end. repeat split; congruence. Qed.

Lemma same_key a b : same_object a b -> key_of b = key_of a.
Proof. intros (H & _). unfold key_of. now rewrite H. Qed.

Lemma find_snoc {A} (f : A -> bool) l x : find f (rev (l ++ [x])) = if f x then Some x else find f (rev l).
Proof. rewrite rev_app_distr. reflexivity. Qed.

Lemma merge_step ms ns a b :
  agree ms (ns ++ [a]) -> mergeable a b = true -> fitm a -> fitm b ->
  fitm (merged a b) /\ agree (ms ++ [b]) (ns ++ [merged a b]).
Proof.
  intros H M FA FB. unfold mergeable in M. rewrite !andb_true_iff in M. destruct M as (((((_ & _) & EF) & _) & FC) & VC).
  unfold vma_contiguous in VC. rewrite andb_true_iff, !N.eqb_eq in VC. destruct VC as (_ & VC).
  unfold fitm in *. assert (W : w64 (v_start a + v_len a) = v_start a + v_len a).
  { unfold w64, two64. apply N.mod_small. change (2 ^ 64) with 18446744073709551616 in FA. exact FA. }
  rewrite W in VC.
  assert (WL : w64 (v_len a + v_len b) = v_len a + v_len b).
  { unfold w64, two64. apply N.mod_small. change (2 ^ 64) with 18446744073709551616 in FB. lia. }
  assert (ST : v_start (merged a b) = v_start a) by apply merged_same.
  assert (LN : v_len (merged a b) = v_len a + v_len b) by exact WL.
  split; [rewrite ST, LN; lia|].
  intros x. specialize (H x). rewrite !find_snoc in *.
  assert (CV : coversb (merged a b) x = coversb a x || coversb b x).
  { unfold coversb. rewrite ST, LN. clear - VC.
    destruct (N.leb_spec (v_start a) x), (N.ltb_spec x (v_start a + (v_len a + v_len b))),
      (N.ltb_spec x (v_start a + v_len a)), (N.leb_spec (v_start b) x), (N.ltb_spec x (v_start b + v_len b)); cbn; lia. }
  rewrite CV. destruct (coversb b x) eqn:CB; [rewrite orb_true_r|rewrite orb_false_r].
  - exists (merged a b). split; [reflexivity|]. intros NB. unfold merged. rewrite NB. cbn [negb].
    unfold coversb in CB. rewrite andb_true_iff, N.leb_le, N.ltb_lt in CB. destruct CB as (CB1 & CB2).
    destruct (is_huge a) eqn:HA; cbn [andb].
    + split; [reflexivity|]. unfold offset. cbn [v_pgoff v_start set_len set_build set_file set_pgoff].
      unfold sub64, two64. change (2 ^ 64) with 18446744073709551616 in *.
      rewrite N.add_mod_idemp_l by discriminate.
      replace (v_pgoff b + 18446744073709551616 - v_len a + (x - v_start a))
        with (v_pgoff b + (x - v_start b) + 1 * 18446744073709551616) by lia.
      now rewrite N.mod_add by discriminate.
    + unfold equivalent_file in EF. rewrite HA, NB, !orb_false_r in EF. apply leqb_eq in EF.
      split; [exact EF|]. unfold offset. cbn [v_pgoff v_start set_len].
      unfold file_contiguous in FC. assert (AB : is_anon b = false).
      { destruct (is_anon b) eqn:X; [|reflexivity]. now rewrite (anon_huge _ X) in NB. }
      rewrite AB, andb_false_r, orb_false_r, andb_true_iff, N.eqb_eq in FC. destruct FC as (FC & _).
      rewrite <- FC. unfold w64, two64. change (2 ^ 64) with 18446744073709551616.
      rewrite N.add_mod_idemp_l by discriminate. f_equal. lia.
  - destruct (coversb a x) eqn:CA.
    + destruct (find (fun m => coversb m x) (rev ms)) as [m|]; [|discriminate H].
      destruct H as (m' & E & H). injection E as <-. exists (merged a b). split; [reflexivity|]. intros NM.
      destruct (H NM) as (F & O). unfold merged.
      assert (HA : is_huge a = false) by (rewrite (huge_file a m F); exact NM). rewrite HA. cbn [andb].
      split; [exact F|exact O].
    + exact H.
Qed.

(** State of the loop: [done] are the events consumed. *)
Record combining (done out : list pevent) (prev : list (N * nat)) : Prop := {
  cb_agree : forall k, agree (maps_of k done) (maps_of k out);
  cb_fit : forall e m, In e out -> e_map e = Some m -> fitm m;
  cb_thin : thinned done out;
  cb_none : forall k, aget N.eqb k prev = None -> maps_of k out = [];
  cb_some : forall k i, aget N.eqb k prev = Some i -> exists o1 e m o2,
    out = o1 ++ e :: o2 /\ List.length o1 = i /\ e_map e = Some m /\ key_of m = k /\ maps_of k o2 = [] }.

Lemma replace_app {A} (a : list A) x y b : replace_nth (List.length a) y (a ++ x :: b) = a ++ y :: b.
Proof. induction a as [|z a IH]; cbn; [reflexivity|]. now rewrite IH. Qed.

Lemma nth_error_mid {A} (a : list A) x b : nth_error (a ++ x :: b) (List.length a) = Some x.
Proof. rewrite nth_error_app2, Nat.sub_diag by lia. reflexivity. Qed.

Lemma maps_one k e : maps_of k [e] = match e_map e with Some m => if key_of m =? k then [m] else [] | None => [] end.
Proof. unfold maps_of. cbn [flat_map]. now rewrite app_nil_r. Qed.

Lemma thinned_app a b c d : thinned a b -> thinned c d -> thinned (a ++ c) (b ++ d).
Proof. induction 1; cbn; [auto|econstructor|econstructor|econstructor]; eauto. Qed.

Lemma thinned_last_drop a b e m : thinned a b -> e_map e = Some m -> thinned (a ++ [e]) b.
Proof. intros H E. rewrite <- (app_nil_r b). apply thinned_app; [exact H|]. econstructor; [exact E|constructor]. Qed.

Lemma anon_iff m : is_anon m = true <-> anonymous (v_file m).
Proof. unfold is_anon, anonymous. rewrite !orb_true_iff, !leqb_eq. tauto. Qed.

Lemma mergeable_not_anon a b : mergeable a b = true -> ~ anonymous (v_file a).
Proof.
  intros H X. apply anon_iff in X. unfold mergeable, file_contiguous in H. rewrite X in H. cbn [negb] in H.
  rewrite !andb_true_iff, orb_true_iff, !andb_true_iff in H. destruct H as ((_ & [(_ & H)|((_ & H) & _)]) & _); discriminate H.
Qed.

Lemma thinned_change x o1 e e' m m' o2 :
  thinned x (o1 ++ e :: o2) -> e_map e = Some m -> e_map e' = Some m' -> e_time e' = e_time e -> e_other e' = e_other e ->
  ~ anonymous (v_file m) -> same_object m m' -> thinned x (o1 ++ e' :: o2).
Proof.
  intros H E E' T O NA S. remember (o1 ++ e :: o2) as y eqn:Y. revert o1 Y. induction H as [|f l l' H IH|f f' n n' l l' A B C D NB SO H IH|f n l l' A H IH]; intros o1 Y.
  - now destruct o1.
  - destruct o1 as [|g o1]; cbn in Y; injection Y as -> ->.
    + cbn. eapply thin_map; eauto.
    + cbn. apply thin_same. now apply IH.
  - destruct o1 as [|g o1]; cbn in Y; injection Y as -> ->.
    + cbn. eapply thin_map; [exact A|exact E'|congruence|congruence|exact NB| |exact H].
      assert (n' = m) by congruence. subst n'. now apply (same_object_trans n m m').
    + cbn. eapply thin_map; eauto.
  - eapply thin_drop; eauto.
Qed.

Lemma combine_inv evs : forall done out prev,
  combining done out prev -> Forall ends_in_memory evs ->
  exists res prev', combine_loop evs out prev = Ok res /\ combining (done ++ evs) res prev'.
Proof.
  induction evs as [|e evs IH]; intros done out prev C F; cbn [combine_loop].
  - exists out, prev. rewrite app_nil_r. auto.
  - inversion F as [|? ? F1 F2]; subst. change (done ++ e :: evs) with (done ++ [e] ++ evs). rewrite app_assoc.
    unfold ends_in_memory in F1.
    assert (AP : forall prev', (forall k, agree (maps_of k done) (maps_of k out)) ->
       (forall k, aget N.eqb k prev' = None -> maps_of k (out ++ [e]) = []) ->
       (forall k i, aget N.eqb k prev' = Some i -> exists o1 e0 m o2,
          out ++ [e] = o1 ++ e0 :: o2 /\ List.length o1 = i /\ e_map e0 = Some m /\ key_of m = k /\ maps_of k o2 = []) ->
       combining (done ++ [e]) (out ++ [e]) prev').
    { intros prev' A B D. constructor.
      - intros k. rewrite !maps_app. rewrite maps_one.
        destruct (e_map e) as [m|]; [|rewrite !app_nil_r; apply A].
        destruct (key_of m =? k); [apply agree_app|rewrite !app_nil_r]; apply A.
      - intros e0 m H E. apply in_app_or in H. destruct H as [H|[<-|[]]]; [exact (cb_fit _ _ _ C e0 m H E)|].
        rewrite E in F1. exact F1.
      - apply thinned_app; [exact (cb_thin _ _ _ C)|]. apply thin_same. constructor.
      - exact B.
      - exact D. }
    destruct (e_map e) as [m|] eqn:EM.
    + assert (APP : combining (done ++ [e]) (out ++ [e]) (aset (key_of m) (List.length out) prev)).
      { apply AP; [exact (cb_agree _ _ _ C)| |].
        - intros k. cbn [aset aget]. destruct (N.eqb_spec k (key_of m)) as [->|NE]; [discriminate|].
          intros H. rewrite maps_app, (cb_none _ _ _ C k H), maps_one, EM.
          destruct (N.eqb_spec (key_of m) k); [congruence|reflexivity].
        - intros k i. cbn [aset aget]. destruct (N.eqb_spec k (key_of m)) as [->|NE].
          + intros H. injection H as <-. exists out, e, m, []. repeat split. exact EM.
          + intros H. destruct (cb_some _ _ _ C k i H) as (o1 & e0 & m0 & o2 & -> & L & E0 & K0 & N0).
            exists o1, e0, m0, (o2 ++ [e]). rewrite <- app_assoc. cbn [app]. repeat split; auto.
            rewrite maps_app, N0, maps_one, EM. destruct (N.eqb_spec (key_of m) k); [congruence|reflexivity]. }
      destruct (aget N.eqb (key_of m) prev) as [i|] eqn:G; [|exact (IH _ _ _ APP F2)].
      destruct (cb_some _ _ _ C _ _ G) as (o1 & ea & a & o2 & -> & <- & EA & KA & NA).
      rewrite nth_error_mid, EA. destruct (mergeable a m) eqn:MG; [|exact (IH _ _ _ APP F2)].
      rewrite replace_app. apply IH; [|exact F2].
      pose proof (merge_into_map ea a m EA) as MM. pose proof (merge_into_rest ea a m) as (MT & MO).
      assert (KM : key_of (merged a m) = key_of a) by (apply same_key, merged_same).
      assert (FA : fitm a) by (apply (cb_fit _ _ _ C ea a); [apply in_or_app; right; now left|exact EA]).
      assert (STEP : forall ns, agree (maps_of (key_of m) done) (ns ++ [a]) ->
         fitm (merged a m) /\ agree (maps_of (key_of m) done ++ [m]) (ns ++ [merged a m])).
      { intros ns H. apply merge_step; auto. }
      assert (SHAPE : forall k x, maps_of k (o1 ++ x :: o2) = maps_of k o1 ++ maps_of k [x] ++ maps_of k o2).
      { intros k x. change (o1 ++ x :: o2) with (o1 ++ [x] ++ o2). now rewrite !maps_app. }
      pose proof (cb_agree _ _ _ C (key_of m)) as AG. rewrite SHAPE, maps_one, EA, KA, N.eqb_refl, NA, app_nil_r in AG.
      destruct (STEP _ AG) as (FM & AG').
      constructor.
      * intros k. rewrite (maps_app k done), SHAPE, !maps_one, EM, MM, KM, KA.
        destruct (N.eqb_spec (key_of m) k) as [<-|NE].
        -- rewrite NA, app_nil_r. exact AG'.
        -- rewrite app_nil_r. cbn [app]. pose proof (cb_agree _ _ _ C k) as X. rewrite SHAPE, maps_one, EA, KA in X.
           destruct (N.eqb_spec (key_of m) k); [contradiction|]. exact X.
      * intros e0 m0 H E0. apply in_app_or in H. destruct H as [H|[<-|H]].
        -- apply (cb_fit _ _ _ C e0 m0); [apply in_or_app; now left|exact E0].
        -- rewrite MM in E0. injection E0 as <-. exact FM.
        -- apply (cb_fit _ _ _ C e0 m0); [apply in_or_app; right; now right|exact E0].
      * eapply thinned_last_drop; [|exact EM]. eapply thinned_change; [exact (cb_thin _ _ _ C)|exact EA|exact MM|exact MT|exact MO| |].
        { eapply mergeable_not_anon; eauto. }
        apply merged_same.
      * intros k H. pose proof (cb_none _ _ _ C k H) as X. rewrite SHAPE, maps_one in X |- *. rewrite EA in X. rewrite MM, KM.
        destruct (key_of a =? k) eqn:Q; [|exact X]. destruct (maps_of k o1); discriminate X.
      * intros k i H. destruct (cb_some _ _ _ C k i H) as (p1 & e0 & m0 & p2 & EQ & L & E0 & K0 & N0).
        destruct (N.eqb_spec k (key_of m)) as [->|NE].
        -- rewrite G in H. injection H as <-. exists o1, (merge_into ea a m), (merged a m), o2.
           split; [reflexivity|]. split; [reflexivity|]. split; [exact MM|]. split; [rewrite KM; exact KA|exact NA].
        -- assert (NEI : i <> List.length o1).
           { intros ->. assert (X : nth_error (o1 ++ ea :: o2) (List.length o1) = nth_error (p1 ++ e0 :: p2) (List.length o1)) by now rewrite EQ.
             rewrite nth_error_mid, <- L, nth_error_mid in X. injection X as <-. congruence. }
           subst i. destruct (Nat.lt_trichotomy (List.length p1) (List.length o1)) as [LT|[X|GT]]; [|congruence|].
           ++ assert (Q : exists q, o1 = p1 ++ e0 :: q /\ p2 = q ++ ea :: o2).
              { clear - EQ LT. revert o1 EQ LT. induction p1 as [|z p1 IH]; intros [|w o1] EQ LT; cbn in *; try lia; injection EQ as -> EQ.
                - exists o1. split; [reflexivity|]. now symmetry.
                - destruct (IH o1 EQ ltac:(lia)) as (q & -> & ->). exists q. split; reflexivity. }
              destruct Q as (q & -> & ->). exists p1, e0, m0, (q ++ merge_into ea a m :: o2).
              rewrite <- app_assoc. cbn [app]. repeat split; auto.
              change (q ++ ea :: o2) with (q ++ [ea] ++ o2) in N0. change (q ++ merge_into ea a m :: o2) with (q ++ [merge_into ea a m] ++ o2).
              rewrite !maps_app, maps_one, EA in N0. rewrite !maps_app, maps_one, MM, KM.
              destruct (N.eqb_spec (key_of a) k); [congruence|exact N0].
           ++ assert (Q : exists q, p1 = o1 ++ ea :: q /\ o2 = q ++ e0 :: p2).
              { clear - EQ GT. revert p1 EQ GT. induction o1 as [|z o1 IH]; intros [|w p1] EQ GT; cbn in *; try lia; injection EQ as -> EQ.
                - exists p1. split; [reflexivity|]. exact EQ.
                - destruct (IH p1 EQ ltac:(lia)) as (q & -> & ->). exists q. split; reflexivity. }
              destruct Q as (q & -> & ->). exists (o1 ++ merge_into ea a m :: q), e0, m0, p2.
              rewrite <- app_assoc. cbn [app]. split; [reflexivity|].
              split; [rewrite !app_length; reflexivity|]. auto.
    + apply IH; [|exact F2]. apply AP; [exact (cb_agree _ _ _ C)| |].
      * intros k H. now rewrite maps_app, (cb_none _ _ _ C k H), maps_one, EM.
      * intros k i H. destruct (cb_some _ _ _ C k i H) as (o1 & e0 & m0 & o2 & -> & L & E0 & K0 & N0).
        exists o1, e0, m0, (o2 ++ [e]). rewrite <- app_assoc. cbn [app]. repeat split; auto.
        now rewrite maps_app, N0, maps_one, EM.
Qed.

Lemma combining0 : combining [] [] [].
Proof.
  constructor; [intros k a; reflexivity|intros ? ? []|constructor|reflexivity|discriminate].
Qed.

Lemma combine_ok evs :
  Forall ends_in_memory evs -> exists res, combine_mappings evs = Ok res /\ thinned evs res /\
  forall k a, match owner k a evs with
    | None => owner k a res = None
    | Some m => exists m', owner k a res = Some m' /\
        (is_huge m = false -> v_file m' = v_file m /\ offset m' a = offset m a)
    end.
Proof.
  intros F. destruct (combine_inv evs [] [] [] combining0 F) as (res & prev & E & C). exists res.
  split; [exact E|]. split; [exact (cb_thin _ _ _ C)|]. intros k. exact (cb_agree _ _ _ C k).
Qed.
