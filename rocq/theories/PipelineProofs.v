(** C62: the messages on their way through the reader's operations and the huge
    pages, and the totals. *)
From Coq Require Import String Permutation.
From Verif Require Import Base BytesModel TextModel Assoc PerfProto NormalizerModel NormalizerProofs NormalizerProps.
From Verif Require FileModel SerializerModel AttrModel ReaderOpsModel ReaderOpsSpec ReaderOpsProps HugePageModel
  ParserModel ConverterModel ConverterSpec.
From Verif Require Import PipelineModel PipelineSpec PipelineHugeProofs PipelineCallProofs.
Import SerializerModel.
Local Open Scope N_scope.
Local Open Scope list_scope.

(** ** Numbering *)

Lemma numbered_from {A B} (f : nat -> A -> B) (l : list A) : forall n,
  map (fun p => f (fst p) (snd p)) (combine (List.seq n (List.length l)) l) =
  match l with [] => [] | x :: r => f n x :: map (fun p => f (fst p) (snd p)) (combine (List.seq (S n) (List.length r)) r) end.
Proof. destruct l; reflexivity. Qed.
Lemma numbered_nth {A B} (f : nat -> A -> B) (l : list A) : forall n i,
  nth_error (map (fun p => f (fst p) (snd p)) (combine (List.seq n (List.length l)) l)) i =
  option_map (f (n + i)%nat) (nth_error l i).
Proof.
  induction l as [|x l IH]; intros n i; [destruct i; reflexivity|].
  cbn [List.length List.seq combine map fst snd]. destruct i as [|i]; cbn [nth_error option_map].
  - now rewrite Nat.add_0_r.
  - rewrite IH. now rewrite <- Nat.add_succ_comm.
Qed.
Lemma numbered_at {A B} (f : nat -> A -> B) (l : list A) i :
  nth_error (numbered f l) i = option_map (f i) (nth_error l i).
Proof. unfold numbered. now rewrite numbered_nth. Qed.
Lemma numbered_in {A B} (f : nat -> A -> B) (l : list A) y :
  In y (numbered f l) -> exists i x, nth_error l i = Some x /\ y = f i x.
Proof.
  intros I. apply In_nth_error in I as (i & E). rewrite numbered_at in E.
  destruct (nth_error l i) as [x|] eqn:X; [|discriminate]. injection E as <-. eauto.
Qed.
Lemma numbered_back {A B} (f : nat -> A -> B) (g : B -> A) (l : list A) :
  (forall i x, nth_error l i = Some x -> g (f i x) = x) -> map g (numbered f l) = l.
Proof.
  intros H. unfold numbered. rewrite map_map.
  assert (G : forall n (k : list A), (forall i x, nth_error k i = Some x -> g (f (n + i)%nat x) = x) ->
            map (fun p => g (f (fst p) (snd p))) (combine (List.seq n (List.length k)) k) = k).
  { clear. intros n k. revert n. induction k as [|x k IH]; intros n H; [reflexivity|].
    cbn [List.length List.seq combine map fst snd]. f_equal.
    - specialize (H O x eq_refl). now rewrite Nat.add_0_r in H.
    - apply IH. intros i y E. rewrite (Nat.add_succ_comm n i). exact (H (S i) y E). }
  exact (G O l H).
Qed.

(** ** Arranging *)

Definition back (xs : list x_event) (r : ReaderOpsModel.revent) : x_event := nth (place r) xs nothing.
Lemma back_view xs i x : nth_error xs i = Some x -> back xs (reader_view i x) = x.
Proof.
  intros E. unfold back, place, reader_view. cbn [ReaderOpsModel.rv_rest hd]. rewrite Nat2N.id.
  now apply nth_error_nth.
Qed.
Lemma back_time xs r : In r (numbered reader_view xs) -> xe_time (back xs r) = ReaderOpsModel.rv_time r.
Proof. intros I. apply numbered_in in I as (i & x & E & ->). now rewrite (back_view _ _ _ E). Qed.

Lemma map_filter_in {A B} (g : A -> B) (p : A -> bool) (q : B -> bool) l :
  (forall a, In a l -> q (g a) = p a) -> filter q (map g l) = map g (filter p l).
Proof.
  induction l as [|a l IH]; intros H; [reflexivity|]. cbn [map filter]. rewrite (H a) by now left.
  rewrite IH by (intros b I; apply H; now right). now destruct (p a).
Qed.
Lemma split_two {A} (l : list A) i j a b : (i < j)%nat -> nth_error l i = Some a -> nth_error l j = Some b ->
  exists l1 l2 l3, l = l1 ++ a :: l2 ++ b :: l3.
Proof.
  intros L E1 E2. apply nth_error_split in E1 as (l1 & r & -> & L1).
  rewrite nth_error_app2 in E2 by lia. destruct (j - List.length l1)%nat as [|k] eqn:K; [lia|]. cbn [nth_error] in E2.
  apply nth_error_split in E2 as (l2 & l3 & -> & _). eauto.
Qed.

Lemma arrange_ok st ids xs ys bs : arrange st ids xs = (ys, bs) -> arranged st xs ys.
Proof.
  unfold arrange.
  set (p0 := ReaderOpsModel.mkRProto _ _ _ _ _).
  destruct (ReaderOpsModel.inject_build_ids ids p0) as (ok, p1) eqn:I.
  set (p2 := ReaderOpsModel.alternate_build_id_filenames kernel_names p1). intros H. injection H as <- _.
  assert (E1 : ReaderOpsModel.rp_events p1 = numbered reader_view xs /\
               ReaderOpsModel.rp_sample_types p1 = ReaderOpsModel.rp_sample_types p0).
  { unfold ReaderOpsModel.inject_build_ids in I.
    destruct (ReaderOpsModel.inject_existing _ _) as (o1, b1). destruct o1.
    - destruct (ReaderOpsModel.inject_new _ _ _) as (o2, b2). injection I as _ <-. split; reflexivity.
    - injection I as _ <-. split; reflexivity. }
  destruct E1 as (E1 & T1).
  assert (E2 : ReaderOpsModel.rp_events p2 = numbered reader_view xs) by exact E1.
  assert (T2 : ReaderOpsModel.rp_sample_types p2 = ReaderOpsModel.rp_sample_types p0) by exact T1.
  assert (A : ReaderOpsSpec.all_record_time p2 <-> all_timed st).
  { unfold ReaderOpsSpec.all_record_time, all_timed. rewrite T2. cbn [p0 ReaderOpsModel.rp_sample_types].
    rewrite Forall_forall. split.
    - intros F a Ia. apply F. apply in_map_iff. exists a. split; [reflexivity|exact Ia].
    - intros F t It. apply in_map_iff in It as (a & <- & Ia). exact (F a Ia). }
  destruct (forallb (fun st => N.testbit st 2) (ReaderOpsModel.rp_sample_types p2)) eqn:FB.
  - assert (R : ReaderOpsSpec.all_record_time p2).
    { unfold ReaderOpsSpec.all_record_time. rewrite Forall_forall. now rewrite forallb_forall in FB. }
    left. destruct (ReaderOpsProps.C36_sorted p2 R) as (S1 & S2 & S3 & _).
    set (q := ReaderOpsModel.rp_events (ReaderOpsModel.sort_events_by_time p2)) in *. rewrite E2 in S2, S3.
    split; [now apply A|]. fold (back xs).
    assert (IN : forall r, In r q -> In r (numbered reader_view xs)).
    { intros r Ir. apply (Permutation_in r) with (2 := Ir). now apply Permutation_sym. }
    split; [|split].
    + rewrite <- (numbered_back reader_view (back xs) xs (back_view xs)) at 1. now apply Permutation_map.
    + intros i j x y L Ei Ej. rewrite nth_error_map in Ei, Ej.
      destruct (nth_error q i) as [r|] eqn:Ri; [|discriminate]. destruct (nth_error q j) as [r'|] eqn:Rj; [|discriminate].
      injection Ei as <-. injection Ej as <-.
      rewrite !back_time by (apply IN; eapply nth_error_In; eassumption).
      destruct (split_two q i j r r' L Ri Rj) as (l1 & l2 & l3 & E). exact (S1 _ _ _ _ _ E).
    + intros t. unfold at_time.
      rewrite (map_filter_in (back xs) (fun r => ReaderOpsModel.rv_time r =? t))
        by (intros r Ir; now rewrite back_time by now apply IN).
      rewrite <- (S3 t). rewrite <- (numbered_back reader_view (back xs) xs (back_view xs)) at 3.
      symmetry. apply map_filter_in. intros r Ir. now rewrite back_time.
  - right. split.
    + intros T. apply A in T. unfold ReaderOpsSpec.all_record_time in T. rewrite Forall_forall in T.
      assert (forallb (fun st => N.testbit st 2) (ReaderOpsModel.rp_sample_types p2) = true) by now apply forallb_forall.
      congruence.
    + unfold ReaderOpsModel.sort_events_by_time. rewrite FB, E2. apply numbered_back. apply back_view.
Qed.
Lemma arranged_perm st xs ys : arranged st xs ys -> Permutation xs ys.
Proof. intros [(_ & H & _)|(_ & ->)]; auto. Qed.

(** ** Huge pages *)

Definition plain (xm : x_event * option HugePageModel.vmap) : bool := match snd xm with None => true | Some _ => false end.

Section Digest.
Variable md5 : list N -> N.

Lemma huge_pages_ok order xs evs : huge_pages md5 order xs = Ok evs ->
  filter plain evs = map (fun x => (x, None)) (others xs) /\
  forall x m, In (x, m) evs -> In x xs /\ (is_map x = negb (plain (x, m))).
Proof.
  unfold huge_pages. intros H. ok_inv H. ok_inv H0. injection H as <-.
  set (bk := fun e : HugePageModel.pevent => (nth (N.to_nat (HugePageModel.e_other e)) xs nothing, HugePageModel.e_map e)).
  assert (K := deduce_kin _ _ _ E). unfold HugePageModel.combine_mappings in E0.
  assert (B : forall e, In e (numbered (huge_view md5) xs) ->
              In (fst (bk e)) xs /\ no_map e = negb (is_map (fst (bk e)))).
  { intros e I. apply numbered_in in I as (i & x & X & ->). unfold bk, huge_view. cbn [fst HugePageModel.e_other].
    rewrite Nat2N.id, (nth_error_nth _ _ _ X). split; [eapply nth_error_In; eauto|].
    unfold no_map, is_map. cbn [HugePageModel.e_map]. now destruct (xe_body x). }
  split.
  - change (filter plain (map bk a0) = map (fun x => (x, None)) (others xs)).
    rewrite (map_filter_in bk no_map) by reflexivity.
    rewrite (combine_no_map _ _ _ _ E0). cbn [filter app]. rewrite (kin_no_map _ _ K).
    rewrite <- (numbered_back (huge_view md5) (fun e => fst (bk e)) xs) at 2.
    + unfold others. rewrite (map_filter_in (fun e => fst (bk e)) no_map) by (intros e I; symmetry; now apply B).
      rewrite map_map. apply map_ext_in. intros e I. apply filter_In in I as (I & M).
      unfold bk. cbn [fst]. f_equal. unfold no_map in M. now destruct (HugePageModel.e_map e).
    + intros i x X. unfold bk, huge_view. cbn [fst HugePageModel.e_other]. rewrite Nat2N.id. now apply nth_error_nth.
  - intros x m I. apply in_map_iff in I as (e' & X & I).
    destruct (combine_from _ _ _ _ E0 e' I) as (e1 & I1 & K1). cbn [app] in I1.
    assert (exists e, In e (numbered (huge_view md5) xs) /\ kin e e1) as (e & Ie & K0).
    { clear - K I1. induction K as [|y z l l' Kyz K IH]; [contradiction|]. destruct I1 as [<-|I1].
      - exists y. split; [now left|exact Kyz].
      - destruct (IH I1) as (w & Iw & Kw). exists w. split; [now right|exact Kw]. }
    destruct (B e Ie) as (B1 & B2).
    assert (K2 : kin e e') by (eapply kin_trans; eauto).
    assert (O : HugePageModel.e_other e' = HugePageModel.e_other e) by (destruct K2 as [->|(_ & _ & O)]; auto).
    assert (M : no_map e' = no_map e).
    { destruct K2 as [->|(M1 & M2 & _)]; auto. unfold no_map.
      destruct (HugePageModel.e_map e); [|congruence]. now destruct (HugePageModel.e_map e'). }
    unfold bk in X. assert (X1 : x = fst (bk e)) by (unfold bk; cbn [fst]; rewrite <- O; congruence).
    assert (X2 : m = HugePageModel.e_map e') by congruence.
    rewrite X1. split; [exact B1|]. cbn [plain snd]. rewrite X2. change (plain (x, HugePageModel.e_map e')) with (no_map e').
    rewrite <- X1. unfold plain. cbn [snd]. fold (no_map e'). rewrite M, B2, <- X1. now rewrite negb_involutive.
Qed.

(** ** Totals *)

(** The samples an event stands for, by its message. *)
Variable base : list N -> N.
Definition msg_briefs (e : nenv) (x : x_event) : list brief := event_briefs e (proto_event md5 base (x, None)).

Lemma map_briefs_none e x : is_map x = true -> msg_briefs e x = [].
Proof. unfold is_map, msg_briefs, event_briefs, proto_event. cbn [fst snd ev_what]. destruct (xe_body x); easy. Qed.
Lemma others_briefs e xs : flat_map (msg_briefs e) (others xs) = flat_map (msg_briefs e) xs.
Proof.
  induction xs as [|x xs IH]; [reflexivity|]. cbn [others filter flat_map]. fold (others xs).
  destruct (is_map x) eqn:M; cbn [negb]; [rewrite (map_briefs_none e x M); exact IH|]. cbn [flat_map]. now rewrite IH.
Qed.
Lemma events_briefs e evs :
  flat_map (event_briefs e) (map (proto_event md5 base) evs) = flat_map (fun xm => msg_briefs e (fst xm)) (filter plain evs).
Proof.
  induction evs as [|(x, m) evs IH]; [reflexivity|]. cbn [map flat_map filter plain snd].
  destruct m as [m|]; cbn [fst flat_map]; [exact IH|]. now rewrite IH.
Qed.
Lemma flat_map_perm {A B} (f : A -> list B) l l' : Permutation l l' -> Permutation (flat_map f l) (flat_map f l').
Proof.
  induction 1; cbn [flat_map]; auto.
  - now apply Permutation_app_head.
  - rewrite !app_assoc. apply Permutation_app_tail, Permutation_app_comm.
  - eapply Permutation_trans; eauto.
Qed.
Lemma filter_perm {A} (f : A -> bool) l l' : Permutation l l' -> Permutation (filter f l) (filter f l').
Proof.
  induction 1; cbn [filter]; auto.
  - destruct (f x); auto.
  - destruct (f x), (f y); auto. apply perm_swap.
  - eapply Permutation_trans; eauto.
Qed.
Lemma sum_perm l l' : Permutation l l' -> ConverterSpec.sum l = ConverterSpec.sum l'.
Proof. unfold ConverterSpec.sum. induction 1; cbn [fold_right]; lia. Qed.

Lemma has_spe_none xs evs : no_spe xs -> (forall x m, In (x, m) evs -> In x xs) ->
  has_spe (map (proto_event md5 base) evs) = false.
Proof.
  intros N0 I. unfold has_spe. destruct (existsb _ _) eqn:X; [|reflexivity]. exfalso.
  apply existsb_exists in X as (pe & Ip & T). apply in_map_iff in Ip as ((x, m) & <- & Ix).
  unfold proto_event in T. cbn [fst snd ev_what] in T. destruct m; [discriminate|].
  destruct (xe_body x) eqn:Bd; try discriminate T. apply (N0 x m (I _ _ Ix) Bd). now apply N.eqb_eq.
Qed.
End Digest.

(** Events by id. *)
Lemma last_with_bound id l : forall n i, last_with id n l = Some i -> (n <= i < n + List.length l)%nat.
Proof.
  induction l as [|k l IH]; intros n i H; cbn [last_with List.length] in *; [discriminate|].
  destruct (last_with id (S n) l) as [j|] eqn:L; [injection H as <-; apply IH in L; lia|].
  destruct (existsb _ k); [injection H as <-; lia|discriminate].
Qed.
Lemma last_with_some id l : forall n i k, nth_error l i = Some k -> In id k ->
  (forall j k', (i < j)%nat -> nth_error l j = Some k' -> ~ In id k') -> last_with id n l = Some (n + i)%nat.
Proof.
  induction l as [|k0 l IH]; intros n i k E I Last; [destruct i; discriminate|]. cbn [last_with].
  destruct i as [|i].
  - injection E as ->. assert (last_with id (S n) l = None) as ->.
    { assert (forall j k', nth_error l j = Some k' -> ~ In id k') as NI by (intros j k' J; apply (Last (S j)); [lia|exact J]).
      clear - NI. revert n. generalize (S O). intros _. induction l as [|k l IH]; intros n; [reflexivity|]. cbn [last_with].
      rewrite IH by (intros j k' J; exact (NI (S j) k' J)).
      destruct (existsb (N.eqb id) k) eqn:X; [|reflexivity]. exfalso. apply existsb_exists in X as (y & Iy & Ey).
      apply N.eqb_eq in Ey. subst. exact (NI O k eq_refl Iy). }
    assert (existsb (N.eqb id) k = true) as ->.
    { apply existsb_exists. exists id. split; [exact I|apply N.eqb_refl]. }
    f_equal. lia.
  - rewrite (IH (S n) i k E I); [f_equal; lia|]. intros j k' J. intros E'. apply (Last (S j)); [lia|exact E'].
Qed.
Lemma last_with_none id l : (forall k, In k l -> ~ In id k) -> forall n, last_with id n l = None.
Proof.
  induction l as [|k l IH]; intros H n; [reflexivity|]. cbn [last_with]. rewrite IH by (intros k' I; apply H; now right).
  destruct (existsb (N.eqb id) k) eqn:X; [|reflexivity]. exfalso. apply existsb_exists in X as (y & Iy & Ey).
  apply N.eqb_eq in Ey. subst. apply (H k); [now left|exact Iy].
Qed.

Definition with_id (id : option N) : sample_ev :=
  {| s_ip := 0; s_pid := None; s_tid := None; s_time := None; s_addr := None; s_id := id; s_period := 0; s_cpu := None;
     s_callchain := []; s_branch := []; s_weight := None; s_wstruct := None; s_data_src := None; s_cgroup := None;
     s_data_page := None; s_code_page := None |}.
Lemma index_event p e id : normalizer_env p = Ok e ->
  id_index e id = match event_of (map fa_ids (pp_attrs p)) id with Some j => Z.of_nat j | None => (-1)%Z end.
Proof.
  intros He. pose proof (C22_event_of_sample p e (with_id id) He) as H. rewrite event_index_id in H. cbn [with_id s_id] in H.
  assert (G : forall k, id = Some k ->
    (id_index e id = (-1)%Z /\ forall a, In a (pp_attrs p) -> ~ In k (fa_ids a)) \/
    (exists i a, id_index e id = Z.of_nat i /\ nth_error (pp_attrs p) i = Some a /\ In k (fa_ids a) /\
       forall j b, (i < j)%nat -> nth_error (pp_attrs p) j = Some b -> ~ In k (fa_ids b)) ->
    id_index e id = match last_with k 0 (map fa_ids (pp_attrs p)) with Some j => Z.of_nat j | None => (-1)%Z end).
  { intros k _ [(-> & Nn)|(i & a & -> & A1 & A2 & A3)].
    - rewrite last_with_none; [reflexivity|]. intros l Il. apply in_map_iff in Il as (a & <- & Ia). now apply Nn.
    - rewrite (last_with_some k (map fa_ids (pp_attrs p)) 0 i (fa_ids a)); auto.
      + now rewrite nth_error_map, A1.
      + intros j l J E. rewrite nth_error_map in E. destruct (nth_error (pp_attrs p) j) as [b|] eqn:B; [|discriminate].
        injection E as <-. now apply (A3 j). }
  unfold event_of. destruct (pp_attrs p) as [|a [|b r]]; cbn [map].
  - destruct id as [k|]; [|exact H]. exact (G k eq_refl H).
  - exact H.
  - destruct id as [k|]; [|exact H]. exact (G k eq_refl H).
Qed.
Lemma event_of_bound ids id j : event_of ids id = Some j -> (j < List.length ids)%nat.
Proof.
  unfold event_of. destruct ids as [|l [|l' r]].
  - destruct id; [|discriminate]. intros H. apply last_with_bound in H. cbn in *. lia.
  - intros H. injection H as <-. cbn. lia.
  - destruct id; [|discriminate]. intros H. apply last_with_bound in H. cbn [List.length] in *. lia.
Qed.
