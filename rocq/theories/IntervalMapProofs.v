From Verif Require Import Base IntervalMapModel IntervalMapSpec.
Local Open Scope N_scope.

Section Proofs.
Context {V : Type}.
Implicit Types m r : imap V.

(** Sorted, disjoint, non-empty, everything at or above [lo]. *)
Fixpoint wf (lo : N) m : Prop :=
  match m with
  | [] => True
  | (s, (l, v)) :: r => lo <= s /\ s < l /\ wf l r
  end.

(** Abstract content. *)
Fixpoint content m (k : N) : option V :=
  match m with
  | [] => None
  | (s, (l, v)) :: r => if (s <=? k) && (k <? l) then Some v else content r k
  end.

Lemma wf_weaken lo lo' m : lo' <= lo -> wf lo m -> wf lo' m.
Proof. destruct m as [|[s [l v]] r]; simpl; [auto|]; intros; intuition lia. Qed.

Lemma content_below lo m k : wf lo m -> k < lo -> content m k = None.
Proof.
  revert lo; induction m as [|[s [l v]] r IH]; simpl; intros lo H Hk; [reflexivity|].
  destruct H as (H1 & H2 & H3).
  destruct ((s <=? k) && (k <? l)) eqn:E; [lia|]. apply (IH l); auto; lia.
Qed.

Lemma upper_bound_0 lo m k : wf lo m -> k < lo -> upper_bound m k = O.
Proof.
  destruct m as [|[s [l v]] r]; simpl; intros H Hk; [reflexivity|].
  destruct (N.leb_spec s k); [lia|reflexivity].
Qed.

Lemma lower_bound_0 lo m k : wf lo m -> k <= lo -> lower_bound m k = O.
Proof.
  destruct m as [|[s [l v]] r]; simpl; intros H Hk; [reflexivity|].
  destruct (N.ltb_spec s k); [lia|reflexivity].
Qed.

Lemma lower_bound_mono m a b : a <= b -> (lower_bound m a <= lower_bound m b)%nat.
Proof.
  intros Hab; induction m as [|[s lv] r IH]; simpl; [lia|].
  destruct (N.ltb_spec s a); destruct (N.ltb_spec s b); lia.
Qed.

(** GetContainingInterval, recursively. *)
Lemma get_containing_cons s l v r k lo :
  wf lo ((s, (l, v)) :: r) ->
  get_containing ((s, (l, v)) :: r) k =
    if k <? s then None
    else if k <? l then Some O
    else match get_containing r k with None => None | Some i => Some (S i) end.
Proof.
  intros (H1 & H2 & H3); unfold get_containing; cbn [upper_bound].
  destruct (N.leb_spec s k) as [Hs|Hs]; destruct (N.ltb_spec k s); try lia;
    cbn [decrement nth_error]; [|reflexivity].
  destruct (N.ltb_spec k l) as [Hl|Hl].
  - rewrite (upper_bound_0 l) by (auto; lia). cbn [nth_error].
    destruct (N.leb_spec l k); [lia|reflexivity].
  - destruct (upper_bound r k) as [|j]; cbn [decrement nth_error].
    + destruct (N.leb_spec l k); [reflexivity|lia].
    + destruct (nth_error r j) as [[s' [l' v']]|]; [|reflexivity].
      destruct (l' <=? k); reflexivity.
Qed.

Lemma im_lookup_content lo m k : wf lo m -> im_lookup m k = content m k.
Proof.
  revert lo; induction m as [|[s [l v]] r IH]; intros lo H; [reflexivity|].
  unfold im_lookup. rewrite (get_containing_cons s l v r k lo H).
  destruct H as (H1 & H2 & H3). cbn [content].
  destruct (N.ltb_spec k s); destruct (N.leb_spec s k); try lia; cbn [andb].
  - rewrite (content_below l r k); auto; lia.
  - destruct (N.ltb_spec k l); [reflexivity|].
    specialize (IH l H3). unfold im_lookup in IH.
    destruct (get_containing r k); cbn [nth_error]; exact IH.
Qed.

(** Splitting, recursively. *)
Fixpoint splitr m (p : N) : imap V :=
  match m with
  | [] => []
  | (s, (l, v)) :: r =>
      if p <=? s then m
      else if p <? l then (s, (p, v)) :: (p, (l, v)) :: r
      else (s, (l, v)) :: splitr r p
  end.

Lemma insert_front lo m s l v :
  wf lo m -> s < lo -> insert m s l v = (s, (l, v)) :: m.
Proof.
  destruct m as [|[s0 [l0 v0]] r]; simpl; intros H Hs; [reflexivity|].
  destruct (N.ltb_spec s s0); [reflexivity|lia].
Qed.

Lemma split_interval_splitr lo m p :
  wf lo m -> split_interval m (get_containing m p) p = splitr m p.
Proof.
  revert lo; induction m as [|[s [l v]] r IH]; intros lo H; [reflexivity|].
  rewrite (get_containing_cons s l v r p lo H).
  destruct H as (H1 & H2 & H3). cbn [splitr].
  destruct (N.ltb_spec p s) as [Hps|Hps].
  { destruct (N.leb_spec p s); [reflexivity|lia]. }
  destruct (N.ltb_spec p l) as [Hpl|Hpl].
  - cbn [split_interval nth_error].
    destruct (N.leb_spec p s) as [Hle|Hle]; cbn [orb]; [reflexivity|].
    destruct (N.leb_spec l p); [lia|].
    cbn [set_limit insert].
    destruct (N.ltb_spec p s); [lia|]. destruct (N.eqb_spec p s); [lia|].
    now rewrite (insert_front l) by (auto; lia).
  - destruct (N.leb_spec p s); [lia|].
    specialize (IH l H3).
    destruct (get_containing r p) as [i|]; cbn [split_interval nth_error] in *;
      [|now rewrite <- IH].
    destruct (nth_error r i) as [[s' [l' v']]|]; [|now rewrite <- IH].
    destruct ((p <=? s') || (l' <=? p)); [now rewrite <- IH|].
    cbn [set_limit insert].
    destruct (N.ltb_spec p s); [lia|]. destruct (N.eqb_spec p s); [lia|].
    now rewrite IH.
Qed.

Lemma splitr_wf lo m p : wf lo m -> wf lo (splitr m p).
Proof.
  revert lo; induction m as [|[s [l v]] r IH]; intros lo H; [exact I|].
  cbn [splitr]. destruct (N.leb_spec p s); [exact H|].
  destruct H as (H1 & H2 & H3).
  destruct (N.ltb_spec p l); cbn [wf]; repeat split; auto; try lia.
Qed.

Lemma splitr_content lo m p k : wf lo m -> content (splitr m p) k = content m k.
Proof.
  revert lo; induction m as [|[s [l v]] r IH]; intros lo H; [reflexivity|].
  cbn [splitr]. destruct (N.leb_spec p s) as [Hp|Hp]; [reflexivity|].
  destruct H as (H1 & H2 & H3).
  destruct (N.ltb_spec p l) as [Hl|Hl]; cbn [content].
  - destruct (N.leb_spec s k); destruct (N.ltb_spec k p); destruct (N.leb_spec p k);
      destruct (N.ltb_spec k l); cbn [andb]; try reflexivity; lia.
  - destruct ((s <=? k) && (k <? l)); [reflexivity|]. eapply IH; eauto.
Qed.

(** No interval strictly contains p. *)
Definition nocross m (p : N) : Prop :=
  forall s l v, In (s, (l, v)) m -> p <= s \/ l <= p.

Lemma nocross_cons s l v r p :
  nocross ((s, (l, v)) :: r) p -> (p <= s \/ l <= p) /\ nocross r p.
Proof.
  intros H; split; [eapply H; left; reflexivity|].
  intros s' l' v' Hin; eapply H; right; exact Hin.
Qed.

Lemma wf_in lo m s l v : wf lo m -> In (s, (l, v)) m -> lo <= s /\ s < l.
Proof.
  revert lo; induction m as [|[s0 [l0 v0]] r IH]; intros lo H; [intros []|].
  destruct H as (H1 & H2 & H3). intros [Heq|Hin].
  - inversion Heq; subst; auto.
  - destruct (IH l0 H3 Hin); split; lia.
Qed.

Lemma splitr_nocross lo m p : wf lo m -> nocross (splitr m p) p.
Proof.
  revert lo; induction m as [|[s [l v]] r IH]; intros lo H; [intros ? ? ? []|].
  assert (H' := H). destruct H as (H1 & H2 & H3).
  cbn [splitr]. destruct (N.leb_spec p s).
  - intros s' l' v' Hin. apply (wf_in lo _ _ _ _ H') in Hin as Hin'.
    destruct Hin as [Heq|Hin]; [inversion Heq; subst; lia|].
    apply (wf_in l _ _ _ _ H3) in Hin. lia.
  - destruct (N.ltb_spec p l).
    + intros s' l' v' [Heq|[Heq|Hin]]; try (inversion Heq; subst; lia).
      apply (wf_in l _ _ _ _ H3) in Hin. lia.
    + intros s' l' v' [Heq|Hin]; [inversion Heq; subst; lia|].
      eapply (IH l H3); eauto.
Qed.

Lemma splitr_keeps_nocross lo m p q :
  wf lo m -> nocross m q -> nocross (splitr m p) q.
Proof.
  revert lo; induction m as [|[s [l v]] r IH]; intros lo H Hq; [exact Hq|].
  destruct H as (H1 & H2 & H3). cbn [splitr].
  destruct (N.leb_spec p s); [exact Hq|].
  destruct (nocross_cons _ _ _ _ _ Hq) as [Hq1 Hq2].
  destruct (N.ltb_spec p l).
  - intros s' l' v' [Heq|[Heq|Hin]]; try (inversion Heq; subst; lia).
    eapply Hq2; eauto.
  - intros s' l' v' [Heq|Hin]; [inversion Heq; subst; lia|].
    eapply (IH l H3 Hq2); eauto.
Qed.

(** Erasing [lower_bound a, lower_bound b). *)
Definition cut m a b : imap V :=
  firstn (lower_bound m a) m ++ skipn (lower_bound m b) m.

Lemma cut_spec lo m a b :
  wf lo m -> a < b -> nocross m a -> nocross m b ->
  wf lo (cut m a b) /\
  (forall k, content (cut m a b) k =
     if (a <=? k) && (k <? b) then None else content m k) /\
  (forall s l v, In (s, (l, v)) (cut m a b) -> l <= a \/ b <= s).
Proof.
  revert lo; induction m as [|[s [l v]] r IH]; intros lo H Hab Ha Hb.
  { unfold cut; cbn. repeat split; auto; [|intros ? ? ? []].
    intros k; destruct (_ && _); reflexivity. }
  destruct H as (H1 & H2 & H3).
  destruct (nocross_cons _ _ _ _ _ Ha) as [Ha1 Ha2].
  destruct (nocross_cons _ _ _ _ _ Hb) as [Hb1 Hb2].
  destruct (IH l H3 Hab Ha2 Hb2) as (W & C & D).
  unfold cut; cbn [lower_bound].
  destruct (N.ltb_spec s a) as [Hsa|Hsa].
  - destruct (N.ltb_spec s b); [|lia].
    cbn [firstn skipn app]. fold (cut r a b). repeat split; auto.
    + intros k; cbn [content]. rewrite C.
      destruct (N.leb_spec s k); destruct (N.ltb_spec k l);
        destruct (N.leb_spec a k); destruct (N.ltb_spec k b); cbn [andb];
        try reflexivity; lia.
    + intros s' l' v' [Heq|Hin]; [inversion Heq; subst; lia|eauto].
  - cbn [firstn app].
    destruct (N.ltb_spec s b) as [Hsb|Hsb]; cbn [skipn].
    + assert (E : cut r a b = skipn (lower_bound r b) r).
      { unfold cut. rewrite (lower_bound_0 l); auto; lia. }
      rewrite <- E. repeat split; auto.
      * eapply wf_weaken; [|exact W]; lia.
      * intros k. rewrite C. cbn [content].
        destruct (N.leb_spec s k); destruct (N.ltb_spec k l);
        destruct (N.leb_spec a k); destruct (N.ltb_spec k b); cbn [andb];
        try reflexivity; lia.
    + repeat split; auto.
      * intros k. destruct (N.leb_spec a k); destruct (N.ltb_spec k b); cbn [andb];
          try reflexivity.
        change (content ((s,(l,v))::r) k = None).
        apply (content_below s); [|lia]. cbn [wf]; repeat split; auto; lia.
      * intros s' l' v' [Heq|Hin]; [inversion Heq; subst; lia|].
        apply (wf_in l _ _ _ _ H3) in Hin. lia.
Qed.

Lemma remove_interval_spec lo m a b :
  wf lo m -> a < b ->
  exists m', remove_interval m a b = Ok m' /\ wf lo m' /\
    (forall k, content m' k = if (a <=? k) && (k <? b) then None else content m k) /\
    (forall s l v, In (s, (l, v)) m' -> l <= a \/ b <= s).
Proof.
  intros H Hab. unfold remove_interval.
  destruct (N.leb_spec b a); [lia|].
  rewrite (split_interval_splitr lo m b H).
  assert (H1 := splitr_wf lo m b H).
  rewrite (split_interval_splitr lo _ a H1).
  assert (H2 := splitr_wf lo _ a H1).
  set (m2 := splitr (splitr m b) a) in *.
  unfold erase_range.
  assert (Hmono := lower_bound_mono m2 a b). 
  destruct (Nat.leb_spec (lower_bound m2 a) (lower_bound m2 b)); [|lia].
  exists (cut m2 a b). split; [reflexivity|].
  destruct (cut_spec lo m2 a b H2 Hab) as (W & C & D).
  - eapply splitr_nocross; eauto.
  - eapply splitr_keeps_nocross; eauto. eapply splitr_nocross; eauto.
  - split; [exact W|]. split; [|exact D]. intros k. rewrite C.
    unfold m2. now rewrite !(splitr_content lo).
Qed.

Lemma insert_spec lo m s l v :
  wf lo m -> lo <= s -> s < l ->
  (forall s' l' v', In (s', (l', v')) m -> l' <= s \/ l <= s') ->
  wf lo (insert m s l v) /\
  (forall k, content (insert m s l v) k =
     if (s <=? k) && (k <? l) then Some v else content m k).
Proof.
  revert lo; induction m as [|[s0 [l0 v0]] r IH]; intros lo H Hlo Hsl D.
  { cbn. repeat split; auto. }
  destruct H as (H1 & H2 & H3).
  assert (D0 : l0 <= s \/ l <= s0) by (eapply D; left; reflexivity).
  cbn [insert]. destruct (N.ltb_spec s s0).
  - split; [cbn [wf]; repeat split; auto; lia|]. intros k; reflexivity.
  - destruct (N.eqb_spec s s0); [lia|].
    destruct (IH l0 H3) as [W C]; [lia|lia| |].
    { intros s' l' v' Hin; eapply D; right; exact Hin. }
    split; [cbn [wf]; repeat split; auto; lia|].
    intros k; cbn [content]. rewrite C.
    destruct (N.leb_spec s k); destruct (N.ltb_spec k l);
      destruct (N.leb_spec s0 k); destruct (N.ltb_spec k l0); cbn [andb];
      try reflexivity; lia.
Qed.

Lemma im_set_spec m s l v :
  wf 0 m -> s < l ->
  exists m', im_set m s l v = Ok m' /\ wf 0 m' /\
    forall k, content m' k = if (s <=? k) && (k <? l) then Some v else content m k.
Proof.
  intros H Hsl. unfold im_set. destruct (N.ltb_spec s l); [|lia].
  destruct (remove_interval_spec 0 m s l H Hsl) as (m' & E & W & C & D).
  rewrite E. cbn [obind]. exists (insert m' s l v). split; [reflexivity|].
  destruct (insert_spec 0 m' s l v W) as [W' C']; auto; try lia.
  split; [exact W'|]. intros k. rewrite C', C.
  destruct ((s <=? k) && (k <? l)); reflexivity.
Qed.

Lemma im_clear_interval_spec m s l :
  wf 0 m -> s < l ->
  exists m', im_clear_interval m s l = Ok m' /\ wf 0 m' /\
    forall k, content m' k = if (s <=? k) && (k <? l) then None else content m k.
Proof.
  intros H Hsl. unfold im_clear_interval. destruct (N.ltb_spec s l); [|lia].
  destruct (remove_interval_spec 0 m s l H Hsl) as (m' & E & W & C & D). eauto.
Qed.

Lemma im_step_spec m o :
  wf 0 m -> op_valid o = true ->
  exists m', im_step m o = Ok m' /\ wf 0 m' /\
    forall k, content m' k =
      match op_effect o k with Some r => r | None => content m k end.
Proof.
  intros H Hv. destruct o as [s l v|s l|]; cbn [im_step op_valid op_effect] in *.
  - apply N.ltb_lt in Hv.
    destruct (im_set_spec m s l v H Hv) as (m' & E & W & C).
    exists m'. repeat split; auto. intros k. rewrite C. destruct (_ && _); reflexivity.
  - apply N.ltb_lt in Hv.
    destruct (im_clear_interval_spec m s l H Hv) as (m' & E & W & C).
    exists m'. repeat split; auto. intros k. rewrite C. destruct (_ && _); reflexivity.
  - exists []. repeat split; auto.
Qed.

Lemma im_run_spec ops m :
  wf 0 m -> forallb op_valid ops = true ->
  exists m', im_run m ops = Ok m' /\ wf 0 m' /\
    forall k, content m' k = value_after (content m k) ops k.
Proof.
  revert m; induction ops as [|o ops IH]; intros m H Hv.
  { exists m; repeat split; auto. }
  cbn [forallb] in Hv. apply andb_prop in Hv as [Hv1 Hv2].
  destruct (im_step_spec m o H Hv1) as (m1 & E & W & C).
  destruct (IH m1 W Hv2) as (m2 & E2 & W2 & C2).
  exists m2. cbn [im_run]. rewrite E. cbn [obind]. repeat split; auto.
  intros k. rewrite C2, C. reflexivity.
Qed.

Lemma im_step_invalid m o : op_valid o = false -> im_step m o = Abort.
Proof.
  destruct o as [s l v|s l|]; cbn [op_valid im_step]; intros H; try discriminate;
    unfold im_set, im_clear_interval; rewrite H; reflexivity.
Qed.

Lemma im_run_invalid ops m :
  wf 0 m -> forallb op_valid ops = false -> im_run m ops = Abort.
Proof.
  revert m; induction ops as [|o ops IH]; intros m H Hv; [discriminate|].
  cbn [forallb] in Hv. cbn [im_run].
  destruct (op_valid o) eqn:E.
  - destruct (im_step_spec m o H E) as (m1 & E1 & W & _). rewrite E1. cbn [obind].
    apply IH; auto.
  - rewrite im_step_invalid by auto. reflexivity.
Qed.

Lemma im_run_ok_inv ops m :
  im_run [] ops = Ok m ->
  wf 0 m /\ (forall k, im_lookup m k = value_after None ops k).
Proof.
  intros E. destruct (forallb op_valid ops) eqn:Hv.
  - destruct (im_run_spec ops [] I Hv) as (m' & E' & W & C).
    rewrite E in E'; inversion E'; subst m'. split; [exact W|].
    intros k. rewrite (im_lookup_content 0) by auto. apply C.
  - rewrite (im_run_invalid ops [] I Hv) in E. discriminate.
Qed.

(** Properties of well-formed maps stated on pairs of entries. *)
Lemma wf_nth m i j si li vi sj lj vj lo :
  wf lo m -> (i < j)%nat ->
  nth_error m i = Some (si, (li, vi)) -> nth_error m j = Some (sj, (lj, vj)) ->
  si < li /\ li <= sj /\ sj < lj.
Proof.
  revert lo i j; induction m as [|[s [l v]] r IH]; intros lo i j H Hij Hi Hj.
  { destruct i; discriminate. }
  destruct H as (H1 & H2 & H3).
  destruct j as [|j]; [lia|]. cbn [nth_error] in Hj.
  destruct i as [|i]; cbn [nth_error] in Hi.
  - inversion Hi; subst. apply nth_error_In in Hj.
    apply (wf_in li _ _ _ _ H3) in Hj. lia.
  - eapply (IH l i j); eauto; lia.
Qed.

Lemma find_next_spec lo m k :
  wf lo m ->
  match im_find_next m k with
  | Some (s, l, v) =>
      In (s, (l, v)) m /\ k < s /\
      forall s' l' v', In (s', (l', v')) m -> k < s' -> s <= s'
  | None => forall s' l' v', In (s', (l', v')) m -> s' <= k
  end.
Proof.
  revert lo; induction m as [|[s [l v]] r IH]; intros lo H.
  { cbn. intros ? ? ? []. }
  destruct H as (H1 & H2 & H3). unfold im_find_next. cbn [upper_bound].
  destruct (N.leb_spec s k) as [Hs|Hs]; cbn [nth_error].
  - specialize (IH l H3). unfold im_find_next in IH.
    destruct (nth_error r (upper_bound r k)) as [[s1 [l1 v1]]|].
    + destruct IH as (A & B & C). repeat split; auto; [right; exact A|].
      intros s' l' v' [Heq|Hin]; [inversion Heq; subst; lia|eauto].
    + intros s' l' v' [Heq|Hin]; [inversion Heq; subst; lia|eauto].
  - repeat split; auto; [left; reflexivity|].
    intros s' l' v' [Heq|Hin]; [inversion Heq; subst; lia|].
    intros _. apply (wf_in l _ _ _ _ H3) in Hin. lia.
Qed.

End Proofs.
