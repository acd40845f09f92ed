(** C62: deducing huge pages and combining mappings leave other events alone. *)
From Coq Require Import String.
From Verif Require Import Base BytesModel TextModel Assoc HugePageModel HugePageCombineProofs HugePageProofs.
Local Open Scope N_scope.
Local Open Scope list_scope.

(** The event is the same, or it is a mapping that was changed. *)
Definition kin (e e' : pevent) : Prop :=
  e' = e \/ (e_map e <> None /\ e_map e' <> None /\ e_other e' = e_other e).
Definition no_map (e : pevent) : bool := match e_map e with None => true | Some _ => false end.

Lemma kin_refl l : Forall2 kin l l.
Proof. induction l; constructor; auto. now left. Qed.
Lemma kin_trans a b c : kin a b -> kin b c -> kin a c.
Proof.
  intros [->|(A & B & C)] [->|(D & E & F)]; [now left| | |]; right; auto. split; auto. split; auto. congruence.
Qed.
Lemma kins_trans a b c : Forall2 kin a b -> Forall2 kin b c -> Forall2 kin a c.
Proof.
  intros H. revert c. induction H as [|x y l l' K H IH]; intros c G; inversion G; subst; constructor; eauto using kin_trans.
Qed.
Lemma kin_no_map a b : Forall2 kin a b -> filter no_map b = filter no_map a.
Proof.
  induction 1 as [|x y l l' K H IH]; [reflexivity|]. cbn [filter]. rewrite IH.
  destruct K as [->|(A & B & C)]; [reflexivity|]. unfold no_map.
  destruct (e_map x); [|congruence]. destruct (e_map y); [reflexivity|congruence].
Qed.

(** ** Deducing *)

Lemma update_one_kin e m next pg : e_map e = Some m -> kin e (update_one e m next pg).
Proof.
  intros E. unfold update_one. destruct (is_huge m || (v_pgoff m =? 0)); [|now left].
  right. split; [congruence|]. split; [cbn; discriminate|reflexivity].
Qed.
Lemma update_loop_kin rng next : forall pg, Forall (fun x => e_map (fst x) = Some (snd x)) rng ->
  Forall2 kin (map fst rng) (fst (update_loop rng next pg)).
Proof.
  induction rng as [|(e, m) r IH]; intros pg F; inversion F; subst; [constructor|].
  cbn [update_loop map fst snd] in *. specialize (IH (w64 (pg + v_len m)) H2).
  destruct (update_loop r next _) as (out, p). constructor; [now apply update_one_kin|exact IH].
Qed.
Lemma update_range_kin first last_ rng next out : Forall (fun x => e_map (fst x) = Some (snd x)) rng ->
  update_range first last_ rng next = Ok out -> Forall2 kin (map fst rng) out.
Proof.
  intros F. unfold update_range. intros H.
  match type of H with context [update_loop rng next ?p] =>
    pose proof (update_loop_kin rng next p F) as K; destruct (update_loop rng next p) as (o, pg) end.
  cbn [fst] in K.
  repeat match type of H with
  | (if ?b then _ else _) = _ => destruct b; try discriminate H
  end; try (injection H as <-); auto using kin_refl.
Qed.

Lemma deduce_loop_kin l : forall pre rng out,
  Forall (fun x => e_map (fst x) = Some (snd x)) rng -> Forall (fun x => e_map (fst x) = Some (snd x)) l ->
  deduce_loop pre rng l = Ok out -> Forall2 kin (map fst rng ++ map fst l) out.
Proof.
  induction l as [|(e, m) r IH]; intros pre rng out F1 F2 H; cbn [deduce_loop] in H.
  - injection H as <-. rewrite app_nil_r. apply kin_refl.
  - inversion F2 as [|? ? E F2']; subst.
    assert (F3 : Forall (fun x : pevent * vmap => e_map (fst x) = Some (snd x)) [(e, m)]) by now constructor.
    destruct (is_huge m).
    + destruct rng as [|(e1, m1) rng].
      * apply (IH _ _ _ F3 F2' H).
      * destruct (continues _ m).
        -- replace (map fst ((e1, m1) :: rng) ++ map fst ((e, m) :: r))
             with (map fst (((e1, m1) :: rng) ++ [(e, m)]) ++ map fst r)
             by (rewrite map_app, <- app_assoc; reflexivity).
           refine (IH _ _ _ _ F2' H). apply Forall_app. auto.
        -- destruct (deduce_loop None [(e, m)] r) as [o| | | |] eqn:D; try discriminate H. cbn [obind] in H.
           change (Ok (map fst ((e1, m1) :: rng) ++ o) = Ok out) in H. assert (H' : out = map fst ((e1, m1) :: rng) ++ o) by congruence.
           rewrite H'. apply Forall2_app; [apply kin_refl|]. exact (IH _ _ _ F3 F2' D).
    + match type of H with obind ?x _ = _ => destruct x as [rng'| | | |] eqn:R; try discriminate H end. cbn [obind] in H.
      destruct (deduce_loop (Some m) [] r) as [o| | | |] eqn:D; try discriminate H. cbn [obind] in H. injection H as <-.
      apply Forall2_app.
      * destruct rng as [|(e1, m1) rng]; [injection R as <-; constructor|].
        destruct (belongs _ _ _ _); [exact (update_range_kin _ _ _ _ _ F1 R)|injection R as <-; apply kin_refl].
      * constructor; [now left|]. exact (IH _ _ _ (Forall_nil _) F2' D).
Qed.

Lemma take_mask_maps ms : forall evs, Forall (fun x => e_map (fst x) = Some (snd x)) (take_mask ms evs).
Proof.
  induction ms as [|b ms IH]; intros [|e evs]; try constructor; [destruct b; constructor|].
  cbn [take_mask]. destruct b; [|apply IH]. destruct (e_map e) eqn:E; [|apply IH]. constructor; auto.
Qed.
Lemma put_mask_kin ms : forall evs new,
  Forall2 (fun e b => b = true -> e_map e <> None) evs ms ->
  Forall2 kin (map fst (take_mask ms evs)) new -> Forall2 kin evs (put_mask ms evs new).
Proof.
  induction ms as [|b ms IH]; intros evs new L F; inversion L; subst; [constructor|].
  destruct b; cbn [take_mask put_mask] in *.
  - destruct (e_map x) as [m|] eqn:E; [|exfalso; now apply H2]. cbn [map fst] in F. inversion F; subst.
    constructor; auto.
  - constructor; [now left|]. auto.
Qed.
Lemma mask_maps k evs : forall st, Forall2 (fun e b => b = true -> e_map e <> None) evs (mask k st evs).
Proof.
  induction evs as [|e evs IH]; intros st; cbn [mask]; constructor; auto.
  intros H E. unfold of_key in H. rewrite E, andb_false_r in H. discriminate.
Qed.
Lemma deduce_kin order : forall evs out, deduce order evs = Ok out -> Forall2 kin evs out.
Proof.
  induction order as [|k r IH]; intros evs out H; cbn [deduce] in H; [injection H as <-; apply kin_refl|].
  unfold deduce_key in H.
  destruct (deduce_loop None [] (take_mask (mask k false evs) evs)) as [o| | | |] eqn:D; cbn [obind] in H; try discriminate H.
  apply IH in H. refine (kins_trans _ _ _ _ H).
  apply put_mask_kin; [apply mask_maps|].
  exact (deduce_loop_kin _ _ _ _ (Forall_nil _) (take_mask_maps _ _) D).
Qed.

(** ** Combining *)

Lemma merge_into_map ea a b : e_map (merge_into ea a b) <> None.
Proof. unfold merge_into. destruct (is_huge a && negb (is_huge b)); cbn; discriminate. Qed.
Lemma merge_into_other ea a b : e_other (merge_into ea a b) = e_other ea.
Proof. unfold merge_into. destruct (is_huge a && negb (is_huge b)); reflexivity. Qed.

Lemma replace_no_map i x y : forall l, nth_error l i = Some y -> no_map x = false -> no_map y = false ->
  filter no_map (replace_nth i x l) = filter no_map l.
Proof.
  induction i as [|i IH]; intros [|z l] E X Y; try discriminate E.
  - injection E as ->. cbn [replace_nth filter]. now rewrite X, Y.
  - cbn [replace_nth filter]. now rewrite (IH l E X Y).
Qed.
Lemma replace_in {A} i (x z : A) : forall l, In z (replace_nth i x l) -> z = x \/ In z l.
Proof.
  induction i as [|i IH]; intros [|y l] H; try contradiction H.
  - cbn [replace_nth] in H. destruct H as [->|H]; [now left|right; now right].
  - cbn [replace_nth] in H. destruct H as [->|H]; [right; now left|]. destruct (IH _ H); auto. right. now right.
Qed.

Lemma combine_no_map evs : forall out prev res,
  combine_loop evs out prev = Ok res -> filter no_map res = filter no_map out ++ filter no_map evs.
Proof.
  induction evs as [|e evs IH]; intros out prev res E; cbn [combine_loop] in E.
  - injection E as <-. cbn. now rewrite app_nil_r.
  - assert (APP : forall pr, combine_loop evs (out ++ [e]) pr = Ok res -> filter no_map res = filter no_map out ++ filter no_map (e :: evs)).
    { intros pr H. rewrite (IH _ _ _ H), filter_app, <- app_assoc. f_equal. cbn. now destruct (no_map e). }
    destruct (e_map e) as [m|] eqn:EM; [|now apply APP in E]. cbn zeta in E.
    destruct (aget N.eqb (key_of m) prev) as [i|]; [|now apply APP in E].
    destruct (nth_error out i) as [ea|] eqn:NE; [|discriminate E]. destruct (e_map ea) as [a|] eqn:EA; [|discriminate E].
    destruct (mergeable a m); [|now apply APP in E].
    rewrite (IH _ _ _ E), (replace_no_map _ _ ea); auto.
    + f_equal. cbn. unfold no_map at 2. now rewrite EM.
    + pose proof (merge_into_map ea a m). unfold no_map. destruct (e_map (merge_into ea a m)); [reflexivity|contradiction].
    + unfold no_map. now rewrite EA.
Qed.
Lemma combine_from evs : forall out prev res,
  combine_loop evs out prev = Ok res ->
  forall e', In e' res -> exists e, In e (out ++ evs) /\ kin e e'.
Proof.
  induction evs as [|e evs IH]; intros out prev res E e' I; cbn [combine_loop] in E.
  - injection E as <-. exists e'. rewrite app_nil_r. split; [exact I|now left].
  - assert (APP : forall pr, combine_loop evs (out ++ [e]) pr = Ok res -> exists e0, In e0 (out ++ e :: evs) /\ kin e0 e').
    { intros pr H. destruct (IH _ _ _ H e' I) as (e0 & I0 & K). exists e0. rewrite <- app_assoc in I0. auto. }
    destruct (e_map e) as [m|] eqn:EM; [|now apply APP in E]. cbn zeta in E.
    destruct (aget N.eqb (key_of m) prev) as [i|]; [|now apply APP in E].
    destruct (nth_error out i) as [ea|] eqn:NE; [|discriminate E]. destruct (e_map ea) as [a|] eqn:EA; [|discriminate E].
    destruct (mergeable a m); [|now apply APP in E].
    destruct (IH _ _ _ E e' I) as (e0 & I0 & K). apply in_app_or in I0. destruct I0 as [I0|I0].
    + apply replace_in in I0. destruct I0 as [->|I0]; [|exists e0; split; auto; apply in_or_app; now left].
      exists ea. split; [apply in_or_app; left; apply nth_error_In in NE; exact NE|].
      apply kin_trans with (merge_into ea a m); [|exact K]. right. split; [congruence|].
      split; [apply merge_into_map|apply merge_into_other].
    + exists e0. split; auto. apply in_or_app. right. now right.
Qed.
