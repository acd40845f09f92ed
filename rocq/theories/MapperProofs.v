(** Proofs about the address mapper model. *)
From Verif Require Import Base BytesModel BytesProofs BytesMoreProofs MapperModel MapperSpec.
From Coq Require Import Permutation.
Local Open Scope N_scope.

(** * Words and alignment *)

Lemma sub64_le a b : b <= a -> a < two64 -> sub64 a b = a - b.
Proof. unfold sub64, two64. intros. lia. Qed.

Lemma align_land a k x : a = 2 ^ k -> k < 64 -> aligned_offset a x = x mod a.
Proof.
  intros -> Hk. unfold aligned_offset.
  assert (0 < 2 ^ k) by (apply N.neq_0_lt_0, N.pow_nonzero; lia).
  assert (2 ^ k < 2 ^ 64) by (apply N.pow_lt_mono_r; lia).
  change (2 ^ 64) with two64 in *.
  rewrite sub64_le by lia.
  replace (2 ^ k - 1) with (N.ones k) by (rewrite N.ones_equiv; lia).
  apply N.land_ones.
Qed.

Lemma align_pos a : align_ok a -> a = 0 \/ (0 < a /\ a < two64 /\ forall x, aligned_offset a x = x mod a).
Proof.
  intros [H|(k & Hk & H)]; [now left|right].
  assert (0 < 2 ^ k) by (apply N.neq_0_lt_0, N.pow_nonzero; lia).
  assert (2 ^ k < 2 ^ 64) by (apply N.pow_lt_mono_r; lia).
  change (2 ^ 64) with two64 in *. rewrite <- H in *.
  split; [lia|]. split; [lia|]. intros x. now apply align_land with k.
Qed.

(** * Invariant *)

Definition core (e : range) : range := set_un e 0.

Definition rok (al : N) (e : range) : Prop :=
  0 < r_size e /\ r_real e + r_size e < two64 /\ r_off e < two64 /\
  (al <> 0 -> r_mapped e mod al = r_real e mod al).

Definition rdisj (e f : range) : Prop :=
  r_real e + r_size e <= r_real f \/ r_real f + r_size f <= r_real e.

Fixpoint pw (l : list range) : Prop :=
  match l with
  | [] => True
  | e :: r => (forall f, In f r -> rdisj e f) /\ pw r
  end.

Definition next_start (l : list range) : N :=
  match l with [] => max64 | f :: _ => r_mapped f end.

Fixpoint tiled (l : list range) : Prop :=
  match l with
  | [] => True
  | e :: r => r_mapped e + r_size e + r_un e = next_start r /\ tiled r
  end.

Definition good (al : N) (l : list range) : Prop := Forall (rok al) l /\ pw l.
Definition Inv (m : mapper) : Prop :=
  align_ok (m_align m) /\ good (m_align m) (m_ranges m) /\ tiled (m_ranges m).

Lemma rdisj_sym e f : rdisj e f -> rdisj f e.
Proof. unfold rdisj. tauto. Qed.

Lemma pw_perm l l' : Permutation l l' -> pw l -> pw l'.
Proof.
  induction 1; cbn; auto.
  - intros (H1 & H2). split; [|now apply IHPermutation].
    intros f Hf. apply H1. eapply Permutation_in; [symmetry; eassumption|assumption].
  - intros (H1 & H2 & H3). split; [|split; [|exact H3]].
    + intros f [->|Hf]; [apply rdisj_sym, H1; now left|now apply H2].
    + intros f Hf. apply H1. now right.
Qed.

Lemma good_perm al l l' : Permutation l l' -> good al l -> good al l'.
Proof.
  intros P (H1 & H2). split; [|now apply pw_perm with l].
  rewrite Forall_forall in *. intros x Hx. apply H1.
  eapply Permutation_in; [symmetry; eassumption|assumption].
Qed.

Lemma pw_core l : pw (map core l) <-> pw l.
Proof.
  induction l as [|e l IH]; cbn; [tauto|]. rewrite IH.
  split; intros (H1 & H2); split; auto.
  - intros f Hf. apply (H1 (core f)). now apply in_map.
  - intros f Hf. apply in_map_iff in Hf as (g & <- & Hg). apply (H1 g Hg).
Qed.

Lemma good_core al l : good al (map core l) <-> good al l.
Proof.
  unfold good. rewrite pw_core. split; intros (H1 & H2); split; auto;
    rewrite Forall_forall in *; intros x Hx.
  - apply (H1 (core x)). now apply in_map.
  - apply in_map_iff in Hx as (g & <- & Hg). apply (H1 g Hg).
Qed.

Lemma good_filter al p l : good al l -> good al (filter p l).
Proof.
  intros (H1 & H2). split.
  - rewrite Forall_forall in *. intros x Hx. apply filter_In in Hx. now apply H1.
  - induction l as [|e l IH]; cbn in *; auto. inversion H1; subst. destruct H2 as (H2 & H5).
    destruct (p e); cbn; auto. split; auto.
    intros f Hf. apply filter_In in Hf. now apply H2.
Qed.

Lemma pw_in l e f : pw l -> In e l -> In f l -> e = f \/ rdisj e f.
Proof.
  induction l as [|x l IH]; cbn; [tauto|].
  intros (H1 & H2) [->|He] [->|Hf]; auto.
  right. apply rdisj_sym. auto.
Qed.

Lemma good_real_inj al l e f :
  good al l -> In e l -> In f l -> r_real e = r_real f -> e = f.
Proof.
  intros (H1 & H2) He Hf E. destruct (pw_in _ _ _ H2 He Hf) as [|D]; auto.
  rewrite Forall_forall in H1. destruct (H1 _ He) as (A & _), (H1 _ Hf) as (B & _). unfold rdisj in D.
  clear H1 H2. lia.
Qed.

Lemma good_real_notin al e l :
  good al (e :: l) -> forall f, In f l -> r_real f <> r_real e.
Proof.
  intros (H1 & H2 & H3) f Hf E. specialize (H2 f Hf).
  inversion H1; subst. rewrite Forall_forall in H5.
  destruct H4 as (? & _), (H5 f Hf) as (? & _). unfold rdisj in H2. lia.
Qed.

(** * Tiling *)

Lemma tiled_start_le e r : tiled (e :: r) ->
  r_mapped e + r_size e + r_un e <= max64 /\
  forall f, In f r -> r_mapped e + r_size e + r_un e <= r_mapped f /\ r_mapped f + r_size f <= max64.
Proof.
  revert e. induction r as [|g r IH]; intros e (H1 & H2).
  - cbn in H1. split; [lia|easy].
  - destruct (IH g H2) as (H3 & H4). cbn in H1.
    split; [lia|]. intros f [<-|Hf]; [lia|]. specialize (H4 f Hf). lia.
Qed.

Lemma tiled_end l e : tiled l -> In e l -> r_mapped e + r_size e <= max64.
Proof.
  destruct l as [|g l]; [easy|]. intros H. destruct (tiled_start_le _ _ H) as (H1 & H2).
  intros [<-|Hi]; [lia|]. now apply H2.
Qed.

(** Distinct ranges occupy disjoint synthetic addresses. *)
Lemma tiled_disjoint l e f : tiled l -> In e l -> In f l ->
  e = f \/ r_mapped e + r_size e <= r_mapped f \/ r_mapped f + r_size f <= r_mapped e.
Proof.
  induction l as [|g l IH]; [easy|]. intros H.
  destruct (tiled_start_le _ _ H) as (H1 & H2). destruct H as (_ & Ht).
  intros [<-|He] [<-|Hf]; auto.
  - right. left. specialize (H2 f Hf). lia.
  - right. right. specialize (H2 e He). lia.
Qed.

Lemma top_in l e : In e l -> r_mapped e + r_size e <= top_of l.
Proof. induction l as [|g l IH]; cbn; [easy|]. intros [->|H]; [lia|]. specialize (IH H). lia. Qed.

Lemma top_le l n : (forall e, In e l -> r_mapped e + r_size e <= n) -> top_of l <= n.
Proof.
  induction l as [|g l IH]; cbn; intros H; [lia|].
  pose proof (H g (or_introl eq_refl)). assert (top_of l <= n) by (apply IH; auto). lia.
Qed.

Lemma top_perm l l' : Permutation (map core l) (map core l') -> top_of l <= top_of l'.
Proof.
  intros P. apply top_le. intros e He.
  assert (In (core e) (map core l')) as Hc
    by (eapply Permutation_in; [exact P|now apply in_map]).
  apply in_map_iff in Hc as (g & E & Hg).
  assert (r_mapped g = r_mapped e) by exact (f_equal r_mapped E).
  assert (r_size g = r_size e) by exact (f_equal r_size E).
  pose proof (top_in _ _ Hg). lia.
Qed.

Lemma top_tiled_lt l : tiled l -> top_of l <= max64.
Proof. intros H. apply top_le. intros e. now apply tiled_end. Qed.

(** * Unmap *)

Lemma filter_all {A} (p : A -> bool) l : (forall x, In x l -> p x = true) -> filter p l = l.
Proof.
  induction l as [|a l IH]; cbn; intros H; auto.
  rewrite H by now left. now rewrite IH by auto.
Qed.

Lemma filter_none {A} (p : A -> bool) l : (forall x, In x l -> p x = false) -> filter p l = [].
Proof.
  induction l as [|a l IH]; cbn; intros H; auto. rewrite H by now left. auto.
Qed.

Definition not_key (k : N) (e : range) : bool := negb (r_real e =? k).

Lemma unmap_spec al k : forall l, good al l -> tiled l ->
  tiled (unmap_list l k) /\
  map core (unmap_list l k) = map core (filter (not_key k) l) /\
  (match l with [] => True | e :: _ => r_real e <> k -> next_start (unmap_list l k) = r_mapped e end).
Proof.
  induction l as [|e l IH]; intros G T; [now cbn|].
  pose proof (good_real_notin _ _ _ G) as Hn.
  destruct G as (G1 & G2). inversion G1 as [|? ? Ge G3]; subst. destruct G2 as (G4 & G5).
  pose proof (tiled_start_le _ _ T) as (T1 & T2). destruct T as (T3 & T4).
  assert (Gl : good al l) by now split.
  cbn [unmap_list filter]. change (not_key k e) with (negb (r_real e =? k)).
  destruct (r_real e =? k) eqn:Ek; cbn [negb].
  - split; [exact T4|]. split; [|lia].
    rewrite filter_all; auto. intros x Hx. unfold not_key. specialize (Hn x Hx).
    apply negb_true_iff. lia.
  - destruct l as [|f l'].
    + cbn. auto.
    + pose proof (good_real_notin _ _ _ Gl) as Hf.
      specialize (IH Gl T4). destruct IH as (I1 & I2 & I3).
      destruct (r_real f =? k) eqn:Ef.
      * split; [|split].
        -- destruct T4 as (T5 & T6). split; [|exact T6].
           cbn [add_un r_mapped r_size r_un]. cbn [next_start] in T3.
           specialize (T2 f (or_introl eq_refl)).
           assert (r_mapped f + r_size f + r_un f <= max64) by (now apply (tiled_start_le f l')).
           unfold w64, two64, max64 in *. rewrite !N.mod_small by lia. rewrite <- T5. lia.
        -- cbn [map]. f_equal. cbn [filter]. change (not_key k f) with (negb (r_real f =? k)). rewrite Ef. cbn [negb].
           rewrite filter_all; auto. intros x Hx. unfold not_key. specialize (Hf x Hx).
           apply negb_true_iff. lia.
        -- reflexivity.
      * split; [|split].
        -- split; [|exact I1]. rewrite I3 by lia. exact T3.
        -- cbn [map]. f_equal. exact I2.
        -- reflexivity.
Qed.

Lemma filter_filter {A} (p q : A -> bool) l :
  filter p (filter q l) = filter (fun x => q x && p x) l.
Proof.
  induction l as [|a l IH]; cbn; auto. destruct (q a); cbn; [destruct (p a)|]; now rewrite IH.
Qed.

Lemma map_core_filter (p : range -> bool) l :
  (forall e, p (core e) = p e) -> map core (filter p l) = filter p (map core l).
Proof.
  intros H. induction l as [|e l IH]; cbn; auto. rewrite H. destruct (p e); cbn; now rewrite IH.
Qed.

Definition not_keys (ks : list N) (e : range) : bool :=
  negb (existsb (fun k => r_real e =? k) ks).

Lemma unmap_fold_spec al ks : forall l, good al l -> tiled l ->
  tiled (fold_left unmap_list ks l) /\
  map core (fold_left unmap_list ks l) = map core (filter (not_keys ks) l).
Proof.
  induction ks as [|k ks IH]; intros l G T.
  - cbn. split; auto. f_equal. rewrite filter_all; auto.
  - cbn [fold_left]. destruct (unmap_spec al k l G T) as (T1 & E1 & _).
    assert (G1 : good al (unmap_list l k)).
    { apply good_core. rewrite E1. apply good_core. now apply good_filter. }
    destruct (IH _ G1 T1) as (T2 & E2). split; auto.
    rewrite E2, map_core_filter by reflexivity. rewrite E1.
    rewrite <- map_core_filter by reflexivity. f_equal.
    rewrite filter_filter. apply filter_ext. intros e. unfold not_key, not_keys. cbn.
    now rewrite negb_orb.
Qed.
