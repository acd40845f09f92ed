(** Proofs about placing and searching ranges in the address mapper model. *)
From Verif Require Import Base BytesModel BytesProofs BytesMoreProofs MapperModel MapperSpec MapperProofs.
From Coq Require Import Permutation.
Local Open Scope N_scope.

Lemma nth_error_firstn_lt {A} : forall (l : list A) n j,
  (j < n)%nat -> nth_error (firstn n l) j = nth_error l j.
Proof.
  induction l as [|x l IH]; intros [|n] [|j] H; cbn; try easy; try lia. apply IH. lia.
Qed.

Lemma nth_error_skipn_in {A} : forall (l : list A) j e, nth_error l j = Some e -> In e (skipn j l).
Proof.
  induction l as [|x l IH]; intros [|j] e E; cbn in *; try easy.
  - left. congruence.
  - now apply IH.
Qed.

Lemma firstn_snoc {A} : forall (l : list A) i e,
  nth_error l i = Some e -> firstn (S i) l = firstn i l ++ [e].
Proof.
  induction l as [|x l IH]; intros [|i] e E; cbn [nth_error] in *; try easy.
  - cbn. congruence.
  - change (firstn (S (S i)) (x :: l)) with (x :: firstn (S i) l). now rewrite (IH i e E).
Qed.

(** * try_add_range_after *)

Lemma try_after_spec al e real size id off lim :
  align_ok al -> r_mapped e + r_size e + r_un e = lim -> lim <= max64 ->
  0 < size -> real + size < two64 ->
  r_mapped e + r_size e + size + 2 * al < two64 ->
  match try_after al e real size id off with
  | Some (e', n) =>
      exists p q u, e' = set_un e p /\ n = mkRange real q size id off u /\
        q = r_mapped e + r_size e + p /\ q + size + u = lim /\ p <= 2 * al /\
        (al <> 0 -> q mod al = real mod al)
  | None => lim < r_mapped e + r_size e + 2 * al + size
  end.
Proof.
  intros Ha Hlim Hmax Hs Hr Hw. unfold try_after.
  destruct (align_pos al Ha) as [->|(Hp & Hb & Ho)].
  - cbn [N.eqb negb]. rewrite w64_small by lia.
    destruct (r_un e <? size) eqn:E; [lia|].
    exists 0, (r_mapped e + r_size e), (r_un e - size).
    rewrite sub64_le by (unfold two64, max64 in *; lia).
    split; [reflexivity|]. split; [reflexivity|]. do 3 (split; [lia|]). congruence.
  - replace (al =? 0) with false by lia. cbn [negb].
    rewrite !Ho. rewrite (w64_small (r_mapped e + r_size e)) by lia.
    set (E := r_mapped e + r_size e) in *.
    assert (Hm : E mod al < al) by (apply N.mod_lt; lia).
    assert (Hmo : real mod al < al) by (apply N.mod_lt; lia).
    pose proof (N.div_mod' E al) as Hd.
    assert (Hle : E mod al <= E) by (apply N.mod_le; lia).
    assert (HE : E < two64) by (unfold two64, max64 in *; lia).
    assert (HB : exists b, (if negb (E mod al =? 0) then w64 (sub64 E (E mod al) + al) else E) = b
                 /\ E <= b /\ b < E + al /\ b mod al = 0).
    { destruct (E mod al =? 0) eqn:Z; cbn [negb].
      - exists E. repeat split; try lia. 
      - exists (E - E mod al + al). rewrite sub64_le by assumption.
        rewrite w64_small by lia. do 3 (split; [lia|]).
        replace (E - E mod al + al) with ((E / al + 1) * al) by lia.
        apply N.mod_mul. lia. }
    destruct HB as (b & -> & B1 & B2 & B3).
    rewrite (w64_small (b + real mod al)) by lia.
    rewrite (w64_small (b + real mod al + size)) by lia.
    rewrite (w64_small (E + r_un e)) by (unfold two64, max64 in *; lia).
    destruct (E + r_un e <? b + real mod al + size) eqn:C; [lia|].
    exists (b + real mod al - E), (b + real mod al), (lim - (b + real mod al + size)).
    rewrite !sub64_le by (unfold two64, max64 in *; lia).
    split; [reflexivity|]. split; [f_equal; lia|].
    do 3 (split; [lia|]). intros _.
    rewrite N.add_mod by lia. rewrite B3, N.add_0_l, !N.mod_mod by lia. reflexivity.
Qed.

Definition placed (al : N) (l l' : list range) (real size id off : N) : Prop :=
  exists q, Permutation (map core l') (mkRange real q size id off 0 :: map core l) /\
    tiled l' /\ q + size <= top_of l + size + 2 * al /\ q + size < two64 /\
    (al <> 0 -> q mod al = real mod al).

Lemma tiled_replace e p q size real id off u r :
  tiled (e :: r) -> q = r_mapped e + r_size e + p ->
  q + size + u = r_mapped e + r_size e + r_un e ->
  tiled (set_un e p :: mkRange real q size id off u :: r).
Proof. intros (H1 & H2) -> H3. cbn. split; [lia|]. split; auto. lia. Qed.

Lemma try_all_spec al real size id off : forall l,
  align_ok al -> tiled l -> 0 < size -> real + size < two64 -> l <> [] ->
  top_of l + size + 2 * al < two64 ->
  exists l', try_all al l real size id off = Some l' /\ placed al l l' real size id off /\
    next_start l' = next_start l.
Proof.
  induction l as [|e r IH]; intros Ha T Hs Hr Hne Ht; [easy|].
  cbn [try_all]. pose proof (tiled_start_le _ _ T) as (T1 & T2). cbn [top_of] in Ht.
  pose proof (try_after_spec al e real size id off _ Ha eq_refl T1 Hs Hr ltac:(lia)) as HA.
  destruct (try_after al e real size id off) as [(e' & n)|] eqn:E.
  - destruct HA as (p & q & u & -> & -> & Hq & Hu & Hp & Hm).
    eexists. split; [reflexivity|]. split; [|reflexivity]. exists q. split; [|split; [|split; [|split]]].
    + cbn [map]. apply perm_swap.
    + now apply tiled_replace.
    + cbn [top_of]. lia.
    + lia.
    + exact Hm.
  - destruct r as [|f r'].
    + destruct T as (T3 & _). cbn in T3. unfold max64, two64 in *. lia.
    + destruct T as (T3 & T4).
      destruct IH as (l' & E' & (q & P & Tl & Hq & Hqq & Hm) & Hn); auto; [easy|lia|].
      rewrite E'. eexists. split; [reflexivity|]. split; [|reflexivity].
      exists q. split; [|split; [|split; [|split]]]; auto.
      * cbn [map]. rewrite perm_swap. constructor. exact P.
      * split; [|exact Tl]. rewrite Hn. exact T3.
      * cbn [top_of] in *. lia.
Qed.

Lemma try_last_spec al real size id off : forall l,
  align_ok al -> tiled l -> 0 < size -> real + size < two64 -> l <> [] ->
  top_of l + size + 2 * al < two64 ->
  exists l', try_last al l real size id off = Some l' /\ placed al l l' real size id off /\
    next_start l' = next_start l.
Proof.
  induction l as [|e r IH]; intros Ha T Hs Hr Hne Ht; [easy|].
  pose proof (tiled_start_le _ _ T) as (T1 & T2). cbn [top_of] in Ht.
  destruct r as [|f r'].
  - cbn [try_last].
    pose proof (try_after_spec al e real size id off _ Ha eq_refl T1 Hs Hr ltac:(lia)) as HA.
    destruct (try_after al e real size id off) as [(e' & n)|] eqn:E.
    + destruct HA as (p & q & u & -> & -> & Hq & Hu & Hp & Hm).
      eexists. split; [reflexivity|]. split; [|reflexivity]. exists q. split; [|split; [|split; [|split]]].
      * cbn [map]. apply perm_swap.
      * now apply tiled_replace.
      * cbn [top_of]. lia.
      * lia.
      * exact Hm.
    + destruct T as (T3 & _). cbn in T3. unfold max64, two64 in *. lia.
  - destruct T as (T3 & T4). change (try_last al (e :: f :: r') real size id off)
      with (option_map (cons e) (try_last al (f :: r') real size id off)).
    destruct IH as (l' & E' & (q & P & Tl & Hq & Hqq & Hm) & Hn); auto; [easy|cbn [top_of] in *; lia|].
    rewrite E'. eexists. split; [reflexivity|]. split; [|reflexivity].
    exists q. split; [|split; [|split; [|split]]]; auto.
    * cbn [map]. rewrite perm_swap. constructor. exact P.
    * split; [|exact Tl]. rewrite Hn. exact T3.
    * cbn [top_of] in *. lia.
Qed.

(** * place *)

Definition fresh_for (l : list range) (real size : N) : Prop :=
  forall e, In e l -> r_real e + r_size e <= real \/ real + size <= r_real e.

Definition grown (m m' : mapper) (real size id off : N) : Prop :=
  Inv m' /\ m_align m' = m_align m /\
  top_of (m_ranges m') <= top_of (m_ranges m) + size + 2 * m_align m /\
  exists q, Permutation (map core (m_ranges m'))
              (mkRange real q size id off 0 :: map core (m_ranges m)).

Lemma placed_grown m l' real size id off :
  Inv m -> fresh_for (m_ranges m) real size -> 0 < size -> real + size < two64 -> off < two64 ->
  placed (m_align m) (m_ranges m) l' real size id off ->
  grown m (mkMapper l' (m_align m)) real size id off.
Proof.
  intros (Ha & G & T) F Hs Hr Ho (q & P & Tl & Hq & Hqq & Hm). unfold grown. cbn [m_align m_ranges].
  split; [|split; [reflexivity|split]].
  - split; [exact Ha|]. split; [|exact Tl]. cbn [m_ranges m_align].
    apply good_core. eapply good_perm; [symmetry; exact P|].
    apply good_core in G. destruct G as (G1 & G2). split.
    + constructor; auto. now repeat split.
    + cbn. split; auto. intros f Hf. apply in_map_iff in Hf as (g & <- & Hg).
      unfold rdisj. cbn. specialize (F g Hg). lia.
  - apply top_le. intros e He.
    assert (Hc : In (core e) (mkRange real q size id off 0 :: map core (m_ranges m)))
      by (eapply Permutation_in; [exact P|now apply in_map]).
    destruct Hc as [Hc|Hc].
    + assert (q = r_mapped e) by exact (f_equal r_mapped Hc).
      assert (size = r_size e) by exact (f_equal r_size Hc). lia.
    + apply in_map_iff in Hc as (g & E & Hg).
      assert (r_mapped g = r_mapped e) by exact (f_equal r_mapped E).
      assert (r_size g = r_size e) by exact (f_equal r_size E).
      pose proof (top_in _ _ Hg). lia.
  - now exists q.
Qed.

Lemma place_spec m real size id off :
  Inv m -> fresh_for (m_ranges m) real size -> 0 < size -> real + size < two64 -> off < two64 ->
  top_of (m_ranges m) + size + 2 * m_align m < two64 ->
  exists m', place m real size id off = Ok (true, m') /\ grown m m' real size id off.
Proof.
  intros I F Hs Hr Ho Ht. pose proof I as (Ha & G & T).
  assert (K : forall l, insert_key m real l = Ok (true, mkMapper l (m_align m))).
  { intros l. unfold insert_key. replace (existsb _ _) with false; auto. symmetry.
    apply not_true_iff_false. intros X. apply existsb_exists in X as (e & He & E).
    destruct G as (G1 & _). rewrite Forall_forall in G1. destruct (G1 e He) as (? & _).
    specialize (F e He). apply N.eqb_eq in E. clear -H E F Hs. lia. }
  unfold place.
  assert (HP : exists po, (if m_align m =? 0 then 0 else aligned_offset (m_align m) real) = po /\
             po <= m_align m /\ po <= real /\ (m_align m <> 0 -> po mod m_align m = real mod m_align m)).
  { destruct (align_pos _ Ha) as [E|(H1 & H2 & H3)].
    - rewrite E. exists 0. cbn. repeat split; try lia. 
    - replace (m_align m =? 0) with false by lia. rewrite H3. exists (real mod m_align m).
      assert (real mod m_align m < m_align m) by (apply N.mod_lt; lia).
      assert (real mod m_align m <= real) by (apply N.mod_le; lia).
      repeat split; try lia. intros _. apply N.mod_mod. lia. }
  destruct HP as (po & -> & P1 & P2 & P3).
  destruct (m_ranges m) as [|first rest] eqn:El.
  - rewrite K. eexists. split; [reflexivity|]. apply placed_grown; auto; rewrite El; auto.
    exists po. split; [reflexivity|]. cbn [top_of] in *. split; [|split; [lia|split; [lia|exact P3]]].
    clear P3. split; [|exact Logic.I]. cbn [r_mapped r_size r_un next_start].
    rewrite (sub64_le max64 size) by (unfold max64, two64 in *; lia).
    rewrite sub64_le; unfold max64, two64 in *; lia.
  - rewrite (w64_small (size + po)) by lia.
    destruct (size + po <=? r_mapped first) eqn:Ef.
    + rewrite K. eexists. split; [reflexivity|]. apply placed_grown; auto; rewrite El; auto.
      pose proof (tiled_end _ first T (or_introl eq_refl)).
      exists po. split; [reflexivity|].
      split; [|split; [pose proof (top_in (first :: rest) first (or_introl eq_refl)); lia|split; [lia|exact P3]]].
      split; [|exact T]. cbn [r_mapped r_size r_un next_start].
      clear P3. rewrite (sub64_le (r_mapped first) size) by (unfold max64, two64 in *; lia).
      rewrite sub64_le; unfold max64, two64 in *; lia.
    + assert (Hne : first :: rest <> []) by easy.
      destruct (10000 <=? len (first :: rest)).
      * destruct (try_last_spec (m_align m) real size id off (first :: rest) Ha T Hs Hr Hne Ht)
          as (l' & -> & P & _). rewrite K. eexists. split; [reflexivity|].
        apply placed_grown; auto; rewrite El; auto.
      * destruct (try_all_spec (m_align m) real size id off (first :: rest) Ha T Hs Hr Hne Ht)
          as (l' & -> & P & _). rewrite K. eexists. split; [reflexivity|].
        apply placed_grown; auto; rewrite El; auto.
Qed.

(** * The map ordered by real address *)

Lemma ins_real_perm e l : Permutation (ins_real e l) (e :: l).
Proof.
  induction l as [|f l IH]; cbn; auto. destruct (r_real e <? r_real f); auto.
  rewrite IH. apply perm_swap.
Qed.

Lemma by_real_perm l : Permutation (by_real l) l.
Proof. induction l as [|e l IH]; cbn; auto. rewrite ins_real_perm. now constructor. Qed.

Fixpoint rsorted (l : list range) : Prop :=
  match l with
  | [] => True
  | e :: r => (forall f, In f r -> r_real e <= r_real f) /\ rsorted r
  end.

Lemma ins_real_sorted e l : rsorted l -> rsorted (ins_real e l).
Proof.
  induction l as [|f l IH]; cbn; [now split|]. intros (H1 & H2).
  destruct (r_real e <? r_real f) eqn:E.
  - split; [|now split]. intros g [<-|Hg]; [lia|]. specialize (H1 g Hg). lia.
  - split; [|now apply IH]. intros g Hg.
    apply (Permutation_in _ (ins_real_perm e l)) in Hg. destruct Hg as [<-|Hg]; [lia|now apply H1].
Qed.

Lemma by_real_sorted l : rsorted (by_real l).
Proof. induction l as [|e l IH]; cbn; [easy|]. now apply ins_real_sorted. Qed.

Lemma lower_real_spec l k : rsorted l ->
  (lower_real l k <= length l)%nat /\
  (forall e, In e (firstn (lower_real l k) l) -> r_real e < k) /\
  (forall e, In e (skipn (lower_real l k) l) -> k <= r_real e).
Proof.
  induction l as [|e l IH]; cbn; [easy|]. intros (H1 & H2). destruct (IH H2) as (I1 & I2 & I3).
  destruct (r_real e <? k) eqn:E; cbn.
  - split; [lia|]. split; auto. intros f [<-|Hf]; [lia|auto].
  - split; [lia|]. split; [easy|]. intros f [<-|Hf]; [lia|]. specialize (H1 f Hf). lia.
Qed.

Lemma upper_real_spec l k : rsorted l ->
  (upper_real l k <= length l)%nat /\
  (forall e, In e (firstn (upper_real l k) l) -> r_real e <= k) /\
  (forall e, In e (skipn (upper_real l k) l) -> k < r_real e).
Proof.
  induction l as [|e l IH]; cbn; [easy|]. intros (H1 & H2). destruct (IH H2) as (I1 & I2 & I3).
  destruct (r_real e <=? k) eqn:E; cbn.
  - split; [lia|]. split; auto. intros f [<-|Hf]; [lia|auto].
  - split; [lia|]. split; [easy|]. intros f [<-|Hf]; [lia|]. specialize (H1 f Hf). lia.
Qed.

(** In a sorted disjoint list, everything before position [i] ends at or before
    the start of the range at [i]. *)
Lemma sorted_before al l : good al l -> rsorted l -> forall i e f,
  nth_error l i = Some e -> In f (firstn i l) -> r_real f + r_size f <= r_real e.
Proof.
  intros (G1 & G2). revert G1 G2. induction l as [|x l IH]; intros G1 G2 HS i e f Hi Hf.
  - now destruct i.
  - destruct HS as (S1 & S2). destruct i as [|i]; [easy|]. cbn -[nth_error] in Hf. cbn in Hi.
    inversion G1 as [|? ? Gx Gr]; subst. destruct G2 as (G4 & G5).
    destruct Hf as [<-|Hf]; [|now apply (IH Gr G5 S2 i)].
    apply nth_error_In in Hi. specialize (G4 e Hi). specialize (S1 e Hi).
    rewrite Forall_forall in Gr. destruct Gx as (? & _), (Gr e Hi) as (? & _).
    unfold rdisj in G4. lia.
Qed.

Lemma last_addr_eq real size : 0 < size -> real + size < two64 -> last_addr real size = real + size - 1.
Proof. intros. unfold last_addr. rewrite w64_small by lia. apply sub64_le; lia. Qed.

Lemma intersects_spec al e real size :
  rok al e -> 0 < size -> real + size < two64 ->
  intersects e real size = (r_real e <? real + size) && (real <? r_real e + r_size e).
Proof.
  intros (H1 & H2 & _) H3 H4. unfold intersects. rewrite !last_addr_eq by lia. lia.
Qed.

Lemma range_containing_spec m a :
  Inv m -> a < two64 ->
  match range_containing m a with
  | Some e => In e (m_ranges m) /\ r_real e <= a < r_real e + r_size e
  | None => forall e, In e (m_ranges m) -> ~ (r_real e <= a < r_real e + r_size e)
  end.
Proof.
  intros (Ha & G & T) Hb. unfold range_containing.
  set (l := by_real (m_ranges m)).
  assert (P : Permutation l (m_ranges m)) by apply by_real_perm.
  assert (S : rsorted l) by apply by_real_sorted.
  assert (Gl : good (m_align m) l) by (eapply good_perm; [symmetry; exact P|exact G]).
  assert (Hin : forall e, In e (m_ranges m) -> In e l)
    by (intros e; apply Permutation_in; now symmetry).
  destruct (upper_real_spec l a S) as (U1 & U2 & U3).
  destruct (upper_real l a) as [|i] eqn:U.
  - intros e He. apply Hin in He. specialize (U3 e He). lia.
  - destruct (nth_error l i) as [e|] eqn:Ei; [|apply nth_error_None in Ei; lia].
    assert (In e l) as He by (eapply nth_error_In; exact Ei).
    assert (rok (m_align m) e) as R by (destruct Gl as (G1 & _); rewrite Forall_forall in G1; auto).
    destruct R as (R1 & R2 & _).
    assert (r_real e <= a).
    { apply U2. rewrite (firstn_snoc _ _ _ Ei). apply in_or_app. right. now left. }
    unfold contains_address. rewrite last_addr_eq by lia.
    destruct ((r_real e <=? a) && (a <=? r_real e + r_size e - 1)) eqn:C.
    + split; [|lia]. eapply Permutation_in; [exact P|exact He].
    + intros f Hf Hc. apply Hin in Hf.
      rewrite <- (firstn_skipn (Datatypes.S i) l) in Hf. apply in_app_or in Hf as [Hf|Hf].
      * rewrite (firstn_snoc _ _ _ Ei) in Hf. apply in_app_or in Hf as [Hf|[<-|[]]]; [|lia].
        pose proof (sorted_before _ l Gl S i e f Ei Hf). lia.
      * specialize (U3 f Hf). lia.
Qed.

Lemma candidates_spec m real size :
  Inv m -> 0 < size -> real + size < two64 ->
  exists c, candidates m real size = Ok c /\
    (forall e, In e c -> In e (m_ranges m)) /\ good (m_align m) c /\
    (forall e, In e (m_ranges m) -> intersects e real size = true -> In e c).
Proof.
  intros (Ha & G & T) Hs Hr. unfold candidates.
  set (l := by_real (m_ranges m)).
  assert (P : Permutation l (m_ranges m)) by apply by_real_perm.
  assert (S : rsorted l) by apply by_real_sorted.
  assert (Gl : good (m_align m) l) by (eapply good_perm; [symmetry; exact P|exact G]).
  destruct (lower_real_spec l real S) as (L1 & L2 & L3).
  rewrite (w64_small (real + size)) by lia.
  destruct (lower_real_spec l (real + size) S) as (M1 & M2 & M3).
  set (i := match lower_real l real with O => O | Datatypes.S i => i end).
  set (j := lower_real l (real + size)) in *.
  assert (Hij0 : (lower_real l real <= j)%nat).
  { destruct (le_lt_dec (lower_real l real) j) as [|Hlt]; auto. exfalso.
    destruct (nth_error l j) as [e|] eqn:E; [|apply nth_error_None in E; lia].
    assert (In e (firstn (lower_real l real) l)).
    { apply nth_error_In with j. rewrite <- E. now apply nth_error_firstn_lt. }
    assert (In e (skipn j l)) by now apply nth_error_skipn_in.
    specialize (L2 e H). specialize (M3 e H0). lia. }
  assert (Hij : (i <= j)%nat) by (unfold i; destruct (lower_real l real); lia).
  replace (i <=? j)%nat with true by lia.
  exists (firstn (j - i) (skipn i l)). split; [reflexivity|].
  assert (Hdec : l = firstn i l ++ firstn (j - i) (skipn i l) ++ skipn j l).
  { rewrite <- (firstn_skipn i l) at 1. f_equal.
    rewrite <- (firstn_skipn (j - i) (skipn i l)) at 1. f_equal.
    rewrite skipn_skipn'. f_equal. lia. }
  split; [|split].
  - intros e He. eapply Permutation_in; [exact P|]. rewrite Hdec. apply in_or_app. right.
    apply in_or_app. now left.
  - rewrite Hdec in Gl. clear -Gl. destruct Gl as (G1 & G2). split.
    + apply Forall_app in G1 as (_ & G1). now apply Forall_app in G1 as (G1 & _).
    + revert G2. clear G1. generalize (firstn i l), (firstn (j-i) (skipn i l)), (skipn j l).
      intros a b c. induction a as [|x a IH]; cbn; [|intros (_ & H); auto].
      induction b as [|x b IH]; cbn; auto. intros (H1 & H2). split; auto.
      intros f Hf. apply H1. apply in_or_app. now left.
  - intros e He Hi.
    assert (Hr' : rok (m_align m) e)
      by (destruct G as (G1 & _); rewrite Forall_forall in G1; auto).
    rewrite (intersects_spec (m_align m)) in Hi by auto.
    assert (Hl : In e l) by (eapply Permutation_in; [symmetry; exact P|exact He]).
    rewrite Hdec in Hl. apply in_app_or in Hl as [Hl|Hl]; [|apply in_app_or in Hl as [Hl|Hl]]; auto.
    + exfalso. unfold i in Hl. destruct (lower_real l real) as [|k] eqn:E; [easy|].
      destruct (nth_error l k) as [g|] eqn:Eg; [|apply nth_error_None in Eg; lia].
      pose proof (sorted_before _ l Gl S k g e Eg Hl).
      assert (r_real g < real).
      { apply L2. apply nth_error_In with k. rewrite <- Eg. apply nth_error_firstn_lt. lia. }
      lia.
    + exfalso. specialize (M3 e Hl). lia.
Qed.
