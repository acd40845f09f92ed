(** Following the offsets of a file that was written. *)
From Verif Require Import Base BytesModel BytesProofs BytesMoreProofs BufferModel BufferSpec BufferProofs
  EventSizeModel Assoc TextModel ReaderOpsModel SampleModel FileModel SerializerModel SerializerProofs SerializerLastKindProofs AttrModel
  WriteModel WriteSpec WriteProofs WriteFeatureProofs WriteEventProofs WriteFileProofs WriteAllProofs
  WriteMetadataProofs WriteWholeProofs.
Local Open Scope N_scope.

(** [d] is at [off] in [f]. *)
Definition at_off (f : list N) (off : N) (d : list N) : Prop := exists a b, f = a ++ d ++ b /\ off = len a.

Lemma at_slice f off d : at_off f off d -> slice f off (len d) = d /\ off + len d <= len f.
Proof.
  intros (a & b & -> & ->). split; [now apply slice_app|]. rewrite !len_app. lia.
Qed.
Lemma at_word f off x : x < two64 -> at_off f off (le_bytes 8 x) -> word_at f off = x.
Proof.
  intros H A. apply at_slice in A as [A _]. unfold word_at. rewrite len_le_bytes in A. change (N.of_nat 8) with 8 in A.
  rewrite A. apply of_le_le_bytes. exact H.
Qed.
Lemma at_left f off d e : at_off f off (d ++ e) -> at_off f off d.
Proof. intros (a & b & -> & ->). exists a, (e ++ b). now rewrite <- app_assoc. Qed.
Lemma at_right f off d e : at_off f off (d ++ e) -> at_off f (off + len d) e.
Proof. intros (a & b & -> & ->). exists (a ++ d), b. rewrite len_app, <- !app_assoc. split; reflexivity. Qed.
Lemma at_refers f t off d : at_off f t (place off (len d)) -> at_off f off d -> len f < two64 -> refers f t d.
Proof.
  intros T A H. destruct (at_slice _ _ _ A) as [S L]. unfold place in T.
  assert (W1 : word_at f t = off) by (apply at_word; [lia|now apply at_left in T]).
  assert (W2 : word_at f (t + 8) = len d).
  { apply at_word; [lia|]. apply at_right in T. rewrite len_le_bytes in T. exact T. }
  assert (L16 := proj2 (at_slice _ _ _ T)). rewrite len_app, !len_le_bytes in L16. change (N.of_nat 8 + N.of_nat 8) with 16 in L16.
  unfold refers. rewrite W1, W2. auto.
Qed.

Lemma at_parts f parts : forall off i d, at_off f off (concat parts) -> nth_error parts i = Some d ->
  at_off f (off + len (concat (firstn i parts))) d.
Proof.
  induction parts as [|x l IH]; intros off i d A N; [destruct i; discriminate|]. cbn [concat] in A.
  destruct i as [|i]; cbn [nth_error] in N.
  - injection N as ->. cbn [firstn concat]. change (len []) with 0. rewrite N.add_0_r. now apply at_left in A.
  - apply at_right in A. cbn [firstn concat]. rewrite len_app, N.add_assoc. now apply IH.
Qed.
Lemma nth_places parts : forall off i d, nth_error parts i = Some d ->
  nth_error (places off parts) i = Some (place (off + len (concat (firstn i parts))) (len d)).
Proof.
  induction parts as [|x l IH]; intros off i d N; [destruct i; discriminate|].
  destruct i as [|i]; cbn [nth_error places firstn concat] in *.
  - injection N as ->. change (len []) with 0. now rewrite N.add_0_r.
  - rewrite (IH _ _ _ N), len_app. do 2 f_equal. lia.
Qed.
Lemma first_places parts : forall off i d, nth_error parts i = Some d ->
  len (concat (firstn i (places off parts))) = 16 * N.of_nat i.
Proof.
  induction parts as [|x l IH]; intros off i d N; [destruct i; discriminate|].
  destruct i as [|i]; [reflexivity|]. cbn [nth_error places firstn concat] in *.
  rewrite len_app, len_place, (IH _ _ _ N). lia.
Qed.

Lemma at_tables f off parts i d : at_off f off (table_and off parts) -> nth_error parts i = Some d -> len f < two64 ->
  refers f (off + 16 * N.of_nat i) d.
Proof.
  intros A N H. unfold table_and in A. assert (A1 := at_left _ _ _ _ A). assert (A2 := at_right _ _ _ _ A).
  rewrite len_places in A2.
  assert (P := nth_places parts (off + 16 * len parts) i d N).
  assert (F := first_places parts (off + 16 * len parts) i d N).
  assert (T := at_parts f _ off i _ A1 P). rewrite F in T.
  apply at_refers with (off + 16 * len parts + len (concat (firstn i parts))); [exact T| |exact H].
  now apply at_parts.
Qed.

(** Attributes: an entry of 112 bytes each. *)
Lemma at_entry f l : forall off ids_off i a, at_off f off (attr_entries ids_off l) -> at_off f ids_off (ids_bytes l) ->
  nth_error l i = Some a -> len f < two64 ->
  at_off f (off + 112 * N.of_nat i) (des_attr (fx_attr a)) /\
  refers f (off + 112 * N.of_nat i + 96) (concat (map (le_bytes 8) (fx_ids a))).
Proof.
  induction l as [|x l IH]; intros off ids_off i a A B N H; [destruct i; discriminate|].
  cbn [attr_entries] in A. unfold ids_bytes in B. cbn [map concat] in B. fold (ids_bytes l) in B.
  destruct i as [|i]; cbn [nth_error] in N.
  - injection N as ->. change (112 * N.of_nat 0) with 0. rewrite N.add_0_r. split; [now apply at_left in A|].
    apply at_right in A. rewrite len_des_attr in A. apply at_left in A. apply at_left in B.
    apply at_refers with ids_off; [|exact B|exact H]. rewrite len_words. exact A.
  - apply at_right, at_right in A. rewrite len_des_attr, len_place in A. apply at_right in B. rewrite len_words in B.
    change (N.of_nat 8) with 8 in B.
    destruct (IH _ _ _ _ A B N H) as [E1 E2].
    replace (off + 112 * N.of_nat (S i)) with (off + 96 + 16 + 112 * N.of_nat i) by lia. auto.
Qed.

Lemma existsb_filter (f : N -> bool) ty l : existsb (N.eqb ty) (filter f l) = f ty && existsb (N.eqb ty) l.
Proof.
  induction l as [|x l IH]; cbn [existsb filter]; [now rewrite andb_false_r|].
  destruct (N.eqb_spec ty x) as [<- |E]; cbn [orb].
  - destruct (f ty) eqn:F; cbn [existsb andb]; [now rewrite N.eqb_refl|]. rewrite IH. reflexivity.
  - destruct (f x); [|exact IH]. cbn [existsb]. rewrite IH. destruct (N.eqb_spec ty x); [contradiction|reflexivity].
Qed.
Lemma mask_bits ty l : N.testbit (fold_right (fun b m => N.setbit m b) 0 l) ty = existsb (N.eqb ty) l.
Proof.
  induction l as [|x l IH]; [apply N.bits_0|]. cbn [fold_right existsb]. rewrite N.setbit_eqb, IH, (N.eqb_sym x ty). reflexivity.
Qed.
Lemma supported_known : supported_features = known_features.
Proof. reflexivity. Qed.
Lemma fword_bits p ty : N.testbit (fword p) ty = existsb (N.eqb ty) (features_of p).
Proof.
  unfold fword, supported_mask, features_of. rewrite N.land_spec, mask_bits, existsb_filter, supported_known. reflexivity.
Qed.

Lemma image_laid_out ord s p f : len f < two64 -> at_off f 0 (file_image ord s p) -> laid_out ord s p f.
Proof.
  intros H A. rewrite image_split in A.
  assert (AM := at_right _ _ _ _ A). rewrite len_image_prefix, N.add_0_l in AM. apply at_left in A.
  assert (AB := at_right _ _ _ _ A). rewrite len_head, N.add_0_l in AB. apply at_left in A.
  unfold image_body in AB. assert (AI := at_left _ _ _ _ AB). apply at_right in AB.
  assert (AE := at_left _ _ _ _ AB). apply at_right in AB. rewrite len_entries in AB.
  unfold image_prefix in AM. set (ids := ids_bytes (wd_attrs p)) in *. set (n := len (wd_attrs p)) in *.
  set (D := data_bytes ord s p) in *.
  assert (Bd := proj2 (at_slice _ _ _ AB)). assert (Be := proj2 (at_slice _ _ _ AE)). rewrite len_entries in Be. fold n in Be.
  unfold image_head in A. cbv zeta in A. fold ids n D in A.
  assert (A0 := at_left _ _ _ _ A). apply at_right in A. rewrite len_le_bytes in A. change (0 + N.of_nat 8) with 8 in A.
  assert (A8 := at_left _ _ _ _ A). apply at_right in A. rewrite len_le_bytes in A. change (8 + N.of_nat 8) with 16 in A.
  assert (A16 := at_left _ _ _ _ A). apply at_right in A. rewrite len_le_bytes in A. change (16 + N.of_nat 8) with 24 in A.
  assert (A24 := at_left _ _ _ _ A). apply at_right in A. rewrite len_place in A. change (24 + 16) with 40 in A.
  assert (A40 := at_left _ _ _ _ A). apply at_right in A. rewrite len_place in A. change (40 + 16) with 56 in A.
  assert (A56 := at_left _ _ _ _ A). apply at_right in A. rewrite len_place in A. change (56 + 16) with 72 in A.
  assert (W24 : word_at f 24 = 104 + len ids).
  { apply at_word; [lia|]. unfold place in A24. now apply at_left in A24. }
  assert (W32 : word_at f 32 = 112 * n).
  { apply at_word; [lia|]. unfold place in A24. apply at_right in A24. rewrite len_le_bytes in A24. exact A24. }
  assert (RD : refers f 40 D) by (apply at_refers with (104 + len ids + 112 * n); auto).
  assert (W40 : word_at f 40 = 104 + len ids + 112 * n).
  { apply at_word; [lia|]. unfold place in A40. now apply at_left in A40. }
  assert (W64 : word_at f 64 = 0).
  { apply at_word; [reflexivity|]. unfold place in A56. apply at_right in A56. rewrite len_le_bytes in A56. exact A56. }
  assert (W48 : word_at f 48 = len D) by exact (proj1 (proj2 RD)).
  assert (W56 : word_at f 56 <= len f).
  { unfold place in A56. apply at_left in A56. erewrite at_word; [|clear A56|exact A56]; clear - Bd H; lia. }
  assert (L104 : 104 <= len f).
  { assert (X := proj2 (at_slice _ _ _ A)). rewrite len_app, len_le_bytes in X. change (N.of_nat 8 + len (repeat 0 24)) with 32 in X.
    clear - X. lia. }
  constructor.
  - apply at_word; [reflexivity|exact A0].
  - split; apply at_word; try reflexivity; [exact A8|exact A16].
  - exact W32.
  - intros i a N. cbv zeta. rewrite W24.
    destruct (at_entry f (wd_attrs p) (104 + len ids) 104 i a AE AI N H) as [E1 E2]. split; [|exact E2].
    apply at_slice in E1 as [E1 _]. rewrite len_des_attr in E1. exact E1.
  - exact RD.
  - exact W64.
  - split; [exact L104|]. split; [rewrite W24, W32; clear - Be; lia|exact W56].
  - intros ty. apply at_slice in A as [A _]. rewrite len_app, len_le_bytes in A.
    change (N.of_nat 8 + len (repeat 0 24)) with 32 in A. rewrite A, <- fword_word, of_le_app, of_le_zeros, N.mul_0_r, N.add_0_r.
    rewrite of_le_le_bytes; [apply fword_bits|]. eapply N.lt_trans; [apply fword_bound|reflexivity].
  - intros i ty N. rewrite W40, W48. apply at_tables with (feature_parts p); [exact AM| |exact H].
    unfold feature_parts. now apply map_nth_error.
Qed.
