(** A file as a whole. *)
From Verif Require Import Base BytesModel BytesProofs BytesMoreProofs BufferModel BufferSpec BufferProofs
  EventSizeModel Assoc TextModel ReaderOpsModel SampleModel FileModel SerializerModel SerializerProofs AttrModel
  WriteModel WriteSpec WriteProofs WriteFeatureProofs WriteEventProofs WriteFileProofs.
Local Open Scope N_scope.

(** ** The features of the mask *)
Definition fword (p : wdata) : N := N.land (wd_mask p) supported_mask.

Lemma fword_bound p : fword p < 2 ^ 31.
Proof.
  apply N.le_lt_trans with supported_mask; [|vm_compute; reflexivity].
  unfold fword. generalize supported_mask as s, (wd_mask p) as m. intros s m. rewrite N.land_comm.
  assert (E : N.land (N.ldiff s m) (N.land s m) = 0).
  { apply N.bits_inj. intros i. rewrite !N.land_spec, N.ldiff_spec, N.bits_0.
    destruct (N.testbit s i), (N.testbit m i); reflexivity. }
  assert (S : s = N.ldiff s m + N.land s m).
  { rewrite N.add_nocarry_lxor, N.lxor_lor by exact E. symmetry. apply N.lor_ldiff_and. }
  lia.
Qed.

Lemma header_word p : of_le (slice (fh_features (generate_header p)) 0 8) = fword p.
Proof.
  unfold generate_header. cbn [fh_features]. fold (fword p).
  change (le_bytes 8 (fword p) ++ repeat 0 24) with ([] ++ le_bytes 8 (fword p) ++ repeat 0 24).
  rewrite slice_app by (rewrite ?len_le_bytes; reflexivity).
  apply of_le_le_bytes. assert (H := fword_bound p). change (256 ^ N.of_nat 8) with two64. unfold two64.
  change (2 ^ 31) with 2147483648 in H. lia.
Qed.

Lemma selected p : filter (N.testbit (fword p)) feature_types = features_of p.
Proof.
  unfold features_of.
  assert (E : filter (N.testbit supported_mask) feature_types = known_features) by (vm_compute; reflexivity).
  rewrite <- E. clear E. unfold fword. induction feature_types as [|ty l IH]; [reflexivity|].
  cbn [filter]. rewrite N.land_spec. destruct (N.testbit supported_mask ty); cbn [filter];
    destruct (N.testbit (wd_mask p) ty); cbn [andb]; rewrite IH; reflexivity.
Qed.

Lemma select_spec l : NoDup l -> forall m,
  N.land m (fold_right (fun b n => N.setbit n b) 0 l)
  = fold_right (fun ty n => 2 ^ ty + n) 0 (filter (N.testbit m) l).
Proof.
  induction l as [|b l IH]; intros Nd m; [apply N.land_0_r|].
  inversion Nd as [|? ? N1 N2]; subst. cbn [fold_right filter]. set (x := fold_right _ 0 l) in *.
  assert (X : N.testbit x b = false).
  { unfold x. clear -N1. induction l as [|c l IH]; [apply N.bits_0|]. cbn [fold_right].
    rewrite N.setbit_eqb, IH by (intros H; apply N1; now right).
    destruct (N.eqb_spec c b) as [-> |]; [exfalso; apply N1; now left|reflexivity]. }
  assert (G : N.land m (N.setbit x b) = (if N.testbit m b then 2 ^ b else 0) + N.land m x).
  { assert (Z : N.land (if N.testbit m b then 2 ^ b else 0) (N.land m x) = 0).
    { apply N.bits_inj. intros i. rewrite !N.land_spec, N.bits_0.
      destruct (N.testbit m b); [|rewrite N.bits_0; reflexivity]. rewrite N.pow2_bits_eqb.
      destruct (N.eqb_spec b i) as [<- |]; [|reflexivity]. rewrite X. now rewrite andb_false_r. }
    rewrite N.add_nocarry_lxor, N.lxor_lor by exact Z. apply N.bits_inj. intros i.
    rewrite N.lor_spec, !N.land_spec, N.setbit_eqb.
    destruct (N.eqb_spec b i) as [<- |Hb]; cbn [orb].
    - destruct (N.testbit m b); [rewrite N.pow2_bits_true; reflexivity|rewrite N.bits_0; reflexivity].
    - destruct (N.testbit m b); [rewrite N.pow2_bits_false by exact Hb|rewrite N.bits_0]; reflexivity. }
  rewrite G, IH by exact N2. destruct (N.testbit m b); cbn [fold_right]; reflexivity.
Qed.

Lemma fword_word p : fword p = feature_word p.
Proof.
  unfold fword, feature_word, features_of, supported_mask.
  apply (select_spec known_features). repeat constructor; cbn [In]; intuition discriminate.
Qed.

Lemma bits_count x l : fold_right (fun i acc => acc + (if N.testbit x (N.of_nat i) then 1 else 0)) 0 l
  = len (filter (N.testbit x) (map N.of_nat l)).
Proof.
  induction l as [|i l IH]; [reflexivity|]. cbn [fold_right map filter]. rewrite IH.
  destruct (N.testbit x (N.of_nat i)); [rewrite len_cons|]; lia.
Qed.

Lemma bits_upto_count n x : bits_upto n x = len (filter (N.testbit x) (map N.of_nat (List.seq 0 n))).
Proof. unfold bits_upto. apply bits_count. Qed.

Lemma types_seq : map N.of_nat (List.seq 0 31) = 0 :: feature_types.
Proof. reflexivity. Qed.

Lemma filter_drop (f : N -> bool) b l : f b = false -> filter f (b :: l) = filter f l.
Proof. intros H. cbn [filter]. now rewrite H. Qed.
Lemma count1 x : x < 2 ^ N.of_nat 31 -> get_num_bits x = bits_upto 31 x.
Proof. exact (get_num_bits_spec 31 x). Qed.
Lemma count2 x : bits_upto 31 x = len (filter (N.testbit x) (0 :: feature_types)).
Proof. rewrite <- types_seq. exact (bits_upto_count 31 x). Qed.
Lemma count3 x :  N.testbit x 0 = false -> len (filter (N.testbit x) (0 :: feature_types)) = len (filter (N.testbit x) feature_types).
Proof. intros B. rewrite (filter_drop _ _ _ B). reflexivity. Qed.
Lemma count_features x : x < 2 ^ 31 -> N.testbit x 0 = false ->
  get_num_bits x = len (filter (N.testbit x) feature_types).
Proof.
  intros H B. exact (eq_trans (count1 x H) (eq_trans (count2 x) (count3 x B))).
Qed.

Lemma fword_0 p : N.testbit (fword p) 0 = false.
Proof. unfold fword. rewrite N.land_spec. change (N.testbit supported_mask 0) with false. apply andb_false_r. Qed.

Lemma num_features p : num_metadata p = len (features_of p).
Proof.
  rewrite <- (selected p). change (num_metadata p) with (get_num_bits (fword p)).
  exact (count_features (fword p) (fword_bound p) (fword_0 p)).
Qed.

(** ** Buffers keep their length *)
Definition same_room {A} (c : wres A) : Prop := forall w, len (wbuf (snd (c w))) = len (wbuf w).

Lemma room_then {A B} (c : wres A) (k : A -> wres B) : same_room c -> (forall a, same_room (k a)) -> same_room (wthen c k).
Proof.
  intros C K w. unfold wthen. specialize (C w). destruct (c w) as [[a| | | |] w1]; cbn [snd] in *; try exact C.
  rewrite K. exact C.
Qed.
Lemma room_each {A} (c : A -> wres unit) l : (forall x, same_room (c x)) -> same_room (weach c l).
Proof. intros C. induction l; cbn [weach]; [intros w; reflexivity|]. apply room_then; auto. Qed.
Lemma room_data d : same_room (write_data d).
Proof.
  intros w. unfold write_data. destruct (_ || _ || _); [reflexivity|].
  destruct (mem_write (wbuf w) (woff w) d) as [b| | | |] eqn:E; try reflexivity.
  cbn [snd wbuf]. now apply mem_write_len in E.
Qed.
Lemma room_string t n : same_room (write_string t n).
Proof.
  intros w. unfold write_string. destruct (_ <? _); [reflexivity|]. unfold wbind.
  assert (H := room_data (firstn (N.to_nat (N.min (len t) n)) t) w).
  destruct (write_data _ w) as [[[]| | | |] w1]; cbn [snd] in *; try exact H.
  unfold mem_zero. destruct (_ <=? _); [|exact H].
  destruct (mem_write _ _ _) as [b| | | |] eqn:E; cbn [snd wbuf]; try exact H.
  apply mem_write_len in E. lia.
Qed.
Lemma room_text t : same_room (write_string_with_size t).
Proof.
  intros w. unfold write_string_with_size. destruct (can_write_size _ _); [|reflexivity]. unfold wbind.
  assert (H := room_data (le_bytes 4 (w32 (aligned_string_length (len t)))) w).
  destruct (write_data _ w) as [[[]| | | |] w1]; cbn [snd] in *; try exact H. rewrite room_string. exact H.
Qed.
Lemma room_guard b : same_room (wguard b).
Proof. intros w. destruct b; reflexivity. Qed.
Lemma room_lift {A} (o : outcome A) : same_room (wlift o).
Proof. intros w. reflexivity. Qed.
Lemma room_tell : same_room wtell.
Proof. intros w. reflexivity. Qed.
Lemma room_ret {A} (a : A) : same_room (wret a).
Proof. intros w. reflexivity. Qed.

Ltac roomy := repeat first
  [ apply room_data | apply room_text | apply room_guard | apply room_lift | apply room_tell | apply room_ret
  | apply room_each; intros | apply room_then; [|intros] ].
Lemma room_build b : same_room (write_build_id b).
Proof. unfold write_build_id. roomy. Qed.
Lemma room_strings l : same_room (write_strings l).
Proof. unfold write_strings. roomy. Qed.
Lemma room_numbers n ty l : same_room (write_numbers n ty l).
Proof. induction l as [|(t, d) l IH]; cbn [write_numbers]; [roomy|]. destruct (t =? ty); [roomy|exact IH]. Qed.
Lemma room_desc x : same_room (write_event_desc x).
Proof. destruct x as [a [id name]]. cbn [write_event_desc]. roomy. Qed.
Lemma room_feature p ty : same_room (write_feature p ty).
Proof.
  unfold write_feature. cbv zeta.
  repeat match goal with |- same_room (if ?b then _ else _) => destruct b end;
    try apply room_strings; try apply room_numbers; try solve [roomy].
  - unfold write_event_descs. roomy. apply room_desc.
  - unfold write_numa. roomy. destruct x as [[[id size] free] cpus]. roomy.
  - unfold write_groups. roomy. destruct x as [[name leader] members]. roomy.
Qed.
Lemma room_features p F l : same_room (write_features p F l).
Proof.
  induction l as [|ty l IH]; cbn [write_features]; [roomy|]. destruct (N.testbit F ty); [|exact IH].
  apply room_then; [roomy|intros]. apply room_then; [apply room_feature|intros].
  apply room_then; [roomy|intros]. apply room_then; [exact IH|intros]. roomy.
Qed.
