(** The size announced for a file. *)
From Verif Require Import Base BytesModel BytesProofs BytesMoreProofs BufferModel BufferSpec BufferProofs
  EventSizeModel Assoc TextModel ReaderOpsModel SampleModel FileModel SerializerModel SerializerProofs AttrModel
  WriteModel WriteSpec WriteProofs WriteFeatureProofs WriteEventProofs WriteFileProofs WriteAllProofs
  WriteMetadataProofs WriteWholeProofs.
Local Open Scope N_scope.

Lemma w64_add a b a' b' : w64 a = w64 a' -> w64 b = w64 b' -> w64 (a + b) = w64 (a' + b').
Proof.
  unfold w64. intros H K. rewrite (N.add_mod a b) by discriminate. rewrite H, K. rewrite <- N.add_mod by discriminate.
  reflexivity.
Qed.
Lemma w64_w64 a : w64 (w64 a) = w64 a.
Proof. apply w64_small, w64_lt. Qed.
Lemma w64_of a b : a = w64 b -> w64 a = w64 b.
Proof. intros ->. apply w64_w64. Qed.
Lemma w64_sum {A} (f g : A -> N) l : (forall x, In x l -> w64 (f x) = w64 (g x)) -> w64 (sum f l) = w64 (sum g l).
Proof.
  induction l as [|x l IH]; intros H; [reflexivity|]. cbn [sum fold_right]. apply w64_add; [apply H; now left|].
  apply IH. intros y Hy. apply H. now right.
Qed.
Lemma total_len {A} (f : A -> N) (d : A -> list N) l : (forall x, In x l -> w64 (f x) = w64 (len (d x))) ->
  total f l = w64 (len (concat (map d l))).
Proof.
  intros H. rewrite total_sum, (sum_len (fun x => len (d x)) d) by reflexivity. now apply w64_sum.
Qed.

Lemma stored_len t : short_text t -> stored_size t = w64 (len (counted_text t)).
Proof.
  intros H. unfold stored_size. rewrite len_counted, aligned_room; [reflexivity|].
  unfold short_text, two32, two64 in *. lia.
Qed.
Lemma texts_len l : Forall short_text l -> w64 (4 + total stored_size l) = w64 (len (counted_texts l)).
Proof.
  intros H. unfold counted_texts. rewrite len_app, len_le_bytes. apply w64_add; [reflexivity|].
  apply w64_of. apply total_len. intros x Hx. rewrite Forall_forall in H. apply w64_of. apply stored_len. auto.
Qed.

(** ** Each kind of metadata *)
Definition asked (p : wdata) (ty : N) : bool := N.testbit (wd_mask p) ty.
Definition counts (p : wdata) (ty : N) : N := if asked p ty || present p ty then len (feature_bytes p ty) else 0.

Lemma counts_present p ty : present p ty = true -> counts p ty = len (feature_bytes p ty).
Proof. intros H. unfold counts. rewrite H, orb_true_r. reflexivity. Qed.

Lemma builds_counts p : representable p -> build_ids_size p = w64 (counts p 2).
Proof.
  intros R. rewrite counts_present by reflexivity. unfold build_ids_size.
  change (feature_bytes p 2) with (concat (map build_id_bytes (wd_builds p))). apply total_len.
  intros b Hb. assert (F := rp_builds p R). rewrite Forall_forall in F. specialize (F b Hb).
  rewrite (build_id_size b F), aligned_room; [reflexivity|]. destruct F as (_ & _ & F). assert (B := room_bounds (rb_file b)).
  unfold two16, two64 in *. lia.
Qed.

Lemma string_counts p ty : representable p -> consistent p -> In ty [3; 4; 5; 6; 8; 9] ->
  w64 (match aget N.eqb ty (fm_strings (wd_meta p)) with Some t => stored_size t | None => 0 end) = w64 (counts p ty).
Proof.
  intros R (C & _) H.
  assert (Fb : feature_bytes p ty = counted_text (text_or_empty (aget N.eqb ty (fm_strings (wd_meta p))))).
  { cbn [In] in H. repeat (destruct H as [<-|H]; [reflexivity|]). contradiction. }
  assert (Pr : present p ty = match aget N.eqb ty (fm_strings (wd_meta p)) with Some _ => true | None => false end).
  { cbn [In] in H. repeat (destruct H as [<-|H]; [reflexivity|]). contradiction. }
  assert (S := aget_snd (P := short_text) ty _ (rp_strings p R) ltac:(unfold short_text; reflexivity)).
  destruct (aget N.eqb ty (fm_strings (wd_meta p))) as [t|].
  - rewrite counts_present by exact Pr. rewrite Fb. cbn [text_or_empty] in *. apply w64_of. now apply stored_len.
  - unfold counts, asked. destruct (N.testbit (wd_mask p) ty) eqn:T.
    + assert (X := C ty ltac:(cbn [In] in *; intuition) T). rewrite Pr in X. discriminate.
    + rewrite Pr. reflexivity.
Qed.

Lemma cmdline_counts p : representable p -> consistent p ->
  w64 (match fm_cmdline (wd_meta p) with [] => 0 | l => w64 (4 + total stored_size l) end) = w64 (counts p 11).
Proof.
  intros R (C & _).
  assert (Fb : feature_bytes p 11 = counted_texts (fm_cmdline (wd_meta p))) by reflexivity.
  assert (Pr : present p 11 = match fm_cmdline (wd_meta p) with [] => false | _ => true end) by reflexivity.
  assert (S := rp_cmdline p R). destruct (fm_cmdline (wd_meta p)) as [|t l] eqn:E.
  - unfold counts, asked. destruct (N.testbit (wd_mask p) 11) eqn:T.
    + assert (X := C 11 ltac:(cbn [In]; tauto) T). rewrite Pr in X. discriminate.
    + rewrite Pr. reflexivity.
  - rewrite counts_present by exact Pr. rewrite Fb, w64_w64. now apply texts_len.
Qed.

Lemma strings_counts p : representable p -> consistent p ->
  strings_size p = w64 (counts p 3 + (counts p 4 + (counts p 5 + (counts p 6 + (counts p 8 + (counts p 9 + 0))))) + counts p 11).
Proof.
  intros R C. unfold strings_size. cbv zeta. apply w64_add; [|now apply cmdline_counts].
  apply w64_of. rewrite total_sum. unfold string_features, sum. cbn [fold_right].
  repeat (apply w64_add; [apply string_counts; auto; cbn [In]; tauto|]). reflexivity.
Qed.

Lemma numbers_counts (n : nat) ty l : l = [] \/ (exists d, l = [(ty, d)]) ->
  total (fun x => N.of_nat n * len (snd x)) l = w64 (len (concat (map (le_bytes n) (numbers_of ty l)))).
Proof.
  intros [->|[d ->]]; [reflexivity|]. rewrite total_sum. unfold sum, numbers_of. cbn [fold_right aget snd].
  rewrite N.eqb_refl, len_words, N.add_0_r. reflexivity.
Qed.
Lemma u32_counts p : consistent p -> u32_size p = w64 (counts p 7).
Proof. intros (_ & C & _). rewrite counts_present by reflexivity. exact (numbers_counts 4 7 _ C). Qed.
Lemma u64_counts p : consistent p -> u64_size p = w64 (counts p 10).
Proof. intros (_ & _ & C & _). rewrite counts_present by reflexivity. exact (numbers_counts 8 10 _ C). Qed.

Lemma descs_counts p : representable p -> (asked p 12 = true -> len (wd_attrs p) <= len (wd_types p)) ->
  event_desc_size p = w64 (counts p 12).
Proof.
  intros R H. unfold event_desc_size, counts. fold (asked p 12). destruct (asked p 12) eqn:A.
  - specialize (H eq_refl). destruct (N.ltb_spec (len (wd_types p)) (len (wd_attrs p))) as [L|L]; [lia|]. cbn [orb].
    change (feature_bytes p 12) with
      (le_bytes 4 (len (wd_attrs p)) ++ le_bytes 4 96 ++ concat (map event_desc_bytes (combine (wd_attrs p) (wd_types p)))).
    rewrite !len_app, !len_le_bytes, N.add_assoc. apply w64_add; [reflexivity|]. apply w64_of. apply total_len.
    intros x Hx. unfold event_desc_bytes. rewrite !len_app, len_des_attr, len_le_bytes, len_words.
    assert (F := rp_types p R). rewrite Forall_forall in F. destruct x as (a, t). assert (Ht := in_combine_r _ _ _ _ Hx).
    specialize (F t Ht). cbn [fst snd]. rewrite (stored_len (snd t) F).
    rewrite !N.add_assoc. change (N.of_nat 4) with 4. change (N.of_nat 8) with 8.
    repeat (apply w64_add; [|reflexivity]). apply w64_add; [reflexivity|]. apply w64_w64.
  - change (present p 12) with false. cbn [orb]. destruct (len (wd_types p) <? len (wd_attrs p)); reflexivity.
Qed.

Lemma topology_counts p : representable p -> cpu_topology_size p = w64 (counts p 13).
Proof.
  intros R. rewrite counts_present by reflexivity. unfold cpu_topology_size. cbv zeta.
  change (feature_bytes p 13) with
    (counted_texts (fm_cores (wd_meta p)) ++ counted_texts (fm_threads (wd_meta p))
     ++ concat (map (fun c => le_bytes 4 (fst c) ++ le_bytes 4 (snd c)) (fm_cpus (wd_meta p)))).
  rewrite !len_app, N.add_assoc. apply w64_add.
  - rewrite <- N.add_assoc. apply w64_add; apply texts_len; [apply (rp_cores p R)|apply (rp_threads p R)].
  - rewrite (sum_len (fun _ => 8)) by (intros c _; rewrite len_app, !len_le_bytes; reflexivity). f_equal.
    generalize (fm_cpus (wd_meta p)) as l. intros l. induction l as [|c l IH]; [reflexivity|].
    cbn [sum fold_right]. fold (sum (fun _ : N * N => 8) l). rewrite len_cons, <- IH. lia.
Qed.

Lemma counted_list {A} (f : A -> N) (d : A -> list N) (l : list A) :
  (forall x, In x l -> w64 (f x) = w64 (len (d x))) ->
  w64 (4 + total f l) = w64 (len (le_bytes 4 (len l) ++ concat (map d l))).
Proof.
  intros H. rewrite len_app, len_le_bytes. apply w64_add; [reflexivity|]. apply w64_of. now apply total_len.
Qed.

Lemma numa_counts p : representable p -> numa_size p = w64 (counts p 14).
Proof.
  intros R. rewrite counts_present by reflexivity. unfold numa_size.
  apply (counted_list _ (fun x => let '(id, size, free, cpus) := x in
                             le_bytes 4 id ++ le_bytes 8 size ++ le_bytes 8 free ++ counted_text cpus)).
  assert (F := rp_numa p R). rewrite Forall_forall in F. intros x Hx. specialize (F x Hx).
  destruct x as (((a, b), c), d). cbn [snd] in *. rewrite (stored_len d F), !len_app, !len_le_bytes, !N.add_assoc.
  apply w64_add; [reflexivity|apply w64_w64].
Qed.
Lemma pmu_counts p : representable p -> pmu_size p = w64 (counts p 16).
Proof.
  intros R. rewrite counts_present by reflexivity. unfold pmu_size.
  apply (counted_list _ (fun x => le_bytes 4 (fst x) ++ counted_text (snd x))).
  assert (F := rp_pmu p R). rewrite Forall_forall in F. intros x Hx. specialize (F x Hx).
  rewrite (stored_len (snd x) F), !len_app, !len_le_bytes.
  apply w64_add; [reflexivity|apply w64_w64].
Qed.
Lemma group_counts p : representable p -> group_size p = w64 (counts p 17).
Proof.
  intros R. rewrite counts_present by reflexivity. unfold group_size.
  apply (counted_list _ (fun x => let '(name, leader, members) := x in
                             counted_text name ++ le_bytes 4 leader ++ le_bytes 4 members)).
  assert (F := rp_group p R). rewrite Forall_forall in F. intros x Hx. specialize (F x Hx).
  destruct x as ((a, b), c). cbn [fst snd] in *. rewrite (stored_len a F), !len_app, !len_le_bytes, N.add_assoc.
  apply w64_add; [|reflexivity]. apply w64_add; [apply w64_w64|reflexivity].
Qed.
Lemma hybrid_counts p : representable p -> consistent p -> hybrid_size p = w64 (counts p 30).
Proof.
  intros R (_ & _ & _ & C). rewrite counts_present by reflexivity. unfold hybrid_size.
  apply (counted_list _ (fun h => counted_text (xh_name h)
                             ++ counted_text (match text_or_empty (xh_cpus h) with
                                              | [] => format_cpu_numbers (xh_list h)
                                              | t => t
                                              end))).
  assert (F := rp_hybrid p R). rewrite Forall_forall in F, C. intros h Hh.
  destruct (F h Hh) as (F1 & F2 & F3). specialize (C h Hh). rewrite len_app.
  apply w64_add; [apply w64_of, stored_len; exact F1|].
  destruct (xh_cpus h) as [[|b t]|]; cbn [text_or_empty] in *.
  - rewrite C by reflexivity. apply w64_of, stored_len. reflexivity.
  - apply w64_of, stored_len. exact F2.
  - apply w64_of, stored_len. exact F3.
Qed.
Lemma tracing_counts p : len (fm_tracing (wd_meta p)) = counts p 1.
Proof. rewrite counts_present by reflexivity. reflexivity. Qed.
Lemma nothing_counts p : counts p 15 = 0.
Proof. rewrite counts_present by reflexivity. reflexivity. Qed.

(** ** All *)
Lemma counts_split p l :
  sum (counts p) l =
  len (concat (map (feature_bytes p) (filter (N.testbit (wd_mask p)) l))) +
  fold_right (fun ty n => (if negb (N.testbit (wd_mask p) ty) && present p ty then len (feature_bytes p ty) else 0) + n) 0 l.
Proof.
  induction l as [|ty l IH]; [reflexivity|]. cbn [sum fold_right filter]. fold (sum (counts p) l). rewrite IH.
  unfold counts at 1, asked. destruct (N.testbit (wd_mask p) ty); cbn [orb negb andb].
  - cbn [map concat]. rewrite len_app. lia.
  - lia.
Qed.

Lemma counts_known p : sum (counts p) known_features =
  counts p 1 + counts p 2 + (counts p 3 + (counts p 4 + (counts p 5 + (counts p 6 + (counts p 8 + (counts p 9 + 0))))) + counts p 11)
  + counts p 7 + counts p 10 + counts p 12 + counts p 13 + counts p 14 + counts p 16 + counts p 17 + counts p 30.
Proof.
  assert (H := nothing_counts p). unfold sum, known_features. cbn [fold_right]. lia.
Qed.

Lemma image_length ord s p : len (file_image ord s p) =
  image_prefix ord s p + 16 * len (features_of p) + len (concat (map (feature_bytes p) (features_of p))).
Proof.
  rewrite image_split, len_app, len_image_prefix. unfold metadata_bytes, table_and, feature_parts.
  rewrite len_app, len_places.
  assert (L : len (map (feature_bytes p) (features_of p)) = len (features_of p)) by (unfold len; now rewrite map_length).
  rewrite L. lia.
Qed.

Lemma size_image ord s p : representable p -> consistent p ->
  (asked p 12 = true -> len (wd_attrs p) <= len (wd_types p)) -> data_size p = w64 (len (data_bytes ord s p)) ->
  get_size p = w64 (len (file_image ord s p) + left_out p).
Proof.
  intros R C H D.
  assert (E : len (file_image ord s p) + left_out p =
    104 + 112 * len (wd_attrs p) + 0 + len (data_bytes ord s p) + len (ids_bytes (wd_attrs p)) + 16 * num_metadata p
    + counts p 1 + counts p 2 + (counts p 3 + (counts p 4 + (counts p 5 + (counts p 6 + (counts p 8 + (counts p 9 + 0))))) + counts p 11)
    + counts p 7 + counts p 10 + counts p 12 + counts p 13 + counts p 14 + counts p 16 + counts p 17 + counts p 30).
  { assert (K := counts_split p known_features). rewrite counts_known in K. fold (features_of p) in K. fold (left_out p) in K.
    rewrite image_length, num_features. unfold image_prefix. lia. }
  rewrite E. unfold get_size. cbv zeta.
  change (sc_size (fh_attrs (generate_header p))) with (w64 (112 * len (wd_attrs p))).
  change (sc_size (fh_types (generate_header p))) with 0.
  change (sc_size (fh_data (generate_header p))) with (data_size p).
  rewrite tracing_counts, (builds_counts p R), (strings_counts p R C), (u32_counts p C), (u64_counts p C),
    (descs_counts p R H), (topology_counts p R), (numa_counts p R), (pmu_counts p R), (group_counts p R),
    (hybrid_counts p R C), ids_size_len, D.
  repeat (apply w64_add; [|first [apply w64_w64|reflexivity]]). reflexivity.
Qed.
