(** Writing files: the statements of C43. *)
From Verif Require Import Base BytesModel BytesProofs BytesMoreProofs BufferModel BufferSpec BufferProofs
  EventSizeModel Assoc TextModel ReaderOpsModel SampleModel FileModel SerializerModel SerializerProofs AttrModel
  WriteModel WriteSpec WriteProofs WriteFeatureProofs WriteEventProofs WriteFileProofs WriteAllProofs
  WriteMetadataProofs WriteWholeProofs WriteSizeProofs WriteLayoutProofs.
Local Open Scope N_scope.

Lemma from_start buf : mkWriter buf 0 = at_end [] buf.
Proof. reflexivity. Qed.

Lemma vector_sound ord room s p f : representable p -> room < two63 -> write_to_vector ord room s p = Ok f ->
  len f = get_size p /\
  f = file_image ord s p ++ repeat 0 (N.to_nat (get_size p - len (file_image ord s p))) /\
  len (file_image ord s p) <= get_size p <= room /\
  Forall (event_ok ord s) (wd_events p) /\ (wd_events p = [] \/ ss_readers s <> []) /\
  Forall (feature_ok p) (features_of p) /\ data_size p = len (data_bytes ord s p).
Proof.
  intros R H. unfold write_to_vector. set (n := get_size p).
  destruct (N.ltb_spec room n) as [L|L]; [discriminate|]. destruct (N.eqb_spec n 0) as [Z|Z]; [discriminate|].
  rewrite from_start.
  destruct (write_all ord s p (at_end [] (repeat 0 (N.to_nat n)))) as [[u| | | |] w] eqn:E; try discriminate.
  intros Q. injection Q as <-.
  assert (Ln : len (repeat 0 (N.to_nat n)) = n) by (rewrite len_repeat; lia).
  destruct (write_all_sound ord s p _ u w R ltac:(rewrite Ln; lia) E) as (L1 & -> & K). rewrite Ln in L1.
  cbn [at_end wbuf].
  assert (Q : drop (len (file_image ord s p)) (repeat 0 (N.to_nat n)) = repeat 0 (N.to_nat (n - len (file_image ord s p)))).
  { unfold drop. replace (N.to_nat n) with (N.to_nat (len (file_image ord s p)) + N.to_nat (n - len (file_image ord s p)))%nat by lia.
    generalize (N.to_nat (n - len (file_image ord s p))) as b. generalize (N.to_nat (len (file_image ord s p))) as a. intros a b.
    induction a as [|a IH]; [reflexivity|exact IH]. }
  rewrite Q. split; [rewrite len_app, len_repeat; lia|]. split; [reflexivity|]. split; [split; [exact L1|exact L]|exact K].
Qed.

Lemma pointer_sound ord s p buf f : representable p -> len buf < two63 -> write_to_pointer ord s p buf = Ok f ->
  len (file_image ord s p) <= len buf /\
  f = file_image ord s p ++ skipn (N.to_nat (len (file_image ord s p))) buf /\
  Forall (event_ok ord s) (wd_events p) /\ (wd_events p = [] \/ ss_readers s <> []) /\
  Forall (feature_ok p) (features_of p) /\ data_size p = len (data_bytes ord s p).
Proof.
  intros R H. unfold write_to_pointer. destruct (len buf <? get_size p); [discriminate|]. rewrite from_start.
  destruct (write_all ord s p (at_end [] buf)) as [[u| | | |] w] eqn:E; try discriminate.
  intros Q. injection Q as <-.
  destruct (write_all_sound ord s p _ u w R H E) as (L1 & -> & K). split; [exact L1|]. split; [reflexivity|exact K].
Qed.

Lemma known_12 : In 12 known_features.
Proof. vm_compute. intuition. Qed.
Lemma asked_in p : asked p 12 = true -> In 12 (features_of p).
Proof. exact (fun A => features_in p 12 known_12 A). Qed.
Lemma feature_in p ty : Forall (feature_ok p) (features_of p) -> In ty (features_of p) -> feature_ok p ty.
Proof. generalize (features_of p) as l. exact (fun l F I => proj1 (Forall_forall (feature_ok p) l) F ty I). Qed.
Lemma feature_descs p : feature_ok p 12 -> len (wd_attrs p) <= len (wd_types p).
Proof. exact (fun H => proj1 (proj2 (proj2 H) eq_refl)). Qed.
Lemma descs_asked p : Forall (feature_ok p) (features_of p) -> asked p 12 = true -> len (wd_attrs p) <= len (wd_types p).
Proof. exact (fun F A => feature_descs p (feature_in p 12 F (asked_in p A))). Qed.

(** Layout. *)
Lemma at_start a b : at_off (a ++ b) 0 a.
Proof. exists [], b. split; reflexivity. Qed.
Lemma vector_layout ord room s p f : representable p -> room < two63 -> write_to_vector ord room s p = Ok f ->
  len f = get_size p /\ laid_out ord s p f.
Proof.
  intros R H E. assert (Q := vector_sound ord room s p f R H E). destruct Q as (L & F & B & _). split; [exact L|].
  apply image_laid_out.
  - clear - L B H. unfold two63, two64 in *. lia.
  - rewrite F. apply at_start.
Qed.
Lemma pointer_layout ord s p buf f : representable p -> len buf < two63 -> write_to_pointer ord s p buf = Ok f ->
  len f = len buf /\ laid_out ord s p f.
Proof.
  intros R H E. assert (Q := pointer_sound ord s p buf f R H E). destruct Q as (L & F & _).
  assert (Lf : len f = len buf).
  { rewrite F, len_app. fold (drop (len (file_image ord s p)) buf). rewrite len_drop. lia. }
  split; [exact Lf|]. apply image_laid_out.
  - rewrite Lf. unfold two63, two64 in *. lia.
  - rewrite F. apply at_start.
Qed.

(** Sizes. *)
Lemma vector_size ord room s p f : representable p -> consistent p -> room < two63 ->
  len (file_image ord s p) + left_out p < two64 -> write_to_vector ord room s p = Ok f ->
  f = file_image ord s p ++ repeat 0 (N.to_nat (left_out p)).
Proof.
  intros R C H B E. destruct (vector_sound ord room s p f R H E) as (L & F & _ & _ & _ & K & D).
  assert (S : get_size p = len (file_image ord s p) + left_out p).
  { rewrite (size_image ord s p R C (descs_asked p K)); [now apply w64_small|].
    rewrite D. symmetry. apply w64_small. rewrite <- D. apply data_size_lt. }
  rewrite F, S. do 3 f_equal. lia.
Qed.
Lemma pointer_size ord s p buf f : representable p -> consistent p -> len buf < two63 ->
  len (file_image ord s p) + left_out p < two64 -> write_to_pointer ord s p buf = Ok f ->
  get_size p = len (file_image ord s p) + left_out p /\ get_size p <= len buf /\
  f = file_image ord s p ++ skipn (N.to_nat (len (file_image ord s p))) buf.
Proof.
  intros R C H B E. destruct (pointer_sound ord s p buf f R H E) as (L & F & _ & _ & K & D).
  split; [|split; [|exact F]].
  - rewrite (size_image ord s p R C (descs_asked p K)); [now apply w64_small|].
    rewrite D. symmetry. apply w64_small. rewrite <- D. apply data_size_lt.
  - unfold write_to_pointer in E. destruct (N.ltb_spec (len buf) (get_size p)); [discriminate|assumption].
Qed.

Lemma vector_exact ord room s p f : representable p -> consistent p -> room < two63 ->
  left_out p = 0 -> len (file_image ord s p) < two64 -> write_to_vector ord room s p = Ok f ->
  f = file_image ord s p /\ len f = get_size p.
Proof.
  intros R C H Z B E. split; [|exact (proj1 (vector_sound ord room s p f R H E))].
  rewrite (vector_size ord room s p f R C H ltac:(lia) E), Z. cbn [N.to_nat repeat]. apply app_nil_r.
Qed.

(** Everything that can be written is. *)
Lemma events_writable ord s p : representable p -> Forall (event_writable ord s) (wd_events p) ->
  Forall (event_ok ord s) (wd_events p) /\ data_size p = w64 (len (data_bytes ord s p)).
Proof.
  intros R W. assert (F := event_fits_all p R). split.
  - eapply Forall_impl; [|exact W]. intros x (H1 & H2 & H3 & _). repeat split; assumption.
  - unfold data_size, data_bytes. rewrite (total_len _ (event_bytes ord s)); [reflexivity|].
    rewrite Forall_forall in W, F. intros x Hx. destruct (W x Hx) as (H1 & H2 & (e & H3) & H4). f_equal.
    unfold event_bytes. rewrite H3, len_app. destruct (len_event ord s x e (F x Hx) H2 H3) as [-> _]. f_equal.
    destruct (N.eqb_spec (xe_type x) R_AUXTRACE) as [T|T]; cbn [andb]; [|reflexivity].
    rewrite (H4 T). destruct (N.ltb_spec 0 (len (xat_trace (get_auxtrace (xe_body x))))) as [L|L]; [reflexivity|].
    change (len []) with 0. lia.
Qed.

Lemma numbers_there ty (l : list (N * list N)) : l = [] \/ (exists d, l = [(ty, d)]) -> l <> [] -> aget N.eqb ty l <> None.
Proof.
  intros [->|[d ->]] H; [contradiction|]. cbn [aget]. rewrite N.eqb_refl. discriminate.
Qed.

Lemma features_writable ord s p : writable ord s p -> Forall (feature_ok p) (features_of p).
Proof.
  intros (R & (C1 & C2 & C3 & C4) & _ & _ & W7 & W10 & W12 & _). apply Forall_forall. intros ty I.
  assert (T := proj2 (proj1 (filter_In _ _ _) I)). clear I. unfold feature_ok. split; [|split]; intros ->.
  - apply numbers_there; auto.
  - apply numbers_there; auto.
  - exact (W12 T).
Qed.

Lemma left_some p : N.testbit (wd_mask p) 30 = false -> 0 < left_out p.
Proof.
  intros T. assert (H := hybrid_nonempty p). unfold left_out.
  assert (K : forall (f : N -> N) l, In 30 l -> f 30 <= fold_right (fun ty n => f ty + n) 0 l).
  { intros f l. induction l as [|x l IH]; intros I; [contradiction|]. cbn [fold_right].
    destruct I as [->|I]; [lia|]. specialize (IH I). lia. }
  specialize (K (fun ty => if negb (N.testbit (wd_mask p) ty) && present p ty then len (feature_bytes p ty) else 0)
                known_features known_30). cbn beta in K. rewrite T in K. change (negb false && present p 30) with true in K. lia.
Qed.

Lemma writable_size ord s p : writable ord s p -> get_size p = len (file_image ord s p) + left_out p.
Proof.
  intros W. assert (K := features_writable ord s p W). destruct W as (R & C & We & _ & _ & _ & _ & B).
  destruct (events_writable ord s p R We) as [_ D]. rewrite (size_image ord s p R C (descs_asked p K) D).
  apply w64_small. unfold two63, two64 in *. lia.
Qed.

Lemma writable_runs ord s p rest : writable ord s p -> get_size p <= len rest -> len rest < two63 ->
  write_all ord s p (at_end [] rest) = (Ok tt, at_end (file_image ord s p) (drop (len (file_image ord s p)) rest)).
Proof.
  intros W L H. assert (S := writable_size ord s p W). assert (K := features_writable ord s p W).
  destruct W as (R & C & We & Hr & _ & _ & _ & B).
  destruct (events_writable ord s p R We) as [Ev D].
  apply write_all_complete; auto.
  - rewrite D. apply w64_small. assert (Q := image_length ord s p). unfold image_prefix in Q. unfold two63, two64 in *. lia.
  - destruct (N.testbit (wd_mask p) 30) eqn:T; [right; split; [reflexivity|lia]|].
    left. assert (Q := left_some p T). lia.
Qed.

Lemma image_nonempty ord s p : 104 <= len (file_image ord s p).
Proof. assert (Q := image_length ord s p). unfold image_prefix in Q. lia. Qed.

Lemma vector_total ord room s p : writable ord s p -> get_size p <= room ->
  exists f, write_to_vector ord room s p = Ok f.
Proof.
  intros W H. assert (S := writable_size ord s p W). unfold write_to_vector. set (n := get_size p) in *.
  assert (B : len (file_image ord s p) + left_out p < two63) by apply W. assert (Q := image_nonempty ord s p).
  destruct (N.ltb_spec room n); [lia|]. destruct (N.eqb_spec n 0); [lia|]. rewrite from_start.
  assert (Ln : len (repeat 0 (N.to_nat n)) = n) by (rewrite len_repeat; lia).
  rewrite (writable_runs ord s p _ W) by (rewrite Ln; lia). eexists. reflexivity.
Qed.
Lemma pointer_total ord s p buf : writable ord s p -> get_size p <= len buf -> len buf < two63 ->
  exists f, write_to_pointer ord s p buf = Ok f.
Proof.
  intros W H B. unfold write_to_pointer. destruct (N.ltb_spec (len buf) (get_size p)); [lia|]. rewrite from_start.
  rewrite (writable_runs ord s p _ W H B). eexists. reflexivity.
Qed.
Lemma pointer_short ord s p buf : len buf < get_size p -> write_to_pointer ord s p buf = Fail.
Proof. intros H. unfold write_to_pointer. apply N.ltb_lt in H. now rewrite H. Qed.

(** Bytes far behind what was written. *)
Lemma beyond (img buf : list N) n : len img <= n -> n <= len buf ->
  skipn (N.to_nat n) (img ++ skipn (N.to_nat (len img)) buf) = skipn (N.to_nat n) buf.
Proof.
  intros H1 H2. assert (L : (length img <= N.to_nat n)%nat) by (unfold len in H1; lia).
  rewrite skipn_app, (skipn_all2 img) by exact L. cbn [app].
  rewrite skipn_skipn'. f_equal. unfold len. lia.
Qed.
