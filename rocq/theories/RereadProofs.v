(** Reading what is at a place of a file. *)
From Verif Require Import Base BytesModel BytesProofs BytesMoreProofs BufferModel BufferSpec BufferProofs
  EventSizeModel Assoc TextModel ReaderOpsModel SampleModel FileModel SerializerModel AttrModel
  WriteModel WriteSpec WriteProofs WriteLayoutProofs.
Local Open Scope N_scope.

Definition rd (f : list N) (o : N) : reader := mkReader f o false.

(** [c] reads [v] from [o] on and ends at [o']. *)
Definition gets {A} (f : list N) (c : rcall A) (o : N) (v : A) (o' : N) : Prop := c (rd f o) = (Ok v, rd f o').

Lemma at_exists f o n d : slice f o n = d -> o + n <= len f -> at_off f o d.
Proof.
  intros S L. exists (firstn (N.to_nat o) f), (skipn (N.to_nat n) (skipn (N.to_nat o) f)). split.
  - rewrite <- S. unfold slice. now rewrite !firstn_skipn.
  - unfold len in *. rewrite firstn_length. lia.
Qed.
Lemma at_end_le f o d : at_off f o d -> o + len d <= len f.
Proof. intros A. apply (at_slice _ _ _ A). Qed.

(** Texts. *)
Lemma strnlen_text t k : ~ In 0 t -> (0 < k)%nat -> strnlen (t ++ repeat 0 k) = len t.
Proof.
  induction t as [|x t IH]; intros H K.
  - destruct k; [lia|]. reflexivity.
  - cbn [app strnlen]. destruct (N.eqb_spec x 0) as [E|E]; [destruct H; left; exact E|].
    rewrite IH; [|intros I; apply H; now right|exact K]. rewrite len_cons. lia.
Qed.
Lemma room_of_gt t : len t < room_of t.
Proof. unfold room_of. assert (H := N.div_mod (len t) 8 ltac:(discriminate)). assert (B := N.mod_lt (len t) 8 ltac:(discriminate)). lia. Qed.
Lemma len_padded t : len (padded_text t) = room_of t.
Proof.
  unfold padded_text. rewrite len_app. unfold len at 2. rewrite repeat_length, N2Nat.id.
  assert (H := room_of_gt t). lia.
Qed.
Lemma len_counted t : len (counted_text t) = 4 + room_of t.
Proof. unfold counted_text. rewrite len_app, len_le_bytes, len_padded. reflexivity. Qed.
Lemma room_small t : short_text t -> room_of t < two32.
Proof. unfold short_text, room_of, two32. intros H. assert (B := N.mul_div_le (len t) 8 ltac:(discriminate)). lia. Qed.


Section Reading.
Variable f : list N.
Hypothesis Hf : len f < two63.

Lemma gets_bind {A B} (c : rcall A) (k : A -> rcall B) o v o1 w o2 :
  gets f c o v o1 -> gets f (k v) o1 w o2 -> gets f (rbind c k) o w o2.
Proof. unfold gets, rbind. intros -> ->. reflexivity. Qed.
Lemma gets_ret {A} (v : A) o : gets f (rret v) o v o.
Proof. reflexivity. Qed.
Lemma gets_ask {A} (g : reader -> A) o : gets f (rask g) o (g (rd f o)) o.
Proof. reflexivity. Qed.
Lemma gets_guard b o : b = true -> gets f (rguard b) o tt o.
Proof. intros ->. reflexivity. Qed.
Lemma gets_check b o : b = true -> gets f (rcheck b) o tt o.
Proof. intros ->. reflexivity. Qed.
Lemma gets_lift {A} (x : outcome A) v o : x = Ok v -> gets f (rlift x) o v o.
Proof. intros ->. reflexivity. Qed.
Lemma gets_seek o o' : o' <= len f -> gets f (seek_set o') o tt o'.
Proof using.
  clear Hf.
  intros H. unfold gets, seek_set. cbn [rbuf rd]. destruct (N.ltb_spec (len f) o') as [L|L]; [lia|reflexivity].
Qed.

Lemma not_rejected o n : o + n <= len f -> read_rejected (rd f o) n = false.
Proof.
  intros H. unfold read_rejected. cbn [rbuf roff rd]. unfold two63, w64, max64, two64 in *.
  rewrite N.mod_small by lia. apply Bool.orb_false_iff. split; [apply N.ltb_ge|apply N.ltb_ge]; lia.
Qed.
Lemma gets_data o d : at_off f o d -> gets f (read_data (len d)) o d (o + len d).
Proof.
  intros A. destruct (at_slice _ _ _ A) as [S L]. unfold gets, read_data. rewrite not_rejected by exact L.
  unfold mem_read. cbn [rbuf roff rd]. rewrite (proj2 (N.leb_le _ _) L), S. unfold set_off. cbn [rbuf rswap rd].
  unfold w64, two63, two64 in *. rewrite N.mod_small by lia. reflexivity.
Qed.
Lemma gets_data' o d n : at_off f o d -> n = len d -> gets f (read_data n) o d (o + n).
Proof. intros A ->. now apply gets_data. Qed.
Lemma gets_int n o v : at_off f o (le_bytes n v) -> v < 256 ^ N.of_nat n -> gets f (read_int n) o v (o + N.of_nat n).
Proof.
  intros A H. assert (D := gets_data o _ A). rewrite len_le_bytes in D. unfold gets, read_int in *. rewrite D.
  unfold maybe_swap. cbn [rswap rd]. rewrite of_le_le_bytes by exact H. reflexivity.
Qed.
Lemma gets_u32 o v : at_off f o (le_bytes 4 v) -> v < two32 -> gets f read_u32 o v (o + 4).
Proof. exact (gets_int 4 o v). Qed.
Lemma gets_u64 o v : at_off f o (le_bytes 8 v) -> v < two64 -> gets f read_u64 o v (o + 8).
Proof. exact (gets_int 8 o v). Qed.

Lemma gets_string o t : at_off f o (padded_text t) -> ~ In 0 t -> gets f (read_string (room_of t)) o t (o + room_of t).
Proof.
  intros A Z. destruct (at_slice _ _ _ A) as [S L]. rewrite len_padded in S, L.
  unfold gets, read_string. rewrite not_rejected by exact L.
  unfold mem_read. cbn [rbuf roff rd]. rewrite (proj2 (N.leb_le _ _) L), S.
  unfold padded_text. rewrite strnlen_text; [|exact Z|assert (X := room_of_gt t); lia].
  unfold set_off. cbn [rbuf rswap rd]. unfold w64, two63, two64 in *. rewrite N.mod_small by lia.
  unfold len at 1. rewrite Nat2N.id, firstn_app, firstn_all, Nat.sub_diag. cbn [firstn]. now rewrite app_nil_r.
Qed.
Lemma gets_text o t : at_off f o (counted_text t) -> ~ In 0 t -> short_text t ->
  gets f read_string_with_size o t (o + len (counted_text t)).
Proof.
  intros A Z S. unfold counted_text in A. assert (A1 := at_left _ _ _ _ A). assert (A2 := at_right _ _ _ _ A).
  rewrite len_le_bytes in A2. change (N.of_nat 4) with 4 in A2.
  rewrite len_counted. unfold read_string_with_size. eapply gets_bind.
  - apply gets_u32; [exact A1|now apply room_small].
  - rewrite N.add_assoc. now apply gets_string.
Qed.

(** One item behind the other. *)
Lemma gets_n {A B} (c : rcall B) (enc : A -> list N) (dec : A -> B) l :
  (forall x o, In x l -> at_off f o (enc x) -> gets f c o (dec x) (o + len (enc x))) ->
  forall o, at_off f o (concat (map enc l)) ->
  gets f (read_n (length l) c) o (map dec l) (o + len (concat (map enc l))).
Proof.
  induction l as [|x l IH]; intros H o P.
  - cbn [map concat length read_n]. change (len []) with 0. rewrite N.add_0_r. apply gets_ret.
  - cbn [map concat length read_n] in *. rewrite len_app, N.add_assoc.
    eapply gets_bind; [apply H; [now left|now apply at_left in P]|]. cbn beta.
    eapply gets_bind; [apply IH; [intros y o' I; apply H; now right|now apply at_right in P]|]. apply gets_ret.
Qed.
Lemma gets_n' {A B} (c : rcall B) (enc : A -> list N) (dec : A -> B) l n :
  (forall x o, In x l -> at_off f o (enc x) -> gets f c o (dec x) (o + len (enc x))) -> n = len l ->
  forall o, at_off f o (concat (map enc l)) ->
  gets f (read_n (N.to_nat n) c) o (map dec l) (o + len (concat (map enc l))).
Proof. intros H ->. unfold len at 1. rewrite Nat2N.id. now apply gets_n. Qed.

Lemma gets_words n (l : list N) o : Forall (fun v => v < 256 ^ N.of_nat n) l ->
  at_off f o (concat (map (le_bytes n) l)) ->
  gets f (read_n (length l) (read_int n)) o l (o + len (concat (map (le_bytes n) l))).
Proof.
  intros F A. rewrite <- (map_id l) at 2. apply gets_n; [|exact A].
  intros x o' I A'. rewrite len_le_bytes. apply gets_int; [exact A'|]. rewrite Forall_forall in F. auto.
Qed.

Lemma gets_texts (l : list (list N)) o : Forall (fun t => ~ In 0 t /\ short_text t) l ->
  at_off f o (concat (map counted_text l)) ->
  gets f (read_n (length l) read_string_with_size) o l (o + len (concat (map counted_text l))).
Proof.
  intros F A. rewrite <- (map_id l) at 2. apply gets_n; [|exact A].
  intros x o' I A'. rewrite Forall_forall in F. destruct (F x I). now apply gets_text.
Qed.
End Reading.
