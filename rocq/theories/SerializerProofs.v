(** Storing the fields of a message into a zeroed block. *)
From Verif Require Import Base BytesModel BytesProofs BytesMoreProofs BufferModel EventSizeModel
  EventSizeSpec EventSizeProofs TextModel SampleModel SampleSpec SampleProofs SampleReadProofs
  FileModel FileProofs SerializerModel SerializerSpec.
From Coq Require Import Permutation.
Local Open Scope N_scope.

(** ** Bytes of a block *)
Lemma byte_nth (e : list N) i : i < len e -> nth_error e (N.to_nat i) = Some (byte e i).
Proof. intros H. unfold byte. apply nth_error_nth'. unfold len in H. lia. Qed.

Lemma bytes_ext (a b : list N) : len a = len b -> (forall i, i < len a -> byte a i = byte b i) -> a = b.
Proof.
  intros L H. apply nth_ext with (d := 0) (d' := 0); [unfold len in L; lia|].
  intros n Hn. specialize (H (N.of_nat n)). unfold byte, len in H. rewrite Nat2N.id in H. apply H. lia.
Qed.

Lemma byte_slice (e : list N) o n i : i < n -> byte (slice e o n) i = byte e (o + i).
Proof.
  intros H. unfold byte, slice. rewrite N2Nat.inj_add.
  destruct (Nat.lt_ge_cases (N.to_nat o + N.to_nat i) (length e)) as [L|L].
  - apply nth_error_nth. rewrite nth_firstn, nth_skipn by lia. now apply nth_error_nth'.
  - rewrite !nth_overflow; auto. rewrite firstn_length, skipn_length. lia.
Qed.

Lemma byte_app1 (a b : list N) i : i < len a -> byte (a ++ b) i = byte a i.
Proof. intros H. unfold byte. apply app_nth1. unfold len in H. lia. Qed.
Lemma byte_app2 (a b : list N) i : len a <= i -> byte (a ++ b) i = byte b (i - len a).
Proof.
  intros H. unfold byte. rewrite app_nth2 by (unfold len in H; lia). f_equal. unfold len. lia.
Qed.
Lemma byte_zeros n i : byte (repeat 0 n) i = 0.
Proof.
  unfold byte. destruct (Nat.lt_ge_cases (N.to_nat i) n) as [H|H].
  - apply nth_repeat.
  - apply nth_overflow. now rewrite repeat_length.
Qed.

Lemma slice_bytes (a b : list N) o n :
  o + n <= len a -> o + n <= len b -> (forall i, o <= i -> i < o + n -> byte a i = byte b i) ->
  slice a o n = slice b o n.
Proof.
  intros Ha Hb H. apply bytes_ext; [now rewrite !len_slice|].
  intros i Hi. rewrite len_slice in Hi by exact Ha. rewrite !byte_slice by exact Hi. apply H; lia.
Qed.

Lemma slice_byte (a b : list N) o n i :
  slice a o n = slice b o n -> o <= i -> i < o + n -> byte a i = byte b i.
Proof.
  intros H H1 H2. replace i with (o + (i - o)) by lia.
  rewrite <- !(byte_slice _ o n) by lia. now rewrite H.
Qed.

(** ** Stores *)
Definition range (x : N * list N) : N * N := (fst x, len (snd x)).

Lemma mem_write_bytes b o d b' :
  mem_write b o d = Ok b' ->
  len b' = len b /\ o + len d <= len b /\
  forall i, byte b' i = if (o <=? i) && (i <? o + len d) then byte d (i - o) else byte b i.
Proof.
  unfold mem_write. destruct (N.leb_spec (o + len d) (len b)) as [H|]; [|discriminate].
  intros X. apply Ok_inj in X. subst b'.
  assert (L1 : len (firstn (N.to_nat o) b) = o) by (apply len_firstn; lia).
  assert (L2 : len (skipn (N.to_nat (o + len d)) b) = len b - (o + len d)) by apply len_skipn.
  split; [rewrite !len_app; lia|]. split; [exact H|]. intros i.
  destruct (N.leb_spec o i) as [A|A]; cbn [andb].
  - rewrite byte_app2 by lia. rewrite L1.
    destruct (N.ltb_spec i (o + len d)) as [B|B].
    + rewrite byte_app1 by lia. reflexivity.
    + rewrite byte_app2 by lia. unfold byte.
      destruct (Nat.lt_ge_cases (N.to_nat i) (length b)) as [L|L].
      * apply nth_error_nth. rewrite nth_skipn.
        replace (N.to_nat (o + len d) + N.to_nat (i - o - len d))%nat with (N.to_nat i) by lia.
        now apply nth_error_nth'.
      * rewrite !nth_overflow; auto. rewrite skipn_length. lia.
  - rewrite byte_app1 by lia. unfold byte. apply nth_error_nth. rewrite nth_firstn by lia.
    apply nth_error_nth'. unfold len in *. lia.
Qed.

Lemma mem_write_in b o d : o + len d <= len b -> exists b', mem_write b o d = Ok b'.
Proof.
  intros H. unfold mem_write. destruct (N.leb_spec (o + len d) (len b)); [eauto|lia].
Qed.

Lemma stores_app l1 : forall b l2,
  stores b (l1 ++ l2) = let! b' := stores b l1 in stores b' l2.
Proof.
  induction l1 as [|(o & d) l1 IH]; intros b l2; [reflexivity|]. cbn [app stores].
  destruct (mem_write b o d) as [b'| | | |]; cbn [obind]; auto.
Qed.

(** Every byte stored is that of [t]. *)
Definition fits (t : N -> N) (n : N) (x : N * list N) : Prop :=
  fst x + len (snd x) <= n /\ forall j, j < len (snd x) -> byte (snd x) j = t (fst x + j).

Lemma stores_fit t l : forall b,
  Forall (fits t (len b)) l ->
  exists b', stores b l = Ok b' /\ len b' = len b /\
    forall i, byte b' i = if inside (map range l) i then t i else byte b i.
Proof.
  induction l as [|(o & d) l IH]; intros b H.
  { exists b. repeat split; auto. }
  apply Forall_cons_iff in H as ((H1 & H2) & H). cbn [fst snd] in *.
  destruct (mem_write_in b o d H1) as (b1 & E). cbn [stores]. rewrite E. cbn [obind].
  destruct (mem_write_bytes _ _ _ _ E) as (L & _ & B). rewrite <- L in H.
  destruct (IH b1 H) as (b' & E' & L' & B'). exists b'. split; [exact E'|]. split; [congruence|].
  intros i. rewrite B', B. unfold inside, range. cbn [map existsb fst snd].
  destruct (existsb _ _); [now rewrite orb_true_r|]. rewrite orb_false_r.
  destruct (N.leb_spec o i) as [X|X]; cbn [andb]; [|reflexivity].
  destruct (N.ltb_spec i (o + len d)) as [Y|Y]; [|reflexivity].
  rewrite H2 by lia. f_equal. lia.
Qed.

(** ** The block a message is turned into, but for the sample *)
Definition clean (e : list N) : list N :=
  map (fun i => kept e (N.of_nat i)) (List.seq 0 (length e)).

Lemma len_clean e : len (clean e) = len e.
Proof. unfold len, clean. now rewrite map_length, seq_length. Qed.
Lemma byte_clean e i : i < len e -> byte (clean e) i = kept e i.
Proof.
  intros H. unfold byte, clean, len in *.
  rewrite nth_indep with (d' := kept e (N.of_nat 0)) by (rewrite map_length, seq_length; lia).
  rewrite (map_nth (fun n => kept e (N.of_nat n))), seq_nth by lia. f_equal. lia.
Qed.

Lemma byte_ok e i : bytes_ok e = true -> byte e i < 256.
Proof.
  intros H. unfold byte. destruct (Nat.lt_ge_cases (N.to_nat i) (length e)) as [L|L].
  - unfold bytes_ok in H. rewrite forallb_forall in H. apply N.ltb_lt. apply H. now apply nth_In.
  - rewrite nth_overflow by exact L. reflexivity.
Qed.

Lemma kept_ok e i : bytes_ok e = true -> kept e i < 256.
Proof.
  intros H. assert (B := byte_ok e i H). unfold kept.
  destruct (i <? 8); [exact B|]. destruct (inside (fields e) i); cbn [negb]; [|reflexivity].
  destruct ((ev_type e =? R_AUX) && (i =? 24)); [lia|].
  destruct ((ev_type e =? R_TIME_CONV) && _); [lia|exact B].
Qed.

Lemma clean_ok e : bytes_ok e = true -> bytes_ok (clean e) = true.
Proof.
  intros H. unfold bytes_ok, clean. apply forallb_forall. intros x Hx.
  apply in_map_iff in Hx as (i & <- & _). apply N.ltb_lt. now apply kept_ok.
Qed.

(** ** A store that copies a field *)
Definition copied (e : list N) (x : N * list N) : Prop :=
  fst x + len (snd x) <= len e /\ slice e (fst x) (len (snd x)) = snd x.

Definition whole (e : list N) (i : N) : Prop :=
  (ev_type e = R_AUX -> i <> 24) /\ (ev_type e = R_TIME_CONV -> i <> 48 /\ i <> 49).

Lemma inside_in l o n i : In (o, n) l -> o <= i -> i < o + n -> inside l i = true.
Proof.
  intros H H1 H2. unfold inside. apply existsb_exists. exists (o, n). split; [exact H|].
  cbn [fst snd]. apply andb_true_intro. split; [now apply N.leb_le|now apply N.ltb_lt].
Qed.

Lemma inside_inv l i : inside l i = true -> exists o n, In (o, n) l /\ o <= i /\ i < o + n.
Proof.
  unfold inside. intros H. apply existsb_exists in H as ((o & n) & H & X). cbn [fst snd] in X.
  apply andb_prop in X as [X Y]. apply N.leb_le in X. apply N.ltb_lt in Y. eauto.
Qed.

Lemma kept_field e o n i :
  In (o, n) (fields e) -> o <= i -> i < o + n -> whole e i -> kept e i = byte e i.
Proof.
  intros H H1 H2 (W1 & W2). unfold kept. destruct (i <? 8); [reflexivity|].
  rewrite (inside_in _ o n i H H1 H2). cbn [negb].
  destruct (N.eqb_spec (ev_type e) R_AUX) as [X|X]; cbn [andb].
  - destruct (N.eqb_spec i 24) as [Y|Y]; [exfalso; now apply W1|].
    destruct (N.eqb_spec (ev_type e) R_TIME_CONV) as [Z|Z]; cbn [andb]; [|reflexivity].
    destruct (W2 Z). destruct (N.eqb_spec i 48); [lia|]. destruct (N.eqb_spec i 49); [lia|]. reflexivity.
  - destruct (N.eqb_spec (ev_type e) R_TIME_CONV) as [Z|Z]; cbn [andb]; [|reflexivity].
    destruct (W2 Z). destruct (N.eqb_spec i 48); [lia|]. destruct (N.eqb_spec i 49); [lia|]. reflexivity.
Qed.

Lemma copied_fits e x :
  copied e x -> (forall i, fst x <= i -> i < fst x + len (snd x) -> kept e i = byte e i) ->
  fits (kept e) (len e) x.
Proof.
  intros (H1 & H2) K. split; [exact H1|]. intros j Hj. rewrite K by lia. rewrite <- H2 at 1.
  now apply byte_slice.
Qed.

Definition header_of (e : list N) : list (N * list N) :=
  [u32_at 0 (ev_type e); u16_at 4 (ev_misc e); u16_at 6 (ev_size e)].

Lemma copied_num e o n w :
  bytes_ok e = true -> o + w <= len e -> n = N.to_nat w ->
  copied e (o, le_bytes n (of_le (slice e o w))).
Proof.
  intros H L ->. assert (Ls := len_slice e o w L).
  replace (N.to_nat w) with (length (slice e o w)) by (unfold len in Ls; lia).
  rewrite le_bytes_of_le by now apply bytes_ok_slice. unfold copied. cbn [fst snd]. now rewrite Ls.
Qed.

Lemma header_copied e : bytes_ok e = true -> 8 <= len e -> Forall (copied e) (header_of e).
Proof.
  intros H L. unfold header_of, u32_at, u16_at, ev_type, ev_misc, ev_size.
  repeat constructor; (apply copied_num; [exact H|lia|reflexivity]).
Qed.

(** The blocks that agree with a function on what was stored and are zero
    elsewhere. *)
Lemma stores_clean e l :
  raw_event e -> Forall (fits (kept e) (len e)) l ->
  (forall i, 8 <= i -> inside (fields e) i = true -> inside (map range l) i = true) ->
  stores (repeat 0 (N.to_nat (len e))) (header_of e ++ l) = Ok (clean e).
Proof.
  intros (Hb & H8 & _) Hl Hc.
  assert (Lz : len (repeat 0 (N.to_nat (len e))) = len e) by apply len_repeat.
  assert (F : Forall (fits (kept e) (len e)) (header_of e ++ l)).
  { apply Forall_app. split; [|exact Hl]. assert (G := header_copied e Hb H8).
    assert (R : Forall (fun x => fst x + len (snd x) <= 8) (header_of e)).
    { repeat constructor; cbn [fst snd u32_at u16_at]; rewrite len_le_bytes; lia. }
    rewrite Forall_forall in *. intros x Hx. apply copied_fits; [now apply G|].
    intros i _ Hi. specialize (R x Hx). unfold kept. destruct (N.ltb_spec i 8); [reflexivity|lia]. }
  rewrite <- Lz in F. destruct (stores_fit (kept e) _ _ F) as (b & E & L & B). rewrite E. f_equal.
  apply bytes_ext; [now rewrite len_clean, L|]. intros i Hi. rewrite L, Lz in Hi.
  rewrite B, byte_clean by exact Hi. rewrite byte_zeros.
  destruct (inside (map range (header_of e ++ l)) i) eqn:I; [reflexivity|].
  rewrite map_app in I. unfold inside in I. rewrite existsb_app in I. apply orb_false_elim in I as [I1 I2].
  unfold kept. destruct (N.ltb_spec i 8) as [Q|Q].
  - exfalso. unfold header_of, u32_at, u16_at, range in I1. cbn [map existsb fst snd] in I1.
    rewrite !len_le_bytes in I1. change (N.of_nat 4) with 4 in I1. change (N.of_nat 2) with 2 in I1.
    repeat (apply orb_false_elim in I1 as [?A I1]). repeat match goal with H : (_ && _) = false |- _ => apply andb_false_iff in H; rewrite N.leb_gt, N.ltb_ge in H end. lia.
  - destruct (inside (fields e) i) eqn:J; [|reflexivity]. specialize (Hc i Q J). unfold inside in Hc. congruence.
Qed.

Definition whole_kind (e : list N) : Prop := ev_type e <> R_AUX /\ ev_type e <> R_TIME_CONV.

(** For most events: the stores are the fields. *)
Lemma stores_fields e l :
  raw_event e -> whole_kind e -> map range l = fields e -> Forall (copied e) l ->
  stores (repeat 0 (N.to_nat (len e))) (header_of e ++ l) = Ok (clean e).
Proof.
  intros He (W1 & W2) Hr Hc. apply stores_clean; [exact He| |now rewrite Hr].
  rewrite Forall_forall in *. intros x Hx. apply copied_fits; [now apply Hc|].
  intros i I1 I2. apply (kept_field e (fst x) (len (snd x))); auto.
  - rewrite <- Hr. change (fst x, len (snd x)) with (range x). now apply in_map.
  - split; [congruence|]. intros X. congruence.
Qed.

(** ** Texts *)
Lemma c_str_spec d :
  strnlen d < len d -> ~ In 0 (c_str d) /\ len (c_str d) = strnlen d /\
  firstn (N.to_nat (strnlen d + 1)) d = c_str d ++ [0].
Proof.
  induction d as [|b d IH]; [cbn; lia|]. rewrite len_cons. cbn [c_str strnlen].
  destruct (N.eqb_spec b 0) as [->|Hb]; intros H.
  - repeat split; auto.
  - destruct IH as (A & B & C); [lia|]. split; [|split].
    + intros [X|X]; auto.
    + rewrite len_cons. lia.
    + replace (N.to_nat (1 + strnlen d + 1)) with (S (N.to_nat (strnlen d + 1))) by lia.
      cbn [firstn app]. now rewrite C.
Qed.

Lemma c_str_id s : ~ In 0 s -> c_str s = s.
Proof.
  induction s as [|b s IH]; intros H; [reflexivity|]. cbn [c_str].
  destruct (N.eqb_spec b 0) as [->|Hb]; [exfalso; apply H; now left|]. f_equal. apply IH.
  intros X. apply H. now right.
Qed.

Lemma snprintf_id n s : ~ In 0 s -> len s < n -> snprintf n s = s ++ [0].
Proof.
  intros H L. unfold snprintf. rewrite c_str_id by exact H. f_equal. apply firstn_all2.
  unfold len in L. lia.
Qed.

Lemma c_str_snprintf n s : ~ In 0 s -> len s < n -> c_str (snprintf n s) = s.
Proof.
  intros H L. rewrite snprintf_id by auto. clear L. induction s as [|b s IH]; [reflexivity|].
  cbn [app c_str]. destruct (N.eqb_spec b 0) as [->|Hb]; [exfalso; apply H; now left|]. f_equal.
  apply IH. intros X. apply H. now right.
Qed.

Record text_read (e : list N) (off : N) (s : list N) : Prop := {
  tr_nul : ~ In 0 s;
  tr_len : len s + 1 = snd (text_field e off);
  tr_copied : copied e (off, s ++ [0])
}.

Lemma c_str_text e off s : ev_c_str e off = Ok s -> text_read e off s.
Proof.
  unfold ev_c_str. destruct (N.ltb_spec (strnlen (skipn (N.to_nat off) e)) (len (skipn (N.to_nat off) e))) as [H|]; [|discriminate].
  intros X. apply Ok_inj in X. subst s. destruct (c_str_spec _ H) as (A & B & C). constructor.
  - exact A.
  - cbn [text_field snd]. lia.
  - rewrite len_skipn in H. unfold copied. cbn [fst snd]. rewrite len_app. change (len [0]) with 1.
    split; [lia|]. unfold slice. rewrite B. exact C.
Qed.

Lemma text_store e off s n :
  text_read e off s -> len s < n ->
  copied e (off, snprintf n s) /\ range (off, snprintf n s) = text_field e off.
Proof.
  intros [A B C] H. rewrite snprintf_id by auto. split; [exact C|].
  unfold range, text_field in *. cbn [fst snd] in *. rewrite len_app. change (len [0]) with 1. now rewrite B.
Qed.

(** The text at a place and the one a size check found there. *)
Lemma text_at_unique e off room n s :
  text_at e off room n -> text_read e off s -> n = 8 * (len s / 8 + 1) /\ len s < room.
Proof.
  intros (t & T1 & T2 & T3 & T4) [A B (C1 & C2)]. cbn [fst snd] in *.
  assert (L : len t = len s).
  { assert (Q : forall x, ~ In 0 x -> slice e off (len x + 1) = x ++ [0] -> strnlen (skipn (N.to_nat off) e) = len x).
    { intros x Hx Ex. rewrite <- (firstn_skipn (N.to_nat (len x + 1)) (skipn (N.to_nat off) e)).
      unfold slice in Ex. rewrite Ex, <- app_assoc. now apply strnlen_app. }
    rewrite len_app in C2. change (len [0]) with 1 in C2.
    rewrite <- (Q t T1 T2), <- (Q s A C2). reflexivity. }
  rewrite L in *. split; [exact T3|]. lia.
Qed.

(** ** Numbers and arrays *)
Lemma num_ok e o w v : num e o w = Ok v -> o + w <= len e /\ v = of_le (slice e o w).
Proof.
  unfold num, mem_read. destruct (N.leb_spec (o + w) (len e)); cbn [obind]; [|discriminate].
  intros X. apply Ok_inj in X. auto.
Qed.

Lemma obind_ok {A B} (x : outcome A) (f : A -> outcome B) y :
  obind x f = Ok y -> exists a, x = Ok a /\ f a = Ok y.
Proof. destruct x; cbn [obind]; try discriminate. eauto. Qed.

Lemma entries_each {A} e (f : N -> outcome A) g h size n : forall off l,
  entries_go f off size n = Ok l ->
  (forall i x, (i < n)%nat -> f (off + size * N.of_nat i) = Ok x ->
    Forall (copied e) (g (off + size * N.of_nat i) x) /\
    map range (g (off + size * N.of_nat i) x) = h (off + size * N.of_nat i)) ->
  len l = N.of_nat n /\ Forall (copied e) (each off size g l) /\
  map range (each off size g l) = entry_fields h off size n.
Proof.
  induction n as [|n IH]; intros off l; cbn [entries_go entry_fields].
  { intros X _. apply Ok_inj in X. subst l. repeat split; auto. constructor. }
  intros X H. apply obind_ok in X as (x & X1 & X). apply obind_ok in X as (r & X2 & X).
  apply Ok_inj in X. subst l. cbn [each].
  destruct (H 0%nat x) as (H1 & H2); [lia| |].
  { replace (off + size * N.of_nat 0) with off by lia. exact X1. }
  replace (off + size * N.of_nat 0) with off in * by lia.
  destruct (IH (off + size) r X2) as (I1 & I2 & I3).
  { intros i y Hi Ey. replace (off + size + size * N.of_nat i) with (off + size * N.of_nat (S i)) in * by lia.
    apply H; [lia|exact Ey]. }
  rewrite len_cons, I1, map_app, H2, I3. repeat split; [lia|]. apply Forall_app. auto.
Qed.
