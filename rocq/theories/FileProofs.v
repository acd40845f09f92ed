(** Reading perf data: a small program logic for [rcall] and its use. *)
From Verif Require Import Base BytesModel BytesProofs BytesMoreProofs BufferModel BufferSpec BufferProofs TextModel Assoc
  EventSizeModel EventSizeSpec EventSizeProofs SampleModel ReaderOpsModel ReaderOpsProofs FileModel FileSpec.
Local Open Scope N_scope.

(** ** Weakest preconditions: never Abort, UB or Hang, and [Q] on success. *)
Definition wp {A} (m : rcall A) (r : reader) (Q : A -> reader -> Prop) : Prop :=
  match m r with
  | (Ok a, r') => Q a r'
  | (Fail, _) => True
  | _ => False
  end.

Definition good (r : reader) : Prop :=
  bytes_ok (rbuf r) = true /\ len (rbuf r) < two63 /\ roff r <= len (rbuf r).

(** Same input, same byte order. *)
Definition same (r r' : reader) : Prop := rbuf r' = rbuf r /\ rswap r' = rswap r.

Lemma same_refl r : same r r. Proof. now split. Qed.
Lemma same_trans a b c : same a b -> same b c -> same a c.
Proof. intros [] []. split; congruence. Qed.

Lemma good_words r : good r -> reader_words r = true.
Proof.
  intros (_ & H & H'). unfold reader_words, two63, two64 in *. apply andb_true_intro. split; lia.
Qed.

Lemma wp_ret {A} (a : A) r (Q : A -> reader -> Prop) : Q a r -> wp (rret a) r Q.
Proof. auto. Qed.
Lemma wp_fail {A} r (Q : A -> reader -> Prop) : wp rfail r Q.
Proof. exact I. Qed.
Lemma wp_bind {A B} (m : rcall A) (f : A -> rcall B) r Q :
  wp m r (fun a r' => wp (f a) r' Q) -> wp (rbind m f) r Q.
Proof. unfold wp, rbind. destruct (m r) as [[a| | | |] r']; auto. Qed.
Lemma wp_mono {A} (m : rcall A) r (Q Q' : A -> reader -> Prop) :
  (forall a r', Q a r' -> Q' a r') -> wp m r Q -> wp m r Q'.
Proof. unfold wp. destruct (m r) as [[a| | | |] r']; auto. Qed.
Lemma wp_guard b r (Q : unit -> reader -> Prop) : (b = true -> Q tt r) -> wp (rguard b) r Q.
Proof. unfold wp, rguard. destruct b; auto. Qed.
Lemma wp_ask {A} (f : reader -> A) r (Q : A -> reader -> Prop) : Q (f r) r -> wp (rask f) r Q.
Proof. auto. Qed.
Lemma wp_lift {A} (o : outcome A) r (Q : A -> reader -> Prop) :
  match o with Ok a => Q a r | Fail => True | _ => False end -> wp (rlift o) r Q.
Proof. unfold wp, rlift. now destruct o. Qed.
Lemma wp_check b r (Q : unit -> reader -> Prop) : b = true -> Q tt r -> wp (rcheck b) r Q.
Proof. unfold wp, rcheck. intros ->. auto. Qed.

Lemma wp_seek o r (Q : unit -> reader -> Prop) :
  good r -> (forall r', good r' -> same r r' -> roff r' = o -> Q tt r') -> wp (seek_set o) r Q.
Proof.
  intros (G1 & G2 & G3) H. unfold wp. assert (S := seek_set_ok r o).
  destruct (seek_set o r) as [[[]| | | |] r']; try contradiction; [|exact I].
  destruct S as (S1 & S2 & S3 & S4). apply H; [|now split|exact S3].
  unfold good. rewrite S2, S3. auto.
Qed.

(** The bytes read, by position. *)
Lemma delivers_slice r n d r' :
  good r -> delivers r n d r' ->
  good r' /\ same r r' /\ roff r' = roff r + n /\ len d = n /\ d = slice (rbuf r) (roff r) n /\
  bytes_ok d = true.
Proof.
  intros (G1 & G2 & G3) (pre & post & E1 & E2 & E3 & E4 & E5 & E6).
  assert (Sl : d = slice (rbuf r) (roff r) n).
  { rewrite E1. symmetry. apply slice_app; auto. }
  assert (L : roff r + n <= len (rbuf r)) by (rewrite E1, !len_app; lia).
  split; [|split; [now split|split; [exact E5|split; [exact E3|split; [exact Sl|]]]]].
  - unfold good. rewrite E4, E5. auto.
  - rewrite Sl. now apply bytes_ok_slice.
Qed.

Lemma wp_data n r (Q : list N -> reader -> Prop) :
  good r -> n < two64 ->
  (forall r', good r' -> same r r' -> roff r' = roff r + n ->
    len (slice (rbuf r) (roff r) n) = n -> bytes_ok (slice (rbuf r) (roff r) n) = true ->
    Q (slice (rbuf r) (roff r) n) r') -> wp (read_data n) r Q.
Proof.
  intros G Hn H. unfold wp. assert (S := read_data_ok r n (good_words r G) Hn).
  destruct (read_data n r) as [[d| | | |] r']; try contradiction; [|exact I].
  destruct (delivers_slice r n d r' G S) as (A & B & C & D & -> & F). now apply H.
Qed.

Lemma wp_str n r (Q : list N -> reader -> Prop) :
  good r -> n < two64 ->
  (forall s r', good r' -> same r r' -> roff r' = roff r + n ->
    until_nul (slice (rbuf r) (roff r) n) s -> bytes_ok s = true -> Q s r') ->
  wp (read_string n) r Q.
Proof.
  intros G Hn H. unfold wp. assert (S := read_string_ok r n (good_words r G) Hn).
  destruct (read_string n r) as [[s| | | |] r']; try contradiction; [|exact I].
  destruct S as (d & Sd & Su).
  destruct (delivers_slice r n d r' G Sd) as (A & B & C & D & -> & F). apply H; auto.
  destruct Su as (_ & rest & E & _). rewrite E, bytes_ok_app in F. now apply andb_prop in F.
Qed.

Lemma bytes_ok_rev l : bytes_ok (rev l) = bytes_ok l.
Proof.
  induction l as [|x l IH]; [reflexivity|]. cbn [rev]. rewrite bytes_ok_app, IH.
  change (bytes_ok (x :: l)) with (byte_ok x && bytes_ok l).
  change (bytes_ok [x]) with (byte_ok x && true). destruct (byte_ok x), (bytes_ok l); reflexivity.
Qed.

Lemma int_at_bound sw b o n :
  bytes_ok b = true -> int_at sw b o n < 256 ^ N.of_nat n.
Proof.
  intros Hb. unfold int_at. set (d := slice b o (N.of_nat n)).
  assert (D : bytes_ok d = true) by now apply bytes_ok_slice.
  assert (L : len d <= N.of_nat n).
  { unfold d, slice, len. rewrite firstn_length. lia. }
  assert (X := of_le_bound (if sw then rev d else d)).
  assert (L' : len (if sw then rev d else d) = len d) by (destruct sw; unfold len; rewrite ?rev_length; reflexivity).
  rewrite L' in X. eapply N.lt_le_trans; [apply X; destruct sw; rewrite ?bytes_ok_rev; auto|].
  apply N.pow_le_mono_r; lia.
Qed.

Lemma wp_int n r (Q : N -> reader -> Prop) :
  good r -> In n [1%nat; 2%nat; 4%nat; 8%nat] ->
  (forall r', good r' -> same r r' -> roff r' = roff r + N.of_nat n ->
    Q (int_at (rswap r) (rbuf r) (roff r) n) r') -> wp (read_int n) r Q.
Proof.
  intros G Hn H. unfold wp. assert (S := read_int_ok n r (good_words r G) (proj1 G) Hn).
  destruct (read_int n r) as [[v| | | |] r']; try contradiction; [|exact I].
  destruct S as (d & Sd & ->).
  destruct (delivers_slice r _ d r' G Sd) as (A & B & C & D & -> & F). now apply H.
Qed.

Lemma wp_u64 r (Q : N -> reader -> Prop) :
  good r ->
  (forall r', good r' -> same r r' -> roff r' = roff r + 8 ->
    int_at (rswap r) (rbuf r) (roff r) 8 < two64 ->
    Q (int_at (rswap r) (rbuf r) (roff r) 8) r') -> wp read_u64 r Q.
Proof.
  intros G H. apply wp_int; [exact G|cbn; auto|]. intros r' G' S E. apply H; auto.
  apply int_at_bound, G.
Qed.
Lemma wp_u32 r (Q : N -> reader -> Prop) :
  good r ->
  (forall r', good r' -> same r r' -> roff r' = roff r + 4 ->
    int_at (rswap r) (rbuf r) (roff r) 4 < two32 ->
    Q (int_at (rswap r) (rbuf r) (roff r) 4) r') -> wp read_u32 r Q.
Proof.
  intros G H. apply wp_int; [exact G|cbn; auto|]. intros r' G' S E. apply H; auto.
  apply int_at_bound, G.
Qed.

Lemma wp_sized_str r (Q : list N -> reader -> Prop) :
  good r ->
  (forall s r', good r' -> same r r' -> roff r + 4 <= roff r' -> bytes_ok s = true -> Q s r') ->
  wp read_string_with_size r Q.
Proof.
  intros G H. unfold read_string_with_size. apply wp_bind, wp_u32; [exact G|].
  intros r1 G1 S1 E1 B. apply wp_str; [exact G1|unfold two32, two64 in *; lia|].
  intros s r2 G2 S2 E2 _ F. apply H; auto; [eapply same_trans; eauto|lia].
Qed.

(** Repeated reading. *)
Lemma wp_read_n {A} (f : rcall A) (k : N) (P : A -> Prop) n :
  (forall r (Q : A -> reader -> Prop), good r ->
     (forall a r', good r' -> same r r' -> roff r + k <= roff r' -> P a -> Q a r') -> wp f r Q) ->
  forall r (Q : list A -> reader -> Prop), good r ->
    (forall l r', good r' -> same r r' -> roff r + k * N.of_nat n <= roff r' ->
       length l = n -> Forall P l -> Q l r') ->
    wp (read_n n f) r Q.
Proof.
  intros Hf. induction n as [|n IH]; intros r Q G H; cbn [read_n].
  - apply wp_ret, H; auto using same_refl; lia.
  - apply wp_bind, Hf; [exact G|]. intros a r1 G1 S1 E1 Pa. apply wp_bind, IH; [exact G1|].
    intros l r2 G2 S2 E2 L Pl. apply wp_ret, H; auto.
    + eapply same_trans; eauto.
    + nia.
    + cbn. now rewrite L.
Qed.

Lemma wp_ids n r (Q : list N -> reader -> Prop) :
  good r ->
  (forall l r', good r' -> same r r' -> roff r + 8 * n <= roff r' -> len l = n ->
     Forall (fun v => v < two64) l -> Q l r') ->
  wp (read_ids n) r Q.
Proof.
  intros G H. unfold read_ids. apply (wp_read_n read_u64 8 (fun v => v < two64)); [|exact G|].
  - intros r0 Q0 G0 H0. apply wp_u64; [exact G0|]. intros r' G' S' E' B. apply H0; auto. lia.
  - intros l r' G' S' E' L F. apply H; auto; [lia|]. unfold len. lia.
Qed.

(** ** Headers and sections *)
Lemma slice_slice {A} (l : list A) o n o' n' :
  o' + n' <= n -> slice (slice l o n) o' n' = slice l (o + o') n'.
Proof.
  intros H. unfold slice. rewrite skipn_firstn_comm, firstn_firstn, skipn_skipn'.
  f_equal; [lia|]. f_equal. lia.
Qed.

Lemma sw16_bytes (sw : bool) (d : list N) : bytes_ok d = true -> length d = 2%nat ->
  sw16 sw (of_le d) = of_le (if sw then rev d else d).
Proof.
  intros B L. destruct sw; [|reflexivity]. assert (H := bswap_of_le 2 d B L). exact H.
Qed.
Lemma sw32_bytes (sw : bool) (d : list N) : bytes_ok d = true -> length d = 4%nat ->
  sw32 sw (of_le d) = of_le (if sw then rev d else d).
Proof.
  intros B L. destruct sw; [|reflexivity]. assert (H := bswap_of_le 4 d B L). exact H.
Qed.
Lemma sw64_bytes (sw : bool) (d : list N) : bytes_ok d = true -> length d = 8%nat ->
  sw64 sw (of_le d) = of_le (if sw then rev d else d).
Proof.
  intros B L. destruct sw; [|reflexivity]. assert (H := bswap_of_le 8 d B L). exact H.
Qed.

Lemma remaining_good r : good r -> remaining r = len (rbuf r) - roff r.
Proof.
  intros (_ & G2 & G3). unfold remaining, sub64, two63, two64 in *.
  replace (len (rbuf r) + 18446744073709551616 - roff r)
    with (len (rbuf r) - roff r + 1 * 18446744073709551616) by lia.
  rewrite N.mod_add by lia. apply N.mod_small. lia.
Qed.

Lemma int_slice (sw : bool) (b : list N) (o n o' : N) (k : nat) :
  N.of_nat k = n -> o' + n <= 16 -> forall m, o' + n <= m -> m <= 16 ->
  of_le (if sw then rev (slice (slice b o m) o' n) else slice (slice b o m) o' n) =
  int_at sw b (o + o') k.
Proof.
  intros <- H m Hm Hm'. rewrite slice_slice by lia. reflexivity.
Qed.

Lemma wp_event_header r (Q : ehdr -> reader -> Prop) :
  good r ->
  (forall r', good r' -> same r r' -> roff r' = roff r + 8 ->
     let h := header_at (rswap r) (rbuf r) (roff r) in
     h_type h < two32 -> h_misc h < two16 -> 8 <= h_size h < two16 ->
     h_size h - 8 <= len (rbuf r') - roff r' -> Q h r') ->
  wp read_event_header r Q.
Proof.
  intros G H. unfold read_event_header. apply wp_bind, wp_data; [exact G|unfold two64; lia|].
  intros r1 G1 S1 E1 L B. apply wp_bind, wp_ask. cbv zeta.
  destruct S1 as [S1 S1']. rewrite S1'.
  assert (LL : forall o n, o + n <= 8 -> length (slice (slice (rbuf r) (roff r) 8) o n) = N.to_nat n).
  { intros o n Hon. assert (X := len_slice (slice (rbuf r) (roff r) 8) o n). rewrite L in X.
    specialize (X Hon). unfold len in X. lia. }
  rewrite sw32_bytes, !sw16_bytes by (try apply bytes_ok_slice; auto; apply LL; lia).
  rewrite (int_slice _ _ _ 4 0 4), (int_slice _ _ _ 2 4 2), (int_slice _ _ _ 2 6 2) by lia.
  rewrite N.add_0_r.
  apply wp_bind, wp_guard. intros Hs. apply wp_bind, wp_ask. apply wp_bind, wp_guard. intros Hr.
  rewrite remaining_good in Hr by exact G1.
  apply wp_ret. assert (BB := proj1 G).
  apply (H r1 G1 (conj S1 S1') E1); unfold header_at; cbn [h_type h_misc h_size].
  - apply (int_at_bound _ _ _ 4 BB).
  - apply (int_at_bound _ _ _ 2 BB).
  - split; [lia|apply (int_at_bound _ _ _ 2 BB)].
  - lia.
Qed.

Lemma wp_section r (Q : section -> reader -> Prop) :
  good r ->
  (forall r', good r' -> same r r' -> roff r' = roff r + 16 ->
     let s := section_at (rswap r) (rbuf r) (roff r) in
     sc_offset s + sc_size s <= len (rbuf r) -> Q s r') ->
  wp read_section r Q.
Proof.
  intros G H. unfold read_section. apply wp_bind, wp_data; [exact G|unfold two64; lia|].
  intros r1 G1 S1 E1 L B. apply wp_bind, wp_ask. cbv zeta.
  destruct S1 as [S1 S1']. rewrite S1'.
  assert (LL : forall o n, o + n <= 16 -> length (slice (slice (rbuf r) (roff r) 16) o n) = N.to_nat n).
  { intros o n Hon. assert (X := len_slice (slice (rbuf r) (roff r) 16) o n). rewrite L in X.
    specialize (X Hon). unfold len in X. lia. }
  rewrite !sw64_bytes by (try apply bytes_ok_slice; auto; apply LL; lia).
  rewrite (int_slice _ _ _ 8 0 8), (int_slice _ _ _ 8 8 8) by lia. rewrite N.add_0_r.
  apply wp_bind, wp_ask. rewrite S1. apply wp_bind, wp_guard. intros H1.
  apply wp_bind, wp_guard. intros H2. apply wp_ret. apply (H r1 G1 (conj S1 S1') E1).
  unfold section_at. cbn [sc_offset sc_size]. lia.
Qed.

(** ** Byte swapping in a block *)
Lemma len_flip off n e : off + N.of_nat n <= len e -> len (flip off n e) = len e.
Proof.
  intros H. unfold flip. rewrite !len_app, len_firstn, len_skipn by lia.
  replace (len (rev (slice e off (N.of_nat n)))) with (N.of_nat n); [lia|].
  assert (X := len_slice e off (N.of_nat n) H). unfold len in *. rewrite rev_length. lia.
Qed.
Lemma bytes_flip off n e : bytes_ok e = true -> bytes_ok (flip off n e) = true.
Proof.
  intros H. unfold flip. rewrite !bytes_ok_app, bytes_ok_rev, bytes_ok_slice, bytes_ok_firstn, bytes_ok_skipn by auto.
  reflexivity.
Qed.
Lemma slice_flip_before off n e o k : off <= len e -> o + k <= off -> slice (flip off n e) o k = slice e o k.
Proof.
  intros L H. unfold flip, slice at 1. rewrite skipn_app, firstn_app.
  rewrite !skipn_length, !firstn_length. unfold len in L.
  replace (N.to_nat k - _)%nat with 0%nat by lia. rewrite firstn_O, app_nil_r.
  unfold slice. rewrite skipn_firstn_comm, firstn_firstn. f_equal. lia.
Qed.

Definition swap_size (n : nat) : Prop := In n [1%nat; 2%nat; 4%nat; 8%nat].
Lemma swap_at_ok off n e :
  bytes_ok e = true -> swap_size n -> off + N.of_nat n <= len e ->
  swap_at off n e = Ok (flip off n e).
Proof.
  intros B Hn H. unfold swap_at, mem_read.
  replace (off + N.of_nat n <=? len e) with true by lia. cbn [obind].
  assert (L := len_slice e off (N.of_nat n) H).
  assert (X := bswap_of_le n (slice e off (N.of_nat n)) (bytes_ok_slice _ _ _ B) ltac:(unfold len in L; lia)).
  destruct (byte_swap n _) as [v| | | |]; try (exfalso; cbn in Hn; destruct X as (X1 & X2 & X3 & X4);
    destruct Hn as [?|[?|[?|[?|[]]]]]; congruence). cbn [obind]. subst v.
  assert (R : le_bytes n (of_le (rev (slice e off (N.of_nat n)))) = rev (slice e off (N.of_nat n))).
  { rewrite <- (le_bytes_of_le (rev _)) at 2; [|rewrite bytes_ok_rev; now apply bytes_ok_slice].
    f_equal. rewrite rev_length. unfold len in L. lia. }
  rewrite R. unfold mem_write, flip.
  assert (LR : len (rev (slice e off (N.of_nat n))) = N.of_nat n) by (unfold len in *; rewrite rev_length; lia).
  rewrite LR. now replace (off + N.of_nat n <=? len e) with true by lia.
Qed.

Definition in_block (lo size : N) (f : N * nat) : Prop :=
  swap_size (snd f) /\ lo <= fst f /\ fst f + N.of_nat (snd f) <= size.

Lemma flips_ok fs : forall e lo,
  bytes_ok e = true -> Forall (in_block lo (len e)) fs ->
  swap_fields fs e = Ok (flips fs e) /\ len (flips fs e) = len e /\
  bytes_ok (flips fs e) = true /\
  forall o k, o + k <= lo -> slice (flips fs e) o k = slice e o k.
Proof.
  induction fs as [|[off n] fs IH]; intros e lo B F; [auto|].
  inversion F as [|? ? [F1 [F2 F3]] F']; subst. cbn [fst snd] in *.
  cbn [swap_fields flips fold_left fst snd]. rewrite swap_at_ok by auto. cbn [obind].
  assert (L := len_flip off n e F3).
  destruct (IH (flip off n e) lo (bytes_flip _ _ _ B)) as (A1 & A2 & A3 & A4).
  { rewrite L. exact F'. }
  split; [exact A1|]. split; [unfold flips in *; now rewrite A2|]. split; [exact A3|].
  intros o k H. unfold flips in A4. rewrite A4 by exact H. apply slice_flip_before; lia.
Qed.

(** Bytes of a flipped block, one by one. *)
Lemma nth_rev {A} (l : list A) i : (i < length l)%nat ->
  nth_error (rev l) i = nth_error l (length l - 1 - i).
Proof.
  intros H. destruct l as [|x l]; [cbn in H; lia|]. set (m := x :: l) in *.
  rewrite (nth_error_nth' (rev m) x) by (rewrite rev_length; lia).
  rewrite (nth_error_nth' m x) by lia. rewrite rev_nth by lia. do 2 f_equal. lia.
Qed.
Lemma nth_skipn {A} (l : list A) n i : nth_error (skipn n l) i = nth_error l (n + i).
Proof.
  revert l. induction n as [|n IH]; intros l; [reflexivity|]. destruct l; [now destruct i|]. cbn. apply IH.
Qed.
Lemma nth_firstn {A} (l : list A) n i : (i < n)%nat -> nth_error (firstn n l) i = nth_error l i.
Proof.
  revert l i. induction n as [|n IH]; intros l i H; [lia|]. destruct l; [now destruct i|].
  destruct i; [reflexivity|]. cbn. apply IH. lia.
Qed.
Lemma nth_flip off n e i : off + N.of_nat n <= len e ->
  nth_error (flip off n e) i =
  let o := N.to_nat off in
  if ((o <=? i) && (i <? o + n))%nat then nth_error e (o + (o + n - 1 - i)) else nth_error e i.
Proof.
  intros H. unfold flip, len in *. cbv zeta. set (o := N.to_nat off).
  assert (Ho : (o + n <= length e)%nat) by lia.
  assert (LS : length (slice e off (N.of_nat n)) = n).
  { unfold slice. rewrite firstn_length, skipn_length. lia. }
  destruct (Nat.leb_spec o i) as [H1|H1]; cbn [andb].
  - rewrite nth_error_app2 by (rewrite firstn_length; lia).
    replace (length (firstn o e)) with o by (rewrite firstn_length; lia).
    destruct (Nat.ltb_spec i (o + n)) as [H2|H2].
    + rewrite nth_error_app1 by (rewrite rev_length; lia). rewrite nth_rev by lia.
      rewrite LS. unfold slice. rewrite Nat2N.id. rewrite nth_firstn by lia. rewrite nth_skipn.
      f_equal. lia.
    + rewrite nth_error_app2 by (rewrite rev_length; lia). rewrite rev_length, LS, nth_skipn.
      f_equal. lia.
  - rewrite nth_error_app1 by (rewrite firstn_length; lia). now apply nth_firstn.
Qed.

Lemma nth_ext_error {A} (a : list A) : forall b, (forall i, nth_error a i = nth_error b i) -> a = b.
Proof.
  induction a as [|x a IH]; intros [|y b] H; [reflexivity| | |].
  - specialize (H 0%nat). discriminate.
  - specialize (H 0%nat). discriminate.
  - assert (H0 := H 0%nat). injection H0 as ->. f_equal. apply IH. intros i. exact (H (S i)).
Qed.

Definition apart (f g : N * nat) : Prop :=
  fst f + N.of_nat (snd f) <= fst g \/ fst g + N.of_nat (snd g) <= fst f.
Definition in_len (e : list N) (f : N * nat) : Prop := fst f + N.of_nat (snd f) <= len e.

Lemma flip_flip f e : in_len e f -> flip (fst f) (snd f) (flip (fst f) (snd f) e) = e.
Proof.
  destruct f as [o n]. unfold in_len. cbn [fst snd]. intros H. apply nth_ext_error. intros i.
  rewrite nth_flip by (rewrite len_flip; lia). cbv zeta. rewrite !nth_flip by lia. cbv zeta.
  set (k := N.to_nat o).
  destruct (Nat.leb_spec k i); cbn [andb]; [|reflexivity].
  destruct (Nat.ltb_spec i (k + n)); cbn [andb]; [|reflexivity].
  replace (k <=? k + (k + n - 1 - i))%nat with true by (symmetry; apply Nat.leb_le; lia).
  replace (k + (k + n - 1 - i) <? k + n)%nat with true by (symmetry; apply Nat.ltb_lt; lia).
  cbn [andb]. f_equal. lia.
Qed.

Lemma flip_comm f g e : in_len e f -> in_len e g -> apart f g ->
  flip (fst f) (snd f) (flip (fst g) (snd g) e) = flip (fst g) (snd g) (flip (fst f) (snd f) e).
Proof.
  destruct f as [o n], g as [p m]. unfold in_len, apart. cbn [fst snd]. intros H1 H2 H3.
  apply nth_ext_error. intros i.
  rewrite (nth_flip o), (nth_flip p m (flip o n e)) by (rewrite len_flip; lia). cbv zeta.
  rewrite !nth_flip by lia. cbv zeta.
  set (k := N.to_nat o). set (q := N.to_nat p).
  assert (k + n <= q \/ q + m <= k)%nat by lia.
  destruct (Nat.leb_spec k i), (Nat.ltb_spec i (k + n)), (Nat.leb_spec q i), (Nat.ltb_spec i (q + m));
    cbn [andb]; try lia;
    repeat match goal with
    | |- context [(?a <=? ?b)%nat] => destruct (Nat.leb_spec a b)
    | |- context [(?a <? ?b)%nat] => destruct (Nat.ltb_spec a b)
    end; cbn [andb]; try reflexivity; lia.
Qed.

Lemma in_len_flip f g e : in_len e f -> in_len e g -> in_len (flip (fst f) (snd f) e) g.
Proof. intros F G. unfold in_len in *. now rewrite len_flip. Qed.

Lemma flip_flips f fs : forall e, in_len e f -> Forall (in_len e) fs -> Forall (apart f) fs ->
  flip (fst f) (snd f) (flips fs e) = flips fs (flip (fst f) (snd f) e).
Proof.
  induction fs as [|g fs IH]; intros e H F A; [reflexivity|].
  inversion_clear F as [|? ? F1 F2]. inversion_clear A as [|? ? A1 A2]. cbn [flips fold_left].
  change (flip (fst f) (snd f) (flips fs (flip (fst g) (snd g) e)) =
          flips fs (flip (fst g) (snd g) (flip (fst f) (snd f) e))).
  rewrite IH; [|now apply in_len_flip| |exact A2].
  - now rewrite flip_comm.
  - eapply Forall_impl; [|exact F2]. intros x Hx. now apply in_len_flip.
Qed.

Lemma len_flips fs : forall e, Forall (in_len e) fs -> len (flips fs e) = len e.
Proof.
  induction fs as [|g fs IH]; intros e F; [reflexivity|].
  inversion_clear F as [|? ? F1 F2]. cbn [flips fold_left].
  change (len (flips fs (flip (fst g) (snd g) e)) = len e). rewrite IH; [now apply len_flip|].
  eapply Forall_impl; [|exact F2]. intros x Hx. now apply in_len_flip.
Qed.

Fixpoint all_apart (fs : list (N * nat)) : Prop :=
  match fs with [] => True | f :: r => Forall (apart f) r /\ all_apart r end.

Lemma flips_flips fs : forall e, Forall (in_len e) fs -> all_apart fs -> flips fs (flips fs e) = e.
Proof.
  induction fs as [|g fs IH]; intros e F A; [reflexivity|].
  inversion_clear F as [|? ? F1 F2]. destruct A as [A1 A2]. cbn [flips fold_left].
  change (flips fs (flip (fst g) (snd g) (flips fs (flip (fst g) (snd g) e))) = e).
  assert (F3 : Forall (in_len (flip (fst g) (snd g) e)) fs).
  { eapply Forall_impl; [|exact F2]. intros x Hx. now apply in_len_flip. }
  rewrite flip_flips; [|now apply in_len_flip|exact F3|exact A1].
  rewrite flip_flip by exact F1. now apply IH.
Qed.

Lemma slice_nth {A} (a b : list A) o n o' :
  o + n <= len a -> o' + n <= len b ->
  (forall i, (i < N.to_nat n)%nat -> nth_error a (N.to_nat o + i) = nth_error b (N.to_nat o' + i)) ->
  slice a o n = slice b o' n.
Proof.
  intros H1 H2 H. unfold slice, len in *. apply nth_ext_error. intros i.
  destruct (Nat.lt_ge_cases i (N.to_nat n)) as [L|L].
  - rewrite !nth_firstn, !nth_skipn by lia. now apply H.
  - rewrite !(proj2 (nth_error_None _ _)); auto; rewrite firstn_length; lia.
Qed.

Lemma slice_flip_apart f e o k : in_len e f -> o + k <= len e ->
  apart f (o, N.to_nat k) -> slice (flip (fst f) (snd f) e) o k = slice e o k.
Proof.
  destruct f as [p m]. unfold in_len, apart. cbn [fst snd]. intros H1 H2 H3.
  apply slice_nth; [rewrite len_flip; lia|lia|]. intros i Hi. rewrite nth_flip by lia. cbv zeta.
  destruct (Nat.leb_spec (N.to_nat p) (N.to_nat o + i)),
    (Nat.ltb_spec (N.to_nat o + i) (N.to_nat p + m)); cbn [andb]; auto. lia.
Qed.

Lemma slice_flips_apart fs : forall e o k, Forall (in_len e) fs -> o + k <= len e ->
  Forall (fun f => apart f (o, N.to_nat k)) fs -> slice (flips fs e) o k = slice e o k.
Proof.
  induction fs as [|g fs IH]; intros e o k F L A; [reflexivity|].
  inversion_clear F as [|? ? F1 F2]. inversion_clear A as [|? ? A1 A2]. cbn [flips fold_left].
  change (slice (flips fs (flip (fst g) (snd g) e)) o k = slice e o k).
  rewrite IH; [now apply slice_flip_apart| |rewrite len_flip; auto|exact A2].
  eapply Forall_impl; [|exact F2]. intros x Hx. now apply in_len_flip.
Qed.

Lemma slice_flip_same f e : in_len e f ->
  slice (flip (fst f) (snd f) e) (fst f) (N.of_nat (snd f)) = rev (slice e (fst f) (N.of_nat (snd f))).
Proof.
  destruct f as [o n]. unfold in_len. cbn [fst snd]. intros H.
  assert (L := len_slice e o (N.of_nat n) H).
  unfold flip. apply slice_app.
  - symmetry. apply len_firstn. lia.
  - unfold len in *. rewrite rev_length. lia.
Qed.

(** Every member of the list is reversed. *)
Lemma slice_flips_in fs : forall e f, Forall (in_len e) fs -> all_apart fs -> In f fs ->
  slice (flips fs e) (fst f) (N.of_nat (snd f)) = rev (slice e (fst f) (N.of_nat (snd f))).
Proof.
  induction fs as [|g fs IH]; intros e f F A I; [contradiction|].
  inversion_clear F as [|? ? F1 F2]. destruct A as [A1 A2]. cbn [flips fold_left].
  change (slice (flips fs (flip (fst g) (snd g) e)) (fst f) (N.of_nat (snd f)) =
          rev (slice e (fst f) (N.of_nat (snd f)))).
  assert (F3 : Forall (in_len (flip (fst g) (snd g) e)) fs).
  { eapply Forall_impl; [|exact F2]. intros x Hx. now apply in_len_flip. }
  destruct I as [<-|I].
  - rewrite slice_flips_apart; [now apply slice_flip_same|exact F3|unfold in_len in F1; rewrite len_flip; auto|].
    eapply Forall_impl; [|exact A1]. intros x [X|X]; [right|left]; cbn [fst snd]; lia.
  - rewrite IH; auto. rewrite slice_flip_apart; auto.
    + rewrite Forall_forall in F2. exact (F2 _ I).
    + rewrite Forall_forall in A1. specialize (A1 _ I). unfold apart in *. cbn [fst snd]. lia.
Qed.
