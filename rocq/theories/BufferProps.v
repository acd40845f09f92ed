(** C04-C08: buffer access, length-prefixed strings, byte order, alignment
    (buffer_reader, buffer_writer, data_reader, data_writer, binary_data_utils in
    src/quipper). *)
From Verif Require Import Base BytesModel BufferModel BufferSpec
  BytesProofs BytesMoreProofs BufferProofs.
Local Open Scope N_scope.

(** C04. ReadData delivers exactly the bytes at the offset, or fails and leaves
    the reader alone; it fails exactly when the bytes are not there. The sum
    [roff r + size] is the mathematical one. *)
Theorem C04_read_data_all_or_nothing (r : reader) (size : N) :
  reader_words r = true -> size < two64 ->
  match read_data size r with
  | (Ok d, r') => delivers r size d r'
  | (Fail, r') => r' = r /\ len (rbuf r) < roff r + size
  | _ => False
  end.
Proof. exact (read_data_ok r size). Qed.
Print Assumptions C04_read_data_all_or_nothing.

Theorem C04_read_string_all_or_nothing (r : reader) (size : N) :
  reader_words r = true -> size < two64 ->
  match read_string size r with
  | (Ok s, r') => exists d, delivers r size d r' /\ until_nul d s
  | (Fail, r') => r' = r /\ len (rbuf r) < roff r + size
  | _ => False
  end.
Proof. exact (read_string_ok r size). Qed.
Print Assumptions C04_read_string_all_or_nothing.

Theorem C04_read_data_string_all_or_nothing (r : reader) (size : N) :
  reader_words r = true -> size < two64 ->
  len (rbuf r) < two63 -> roff r <= len (rbuf r) ->
  match read_data_string size r with
  | (Ok d, r') => delivers r size d r'
  | (Fail, r') => r' = r /\ len (rbuf r) < roff r + size
  | _ => False
  end.
Proof. exact (read_data_string_ok r size). Qed.
Print Assumptions C04_read_data_string_all_or_nothing.

Theorem C04_seek_set (r : reader) (o : N) :
  match seek_set o r with
  | (Ok _, r') => o <= len (rbuf r) /\ rbuf r' = rbuf r /\ roff r' = o /\ rswap r' = rswap r
  | (Fail, r') => r' = r /\ len (rbuf r) < o
  | _ => False
  end.
Proof. exact (seek_set_ok r o). Qed.
Print Assumptions C04_seek_set.

(** C04. Any client, whatever calls it makes and whatever it ignores: no call
    aborts or is undefined, the buffer is never changed and the offset stays
    inside it. (A buffer object is smaller than 2^63 bytes.) *)
Theorem C04_any_read_sequence_stays_inside (b : list N) (swap : bool) (ops : list rop) :
  len b < two63 -> bytes_ok b = true -> forallb rop_words ops = true ->
  let (outs, r) := rrun (mkReader b 0 swap) ops in
  Forall (fun x => x = Ok tt \/ x = Fail) outs /\ rbuf r = b /\ roff r <= len b.
Proof.
  intros Hb Hok Ho.
  destruct (rrun_inv b ops (mkReader b 0 swap) Hb Hok (conj eq_refl (N.le_0_l _)) Ho)
    as [H1 [H2 H3]].
  destruct (rrun (mkReader b 0 swap) ops) as [outs r]. exact (conj H1 (conj H2 H3)).
Qed.
Print Assumptions C04_any_read_sequence_stays_inside.

Example C04_nontrivial :
  rrun (mkReader [1;0;0;0;65;0;7;8] 0 false)
       [RU32; RStr 2; RData 18446744073709551615; RData 2; RU16; RSeek 4; RStr 4]
  = ([Ok tt; Ok tt; Fail; Ok tt; Fail; Ok tt; Ok tt],
     mkReader [1;0;0;0;65;0;7;8] 8 false).
Proof. vm_compute. reflexivity. Qed.

(** C05. WriteData writes exactly its bytes at the offset, or fails without any
    effect. (It fails in one case where the data would fit: nothing can be
    written when the offset is at the end of the buffer, not even 0 bytes.) *)
Theorem C05_write_data_all_or_nothing (w : writer) (d : list N) :
  len (wbuf w) < two63 -> woff w < two64 -> len d < two64 ->
  match write_data d w with
  | (Ok _, w') => writes w d w'
  | (Fail, w') => w' = w /\ (len (wbuf w) < woff w + len d \/ woff w = len (wbuf w))
  | _ => False
  end.
Proof. exact (write_data_ok w d). Qed.
Print Assumptions C05_write_data_all_or_nothing.

(** C05. WriteString writes the string truncated / zero-padded to [size] bytes.
    The side condition [woff w + size < 2^64] cannot be dropped, see below. *)
Theorem C05_write_string_all_or_nothing (w : writer) (str : list N) (size : N) :
  len (wbuf w) < two63 -> woff w < two64 -> woff w + size < two64 -> len str < two64 ->
  match write_string str size w with
  | (Ok _, w') =>
      writes w (firstn (N.to_nat size) str ++ repeat 0 (N.to_nat (size - len str))) w'
  | (Fail, w') => w' = w /\ (len (wbuf w) < woff w + size \/ woff w = len (wbuf w))
  | _ => False
  end.
Proof. exact (write_string_ok w str size). Qed.
Print Assumptions C05_write_string_all_or_nothing.

Example C05_nontrivial :
  write_string [65;66] 4 (mkWriter [9;9;9;9;9;9] 1)
  = (Ok tt, mkWriter [9;65;66;0;0;9] 5).
Proof. vm_compute. reflexivity. Qed.

(** C05, finding: when offset + size wraps around 2^64 (buffer_writer.cc:26)
    WriteString passes its check and the memset of buffer_writer.cc:31 leaves the
    buffer. *)
Theorem C05_write_string_wrap_refuted :
  exists w str size,
    len (wbuf w) < two63 /\ woff w < len (wbuf w) /\ size < two64 /\
    fst (write_string str size w) = UB.
Proof.
  exists (mkWriter [0;0;0;0] 1), [65], max64. vm_compute. repeat split.
Qed.
Print Assumptions C05_write_string_wrap_refuted.

(** C06. Writing a NUL-free string and reading it back. [w] and [w'] are the
    writer before and after; the reader is placed where the writer was. Both
    advance by 4 + the 8-byte aligned length of the string with its NUL. *)
Theorem C06_string_with_size_roundtrip (w w' : writer) (src : list N) :
  len (wbuf w) < two63 -> woff w < two64 -> len src < two32 - 8 -> ~ In 0 src ->
  write_string_with_size src w = (Ok tt, w') ->
  woff w + 4 + 8 * (len src / 8 + 1) < two64 ->
  read_string_with_size (mkReader (wbuf w') (woff w) false)
  = (Ok src, mkReader (wbuf w') (woff w') false) /\
  woff w' = woff w + 4 + 8 * (len src / 8 + 1) /\ len (wbuf w') = len (wbuf w).
Proof.
  intros Hl Ho Hs Hn E Hfit.
  assert (H := write_string_with_size_ok w src Hl Ho Hs Hfit). rewrite E in H.
  assert (HL := writes_len _ _ _ H).
  destruct H as (pre & old & post & E1 & E2 & E3 & E4 & E5).
  rewrite len_stored_string in *.
  assert (Hr : reader_words (mkReader (wbuf w') (woff w) false) = true).
  { unfold reader_words; cbn [rbuf roff]. apply andb_true_intro.
    unfold two63, two64 in *. split; lia. }
  rewrite (read_stored_string _ pre src post Hr) by (cbn [rbuf roff rswap]; auto).
  unfold set_off. cbn [rbuf roff rswap]. rewrite len_stored_string, E5.
  repeat split; auto; lia.
Qed.
Print Assumptions C06_string_with_size_roundtrip.

(** C06. The write succeeds whenever the announced number of bytes is free, and
    fails without effect otherwise. *)
Theorem C06_string_with_size_write (w : writer) (src : list N) :
  len (wbuf w) < two63 -> woff w < two64 -> len src < two32 - 8 ->
  woff w + 4 + 8 * (len src / 8 + 1) < two64 ->
  match write_string_with_size src w with
  | (Ok _, w') => woff w + 4 + 8 * (len src / 8 + 1) <= len (wbuf w)
  | (Fail, w') => w' = w /\ len (wbuf w) < woff w + 4 + 8 * (len src / 8 + 1)
  | _ => False
  end.
Proof.
  intros Hl Ho Hs Hfit.
  assert (H := write_string_with_size_ok w src Hl Ho Hs Hfit).
  destruct (write_string_with_size src w) as [[[]| | | |] w']; auto.
  destruct H as (pre & old & post & E1 & E2 & E3 & E4 & E5).
  rewrite E1, !len_app. rewrite len_stored_string in E3. lia.
Qed.
Print Assumptions C06_string_with_size_write.

Example C06_nontrivial :
  write_string_with_size [97;98;99] (mkWriter (repeat 9 14) 1)
  = (Ok tt, mkWriter ([9] ++ [8;0;0;0] ++ [97;98;99;0;0;0;0;0] ++ [9]) 13).
Proof. vm_compute. reflexivity. Qed.

(** C07. ByteSwap is an involution and reverses the stored bytes. *)
Theorem C07_bswap16 (x : N) : x < two16 ->
  bswap16 (bswap16 x) = x /\ le_bytes 2 (bswap16 x) = rev (le_bytes 2 x).
Proof. exact (fun H => conj (bswap16_involutive x H) (bswap16_bytes x)). Qed.
Print Assumptions C07_bswap16.

Theorem C07_bswap32 (x : N) : x < two32 ->
  bswap32 (bswap32 x) = x /\ le_bytes 4 (bswap32 x) = rev (le_bytes 4 x).
Proof. exact (fun H => conj (bswap32_involutive x H) (bswap32_bytes x)). Qed.
Print Assumptions C07_bswap32.

Theorem C07_bswap64 (x : N) : x < two64 ->
  bswap64 (bswap64 x) = x /\ le_bytes 8 (bswap64 x) = rev (le_bytes 8 x).
Proof. exact (fun H => conj (bswap64_involutive x H) (bswap64_bytes x)). Qed.
Print Assumptions C07_bswap64.

(** C07. An integer read is the little-endian value of the bytes at the offset,
    or of those bytes reversed for a cross-endian reader. *)
Theorem C07_read_int_endianness (n : nat) (r : reader) :
  In n [1%nat; 2%nat; 4%nat; 8%nat] ->
  reader_words r = true -> bytes_ok (rbuf r) = true ->
  match read_int n r with
  | (Ok v, r') => exists d, delivers r (N.of_nat n) d r' /\
                    v = of_le (if rswap r then rev d else d)
  | (Fail, r') => r' = r /\ len (rbuf r) < roff r + N.of_nat n
  | _ => False
  end.
Proof. exact (fun Hn Hr Hb => read_int_ok n r Hr Hb Hn). Qed.
Print Assumptions C07_read_int_endianness.

Example C07_nontrivial :
  bswap32 0x11223344 = 0x44332211 /\
  fst (read_u16 (mkReader [1;2] 0 true)) = Ok 0x0102.
Proof. vm_compute. split; reflexivity. Qed.

(** C08. Align rounds up to the least multiple, when that does not overflow. *)
Theorem C08_align_least_multiple (k v : N) :
  k <= 64 -> v + (2 ^ k - 1) < two64 ->
  align (2 ^ k) v mod 2 ^ k = 0 /\ v <= align (2 ^ k) v /\
  (forall m, m mod 2 ^ k = 0 -> v <= m -> align (2 ^ k) v <= m).
Proof. exact (align_spec k v). Qed.
Print Assumptions C08_align_least_multiple.

Theorem C08_aligned_string_length (n : N) :
  n + 8 < two64 ->
  aligned_string_length n mod 8 = 0 /\
  n < aligned_string_length n /\ aligned_string_length n <= n + 8.
Proof. intros H. rewrite aligned_string_length_value by exact H. lia. Qed.
Print Assumptions C08_aligned_string_length.

(** C08. Near the top of the 64-bit range the rounded value wraps to 0. *)
Theorem C08_align_wraps_refuted : exists v, v < two64 /\ align 8 v < v.
Proof. exists max64. vm_compute. split; reflexivity. Qed.
Print Assumptions C08_align_wraps_refuted.

(** C08. GetNumBits counts the set bits of an n-bit value. *)
Theorem C08_get_num_bits (n : nat) (x : N) :
  x < 2 ^ N.of_nat n ->
  get_num_bits x =
    fold_right (fun i acc => acc + (if N.testbit x (N.of_nat i) then 1 else 0)) 0 (seq 0 n).
Proof. exact (get_num_bits_spec n x). Qed.
Print Assumptions C08_get_num_bits.

Example C08_nontrivial :
  align 8 13 = 16 /\ align 8 16 = 16 /\ align 4096 4097 = 8192 /\
  aligned_string_length 7 = 8 /\ aligned_string_length 8 = 16.
Proof. vm_compute. repeat split. Qed.
