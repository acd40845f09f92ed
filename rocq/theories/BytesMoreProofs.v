From Verif Require Import Base BytesModel BytesProofs.
Local Open Scope N_scope.

Lemma w64_small x : x < two64 -> w64 x = x.
Proof. intros. unfold w64. now apply N.mod_small. Qed.


Lemma lt_pow2_bits a n : (forall j, n <= j -> N.testbit a j = false) -> a < 2 ^ n.
Proof.
  intros H. destruct (N.lt_ge_cases a (2 ^ n)) as [|Hge]; [assumption|exfalso].
  assert (Ha : 0 < a). { assert (0 < 2 ^ n) by (apply N.neq_0_lt_0, N.pow_nonzero; lia). lia. }
  assert (Hl : n <= N.log2 a) by (apply N.log2_le_pow2; assumption).
  specialize (H (N.log2 a) Hl). rewrite N.bit_log2 in H by lia. discriminate.
Qed.

Lemma bits_lt_pow2 a n j : a < 2 ^ n -> n <= j -> N.testbit a j = false.
Proof.
  intros Ha Hj. destruct (N.eq_dec a 0) as [->|Hz]; [apply N.bits_0|].
  apply N.bits_above_log2. apply N.log2_lt_pow2 in Ha; lia.
Qed.

Lemma lor_lt_pow2 a b n : a < 2 ^ n -> b < 2 ^ n -> N.lor a b < 2 ^ n.
Proof.
  intros Ha Hb. apply lt_pow2_bits. intros j Hj. rewrite N.lor_spec.
  now rewrite (bits_lt_pow2 a n), (bits_lt_pow2 b n).
Qed.

Lemma byte_of_lt x s t n : s + 8 <= n -> N.shiftr (N.land x (N.shiftl 0xff s)) t < 2 ^ n.
Proof.
  intros H. apply lt_pow2_bits. intros j Hj. rewrite testbit_byte_of.
  destruct (N.ltb_spec (j + t) (s + 8)); [lia|]. now rewrite !andb_false_r.
Qed.

Lemma byte_to_lt x s t n : s + t + 8 <= n -> N.shiftl (N.land x (N.shiftl 0xff s)) t < 2 ^ n.
Proof.
  intros H. apply lt_pow2_bits. intros j Hj. rewrite testbit_byte_to.
  destruct (N.ltb_spec (j - t) (s + 8)); [lia|]. now rewrite !andb_false_r.
Qed.

Lemma bswap16_lt x : bswap16 x < two16.
Proof.
  unfold bswap16. change two16 with (2 ^ 16). apply lor_lt_pow2.
  - apply lt_pow2_bits. intros j Hj. rewrite N.land_spec. change 0xff with (N.ones 8).
    rewrite N.ones_spec_high by lia. apply andb_false_r.
  - change 0xff with (N.shiftl 0xff 0). apply byte_to_lt. lia.
Qed.

Lemma bswap32_lt x : bswap32 x < two32.
Proof.
  unfold bswap32. change two32 with (2 ^ 32).
  change (N.land x 0xff) with (N.land x (N.shiftl 0xff 0)).
  change 0xff000000 with (N.shiftl 0xff 24). change 0x00ff0000 with (N.shiftl 0xff 16).
  change 0x0000ff00 with (N.shiftl 0xff 8).
  repeat apply lor_lt_pow2; first [apply byte_of_lt; lia | apply byte_to_lt; lia].
Qed.

Lemma bswap64_lt x : bswap64 x < two64.
Proof.
  unfold bswap64. change two64 with (2 ^ 64).
  change (N.land x 0xff) with (N.land x (N.shiftl 0xff 0)).
  change 0xff00000000000000 with (N.shiftl 0xff 56).
  change 0x00ff000000000000 with (N.shiftl 0xff 48).
  change 0x0000ff0000000000 with (N.shiftl 0xff 40).
  change 0x000000ff00000000 with (N.shiftl 0xff 32).
  change 0xff000000 with (N.shiftl 0xff 24). change 0x00ff0000 with (N.shiftl 0xff 16).
  change 0x0000ff00 with (N.shiftl 0xff 8).
  repeat apply lor_lt_pow2; first [apply byte_of_lt; lia | apply byte_to_lt; lia].
Qed.

Lemma bswap16_involutive x : x < two16 -> bswap16 (bswap16 x) = x.
Proof.
  intros H. apply (le_bytes_inj 2); [apply bswap16_lt|exact H|].
  now rewrite !bswap16_bytes, rev_involutive.
Qed.
Lemma bswap32_involutive x : x < two32 -> bswap32 (bswap32 x) = x.
Proof.
  intros H. apply (le_bytes_inj 4); [apply bswap32_lt|exact H|].
  now rewrite !bswap32_bytes, rev_involutive.
Qed.
Lemma bswap64_involutive x : x < two64 -> bswap64 (bswap64 x) = x.
Proof.
  intros H. apply (le_bytes_inj 8); [apply bswap64_lt|exact H|].
  now rewrite !bswap64_bytes, rev_involutive.
Qed.

(** bswap of the number stored in n bytes = number stored in the reversed bytes *)
Lemma bswap_of_le n d :
  bytes_ok d = true -> length d = n ->
  match byte_swap n (of_le d) with
  | Ok v => v = of_le (rev d)
  | _ => n <> 1%nat /\ n <> 2%nat /\ n <> 4%nat /\ n <> 8%nat
  end.
Proof.
  intros Hd Hn.
  assert (Hr : bytes_ok (rev d) = true).
  { unfold bytes_ok in *. rewrite forallb_forall in *. intros x Hx. apply Hd. now apply in_rev. }
  assert (Hb : of_le (rev d) < 256 ^ N.of_nat n).
  { replace (N.of_nat n) with (len (rev d)); [now apply of_le_bound|].
    unfold len. now rewrite rev_length, Hn. }
  assert (G : forall f, (forall x, le_bytes n (f x) = rev (le_bytes n x)) ->
            (forall x, f x < 256 ^ N.of_nat n) -> f (of_le d) = of_le (rev d)).
  { intros f Hf Hlt. apply (le_bytes_inj n); auto.
    rewrite Hf. rewrite <- Hn at 1. rewrite le_bytes_of_le by auto.
    rewrite <- (rev_length d) in Hn. rewrite <- Hn at 1. now rewrite le_bytes_of_le. }
  unfold byte_swap.
  destruct n as [|[|[|[|[|[|[|[|[|n]]]]]]]]]; try (repeat split; discriminate).
  - destruct d as [|b [|c d]]; try discriminate. reflexivity.
  - apply G; [apply bswap16_bytes|apply bswap16_lt].
  - apply G; [apply bswap32_bytes|apply bswap32_lt].
  - apply G; [apply bswap64_bytes|apply bswap64_lt].
Qed.

(** ** Align *)
Lemma align_value k v :
  k <= 64 ->
  align (2 ^ k) v = 2 ^ k * (w64 (v + (2 ^ k - 1)) / 2 ^ k).
Proof.
  intros Hk. unfold align.
  set (x := w64 (v + (2 ^ k - 1))).
  assert (Hx : x < 2 ^ 64) by (unfold x, w64; apply N.mod_lt; discriminate).
  replace (2 ^ k - 1) with (N.ones k) by (rewrite N.ones_equiv; lia).
  destruct (N.eq_dec x 0) as [E|E].
  - rewrite E, N.land_0_l, N.div_0_l; [lia|]. apply N.pow_nonzero; lia.
  - rewrite <- N.ldiff_land_low.
    + rewrite N.ldiff_ones_r, N.shiftl_mul_pow2, N.shiftr_div_pow2. lia.
    + apply N.log2_lt_pow2; [lia|exact Hx].
Qed.

Lemma align_spec k v :
  k <= 64 -> v + (2 ^ k - 1) < two64 ->
  align (2 ^ k) v mod 2 ^ k = 0 /\ v <= align (2 ^ k) v /\
  (forall m, m mod 2 ^ k = 0 -> v <= m -> align (2 ^ k) v <= m).
Proof.
  intros Hk Hv. rewrite align_value by auto.
  rewrite w64_small by auto.
  assert (Hp : 2 ^ k <> 0) by (apply N.pow_nonzero; lia).
  set (p := 2 ^ k) in *. clearbody p.
  assert (Hdm := N.div_mod (v + (p - 1)) p Hp).
  assert (Hlt := N.mod_lt (v + (p - 1)) p Hp).
  set (q := (v + (p - 1)) / p) in *. clearbody q.
  set (r := (v + (p - 1)) mod p) in *. clearbody r.
  repeat split.
  - rewrite N.mul_comm. apply N.mod_mul; auto.
  - lia.
  - intros m Hm Hvm. assert (Hmd := N.div_mod m p Hp). rewrite Hm in Hmd.
    set (qm := m / p) in *. clearbody qm.
    destruct (N.le_gt_cases q qm) as [Hq|Hq].
    + rewrite Hmd. assert (p * q <= p * qm) by (apply N.mul_le_mono_l; exact Hq). lia.
    + exfalso. assert (p * (qm + 1) <= p * q) by (apply N.mul_le_mono_l; lia).
      rewrite N.mul_add_distr_l in H. lia.
Qed.

Lemma align8_value v : v + 7 < two64 -> align 8 v = 8 * ((v + 7) / 8).
Proof.
  intros H. change 8 with (2 ^ 3) at 1. rewrite align_value by lia.
  rewrite w64_small by (change (2 ^ 3 - 1) with 7; auto). reflexivity.
Qed.

Lemma aligned_string_length_value n :
  n + 8 < two64 -> aligned_string_length n = 8 * (n / 8 + 1).
Proof.
  intros H. unfold aligned_string_length, w64.
  rewrite (N.mod_small (n + 1)) by (unfold two64 in *; lia).
  rewrite align8_value by lia. lia.
Qed.
