From Verif Require Import Base BytesModel.
Local Open Scope N_scope.

(** ** len / slice *)
Lemma len_app {A} (a b : list A) : len (a ++ b) = len a + len b.
Proof. unfold len. rewrite app_length. lia. Qed.
Lemma len_nil {A} : len (@nil A) = 0. Proof. reflexivity. Qed.
Lemma len_cons {A} (x : A) l : len (x :: l) = 1 + len l.
Proof. unfold len. cbn [length]. lia. Qed.
Lemma to_nat_len {A} (l : list A) : N.to_nat (len l) = length l.
Proof. unfold len. lia. Qed.
Lemma len_firstn {A} n (l : list A) : n <= len l -> len (firstn (N.to_nat n) l) = n.
Proof. unfold len. intros. rewrite firstn_length. lia. Qed.
Lemma len_skipn {A} n (l : list A) : len (skipn (N.to_nat n) l) = len l - n.
Proof. unfold len. rewrite skipn_length. lia. Qed.
Lemma len_slice {A} (l : list A) o n : o + n <= len l -> len (slice l o n) = n.
Proof. intros. unfold slice. apply len_firstn. rewrite len_skipn. lia. Qed.

Lemma skipn_skipn' {A} a b (l : list A) : skipn a (skipn b l) = skipn (a + b) l.
Proof.
  revert l; induction b as [|b IH]; intros l.
  - now rewrite Nat.add_0_r.
  - rewrite Nat.add_succ_r. destruct l as [|x l]; [now rewrite !skipn_nil|].
    cbn [skipn]. apply IH.
Qed.

Lemma slice_split {A} (l : list A) o n :
  o + n <= len l ->
  l = firstn (N.to_nat o) l ++ slice l o n ++ skipn (N.to_nat (o + n)) l.
Proof.
  intros H. unfold slice.
  replace (N.to_nat (o + n)) with (N.to_nat n + N.to_nat o)%nat by lia.
  rewrite <- skipn_skipn'. rewrite firstn_skipn. symmetry. apply firstn_skipn.
Qed.

Lemma firstn_len_app {A} (a b : list A) : firstn (N.to_nat (len a)) (a ++ b) = a.
Proof.
  rewrite to_nat_len, firstn_app, Nat.sub_diag, firstn_all. cbn. apply app_nil_r.
Qed.
Lemma skipn_len_app {A} (a b : list A) : skipn (N.to_nat (len a)) (a ++ b) = b.
Proof.
  rewrite to_nat_len, skipn_app, Nat.sub_diag, skipn_all. reflexivity.
Qed.
Lemma slice_app {A} (a d b : list A) o n :
  o = len a -> n = len d -> slice (a ++ d ++ b) o n = d.
Proof. intros -> ->. unfold slice. rewrite skipn_len_app. apply firstn_len_app. Qed.

Lemma app_inj_length {A} (a a' b b' : list A) :
  length a = length a' -> a ++ b = a' ++ b' -> a = a' /\ b = b'.
Proof.
  revert a'; induction a as [|x a IH]; intros [|y a'] HL E; try discriminate; [auto|].
  cbn [app] in E. injection E as -> E. cbn [length] in HL.
  destruct (IH a') as [-> ->]; auto.
Qed.

Lemma len_eq_length {A B} (a : list A) (b : list B) : len a = len b -> length a = length b.
Proof. unfold len. lia. Qed.

Lemma len_repeat {A} (x : A) n : len (repeat x (N.to_nat n)) = n.
Proof. unfold len. rewrite repeat_length. lia. Qed.

Lemma bytes_ok_app a b : bytes_ok (a ++ b) = bytes_ok a && bytes_ok b.
Proof. unfold bytes_ok. apply forallb_app. Qed.

Lemma bytes_ok_firstn n l : bytes_ok l = true -> bytes_ok (firstn n l) = true.
Proof.
  intros H. rewrite <- (firstn_skipn n l), bytes_ok_app in H.
  apply andb_prop in H. apply H.
Qed.
Lemma bytes_ok_skipn n l : bytes_ok l = true -> bytes_ok (skipn n l) = true.
Proof.
  intros H. rewrite <- (firstn_skipn n l), bytes_ok_app in H.
  apply andb_prop in H. apply H.
Qed.
Lemma bytes_ok_slice o n l : bytes_ok l = true -> bytes_ok (slice l o n) = true.
Proof. intros. apply bytes_ok_firstn, bytes_ok_skipn. assumption. Qed.

(** ** Little-endian integers *)
Lemma le_bytes_length n v : length (le_bytes n v) = n.
Proof. revert v; induction n as [|n IH]; intros v; cbn; [reflexivity|now rewrite IH]. Qed.

Lemma len_le_bytes n v : len (le_bytes n v) = N.of_nat n.
Proof. unfold len. now rewrite le_bytes_length. Qed.

Lemma le_bytes_ok n v : bytes_ok (le_bytes n v) = true.
Proof.
  revert v; induction n as [|n IH]; intros v; [reflexivity|].
  cbn [le_bytes bytes_ok forallb]. apply andb_true_intro; split; [|apply IH].
  unfold byte_ok. apply N.ltb_lt. apply N.mod_lt. lia.
Qed.

Lemma pow256_S n : 256 ^ N.of_nat (S n) = 256 * 256 ^ N.of_nat n.
Proof. rewrite Nat2N.inj_succ, N.pow_succ_r'. reflexivity. Qed.

Lemma of_le_bound l : bytes_ok l = true -> of_le l < 256 ^ len l.
Proof.
  induction l as [|b r IH]; intros H; [reflexivity|].
  cbn [bytes_ok forallb] in H. apply andb_prop in H as [H1 H2].
  unfold byte_ok in H1. apply N.ltb_lt in H1. specialize (IH H2).
  unfold len in *. cbn [length of_le]. rewrite pow256_S. lia.
Qed.

Lemma of_le_le_bytes n v : v < 256 ^ N.of_nat n -> of_le (le_bytes n v) = v.
Proof.
  revert v; induction n as [|n IH]; intros v H.
  { cbn in *. lia. }
  cbn [le_bytes of_le]. rewrite pow256_S in H.
  rewrite IH.
  - rewrite (N.div_mod v 256) at 3 by lia. lia.
  - apply N.div_lt_upper_bound; lia.
Qed.

Lemma of_le_le_bytes_mod n v : of_le (le_bytes n v) = v mod 256 ^ N.of_nat n.
Proof.
  revert v; induction n as [|n IH]; intros v.
  { cbn [le_bytes of_le]. change (256 ^ N.of_nat 0) with 1. now rewrite N.mod_1_r. }
  cbn [le_bytes of_le]. rewrite IH, pow256_S.
  rewrite N.mod_mul_r by (try apply N.pow_nonzero; lia). lia.
Qed.

Lemma le_bytes_of_le l : bytes_ok l = true -> le_bytes (length l) (of_le l) = l.
Proof.
  induction l as [|b r IH]; intros H; [reflexivity|].
  cbn [bytes_ok forallb] in H. apply andb_prop in H as [H1 H2].
  unfold byte_ok in H1. apply N.ltb_lt in H1.
  cbn [length le_bytes of_le].
  replace ((b + 256 * of_le r) mod 256) with b.
  - replace ((b + 256 * of_le r) / 256) with (of_le r); [now rewrite IH|].
    apply (N.div_unique _ _ _ b); lia.
  - apply (N.mod_unique _ _ (of_le r)); lia.
Qed.

Lemma le_bytes_inj n a b :
  a < 256 ^ N.of_nat n -> b < 256 ^ N.of_nat n -> le_bytes n a = le_bytes n b -> a = b.
Proof.
  intros Ha Hb E. rewrite <- (of_le_le_bytes n a Ha), <- (of_le_le_bytes n b Hb).
  now rewrite E.
Qed.

Lemma of_le_app a b : of_le (a ++ b) = of_le a + 256 ^ len a * of_le b.
Proof.
  induction a as [|x a IH]; [cbn [app of_le]; change (len (@nil N)) with 0; rewrite N.pow_0_r; lia|].
  cbn [app of_le]. rewrite IH, len_cons, N.pow_add_r. lia.
Qed.

(** ** Byte swap *)
Lemma testbit_shiftl a n m :
  N.testbit (N.shiftl a n) m = (n <=? m) && N.testbit a (m - n).
Proof.
  destruct (N.leb_spec n m).
  - now rewrite N.shiftl_spec_high' by lia.
  - now rewrite N.shiftl_spec_low by lia.
Qed.

Lemma testbit_mod256 a m : N.testbit (a mod 256) m = (m <? 8) && N.testbit a m.
Proof.
  change 256 with (2 ^ 8). destruct (N.ltb_spec m 8).
  - now rewrite N.mod_pow2_bits_low by lia.
  - now rewrite N.mod_pow2_bits_high by lia.
Qed.

Lemma testbit_div_pow2 a k m : N.testbit (a / 2 ^ k) m = N.testbit a (m + k).
Proof. now rewrite N.div_pow2_bits. Qed.

Lemma le_bytes_2 v : le_bytes 2 v = [v mod 256; (v / 2^8) mod 256].
Proof. reflexivity. Qed.

Lemma le_bytes_4 v :
  le_bytes 4 v = [v mod 256; (v / 2^8) mod 256; (v / 2^16) mod 256; (v / 2^24) mod 256].
Proof.
  cbn [le_bytes]. rewrite !N.div_div by lia. reflexivity.
Qed.

Lemma le_bytes_8 v :
  le_bytes 8 v = [v mod 256; (v / 2^8) mod 256; (v / 2^16) mod 256; (v / 2^24) mod 256;
                  (v / 2^32) mod 256; (v / 2^40) mod 256; (v / 2^48) mod 256;
                  (v / 2^56) mod 256].
Proof.
  cbn [le_bytes]. rewrite !N.div_div by lia. reflexivity.
Qed.

Lemma bswap16_bytes x : le_bytes 2 (bswap16 x) = rev (le_bytes 2 x).
Proof.
  rewrite !le_bytes_2. cbn [rev app]. unfold bswap16.
  f_equal; [|f_equal].
  - apply N.bits_inj; intros j. rewrite !testbit_mod256, testbit_div_pow2.
    rewrite N.lor_spec, N.land_spec, N.shiftr_spec', testbit_shiftl.
    destruct (N.ltb_spec j 8); [|reflexivity].
    destruct (N.leb_spec 8 j); [lia|]. cbn [andb].
    change 0xff with (N.ones 8). rewrite N.ones_spec_low by lia.
    now rewrite andb_true_r, orb_false_r.
  - apply N.bits_inj; intros j. rewrite !testbit_mod256, testbit_div_pow2.
    rewrite N.lor_spec, N.land_spec, testbit_shiftl, N.land_spec.
    destruct (N.ltb_spec j 8); [|reflexivity].
    destruct (N.leb_spec 8 (j + 8)); [|lia]. cbn [andb].
    change 0xff with (N.ones 8). rewrite N.ones_spec_high by lia.
    rewrite andb_false_r. replace (j + 8 - 8) with j by lia.
    rewrite N.ones_spec_low by lia. now rewrite andb_true_r.
Qed.

(** Bits of a mask [ones 8 << s]. *)
Lemma testbit_mask s j : N.testbit (N.shiftl 0xff s) j = (s <=? j) && (j <? s + 8).
Proof.
  rewrite testbit_shiftl. change 0xff with (N.ones 8).
  destruct (N.leb_spec s j); [|reflexivity]. cbn [andb].
  destruct (N.ltb_spec j (s + 8)).
  - apply N.ones_spec_low; lia.
  - apply N.ones_spec_high; lia.
Qed.

Lemma testbit_byte_of x s t j :
  N.testbit (N.shiftr (N.land x (N.shiftl 0xff s)) t) j =
  N.testbit x (j + t) && ((s <=? j + t) && (j + t <? s + 8)).
Proof. now rewrite N.shiftr_spec', N.land_spec, testbit_mask. Qed.

Lemma testbit_byte_to x s t j :
  N.testbit (N.shiftl (N.land x (N.shiftl 0xff s)) t) j =
  (t <=? j) && (N.testbit x (j - t) && ((s <=? j - t) && (j - t <? s + 8))).
Proof. now rewrite testbit_shiftl, N.land_spec, testbit_mask. Qed.

Ltac byte_eq :=
  apply N.bits_inj; intros j;
  rewrite !testbit_mod256, ?testbit_div_pow2;
  repeat rewrite N.lor_spec; rewrite ?testbit_byte_of, ?testbit_byte_to;
  destruct (N.ltb_spec j 8) as [Hj|Hj]; [|reflexivity]; cbn [andb];
  repeat match goal with
    | |- context [ ?a <=? ?b ] => destruct (N.leb_spec a b); try lia
    | |- context [ ?a <? ?b ] => destruct (N.ltb_spec a b); try lia
    end;
  cbn [andb orb]; rewrite ?andb_false_r, ?andb_true_r, ?orb_false_r; cbn [orb];
  f_equal; lia.

Lemma bswap32_bytes x : le_bytes 4 (bswap32 x) = rev (le_bytes 4 x).
Proof.
  rewrite !le_bytes_4. cbn [rev app]. unfold bswap32.
  change (N.land x 0xff) with (N.land x (N.shiftl 0xff 0)).
  change 0xff000000 with (N.shiftl 0xff 24). change 0x00ff0000 with (N.shiftl 0xff 16).
  change 0x0000ff00 with (N.shiftl 0xff 8).
  repeat (apply (f_equal2 (@cons N))); [byte_eq ..|reflexivity].
Qed.

Lemma bswap64_bytes x : le_bytes 8 (bswap64 x) = rev (le_bytes 8 x).
Proof.
  rewrite !le_bytes_8. cbn [rev app]. unfold bswap64.
  change (N.land x 0xff) with (N.land x (N.shiftl 0xff 0)).
  change 0xff00000000000000 with (N.shiftl 0xff 56).
  change 0x00ff000000000000 with (N.shiftl 0xff 48).
  change 0x0000ff0000000000 with (N.shiftl 0xff 40).
  change 0x000000ff00000000 with (N.shiftl 0xff 32).
  change 0xff000000 with (N.shiftl 0xff 24). change 0x00ff0000 with (N.shiftl 0xff 16).
  change 0x0000ff00 with (N.shiftl 0xff 8).
  repeat (apply (f_equal2 (@cons N))); [byte_eq ..|reflexivity].
Qed.
