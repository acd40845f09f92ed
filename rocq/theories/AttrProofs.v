(** Proofs about attributes and their messages. *)
From Coq Require Import Lia.
From Verif Require Import Base BytesModel SampleModel AttrModel AttrSpec BytesProofs.
Local Open Scope N_scope.

Definition maskbits (i : N) : bool := (i <? 15) || ((17 <=? i) && (i <? 30)) || (i =? 32).

Lemma mask_bit i : N.testbit flag_mask i = maskbits i.
Proof.
  unfold maskbits. destruct (N.lt_ge_cases i 33) as [L|L].
  - assert (H : forallb (fun k => Bool.eqb (N.testbit flag_mask (N.of_nat k))
        ((N.of_nat k <? 15) || ((17 <=? N.of_nat k) && (N.of_nat k <? 30)) || (N.of_nat k =? 32)))
        (List.seq 0 33) = true) by (vm_compute; reflexivity).
    rewrite forallb_forall in H. specialize (H (N.to_nat i)).
    rewrite N2Nat.id in H. apply Bool.eqb_prop, H. apply in_seq. lia.
  - assert (F : flag_mask < 2 ^ 33) by (vm_compute; reflexivity).
    rewrite <- (N.mod_small _ _ F), N.mod_pow2_bits_high by exact L. symmetry.
    rewrite (proj2 (N.ltb_ge i 15)) by lia. rewrite (proj2 (N.ltb_ge i 30)) by lia.
    rewrite (proj2 (N.eqb_neq i 32)) by lia. now rewrite Bool.andb_false_r.
Qed.

Lemma maskbits_kept i : maskbits i = true <-> kept_bit i /\ i <> 15 /\ i <> 16.
Proof.
  unfold maskbits, kept_bit. rewrite !Bool.orb_true_iff, Bool.andb_true_iff.
  rewrite !N.ltb_lt, N.leb_le, N.eqb_eq. lia.
Qed.

Lemma flags_bit bits i : N.testbit (N.land bits flag_mask) i = N.testbit bits i && maskbits i.
Proof. now rewrite N.land_spec, mask_bit. Qed.

Lemma precise_small bits : N.shiftr bits 15 mod 4 = N.b2n (N.testbit bits 15) + 2 * N.b2n (N.testbit bits 16).
Proof.
  change 4 with (2 ^ 2). apply N.bits_inj. intros i.
  destruct (N.lt_ge_cases i 2) as [L|L].
  - rewrite N.mod_pow2_bits_low, N.shiftr_spec by lia.
    assert (C : i = 0 \/ i = 1) by lia. destruct C as [-> | ->].
    + change (0 + 15) with 15. rewrite N.add_comm, N.testbit_0_r. reflexivity.
    + change (1 + 15) with 16. change 1 with (N.succ 0) at 1. rewrite N.add_comm, N.testbit_succ_r, N.b2n_bit0. reflexivity.
  - rewrite N.mod_pow2_bits_high by exact L. symmetry.
    assert (S : N.b2n (N.testbit bits 15) + 2 * N.b2n (N.testbit bits 16) < 2 ^ 2)
      by (destruct (N.testbit bits 15), (N.testbit bits 16); vm_compute; reflexivity).
    rewrite <- (N.mod_small _ _ S). now apply N.mod_pow2_bits_high.
Qed.

(** The bit field made of flags and precise_ip. *)
Lemma bits_bit flags p i :
  N.testbit (N.lor (N.land flags flag_mask) (N.shiftl (p mod 4) 15)) i =
  (N.testbit flags i && maskbits i) || ((15 <=? i) && (i <? 17) && N.testbit p (i - 15)).
Proof.
  rewrite N.lor_spec, flags_bit. f_equal.
  destruct (N.lt_ge_cases i 15) as [L|L].
  - rewrite N.shiftl_spec_low by exact L. now rewrite (proj2 (N.leb_gt 15 i)).
  - rewrite N.shiftl_spec_high' by exact L. rewrite (proj2 (N.leb_le 15 i)) by exact L. cbn [andb].
    change 4 with (2 ^ 2). destruct (N.ltb_spec i 17) as [H|H].
    + rewrite N.mod_pow2_bits_low by lia. reflexivity.
    + rewrite N.mod_pow2_bits_high by lia. reflexivity.
Qed.
Lemma bits_small flags p : N.lor (N.land flags flag_mask) (N.shiftl (p mod 4) 15) < 2 ^ 64.
Proof.
  apply N.lt_le_trans with (2 ^ 33); [|vm_compute; discriminate].
  set (x := N.lor _ _). destruct (N.eq_dec x 0) as [->|N0]; [vm_compute; reflexivity|].
  apply N.log2_lt_pow2; [lia|]. destruct (N.lt_ge_cases (N.log2 x) 33) as [|G]; [assumption|exfalso].
  assert (T := N.bit_log2 x N0). unfold x at 1 in T. rewrite bits_bit in T. unfold maskbits in T.
  rewrite (proj2 (N.ltb_ge _ 15)), (proj2 (N.ltb_ge _ 30)), (proj2 (N.eqb_neq _ 32)), (proj2 (N.ltb_ge _ 17)) in T by lia.
  rewrite !Bool.andb_false_r in T. cbn in T. discriminate T.
Qed.

Lemma slice_nat (a : list N) o n : slice a (N.of_nat o) (N.of_nat n) = firstn n (skipn o a).
Proof. unfold slice. now rewrite !Nat2N.id. Qed.

Lemma skip_cut (n o : nat) (a : list N) : (o + n <= length a)%nat ->
  skipn o a = slice a (N.of_nat o) (N.of_nat n) ++ skipn (o + n) a.
Proof.
  intros L. rewrite slice_nat. rewrite <- (firstn_skipn n (skipn o a)) at 1. f_equal.
  clear L. revert a. induction o as [|o IH]; intros a; [reflexivity|].
  destruct a as [|x a]; [now rewrite !skipn_nil|]. cbn. apply IH.
Qed.

Lemma le_member a o n : is_attr a -> (o + n <= 96)%nat ->
  le_bytes n (attr_num a (N.of_nat o) (N.of_nat n)) = slice a (N.of_nat o) (N.of_nat n).
Proof.
  intros [L B] H. unfold attr_num.
  assert (K : length (slice a (N.of_nat o) (N.of_nat n)) = n).
  { rewrite slice_nat, firstn_length, skipn_length, L. apply Nat.min_l. lia. }
  rewrite <- K at 1. apply le_bytes_of_le. rewrite slice_nat. clear - B.
  unfold bytes_ok in *. rewrite forallb_forall in *. intros x I. apply B.
  assert (J : In x (skipn o a)) by (rewrite <- (firstn_skipn n (skipn o a)); apply in_app_iff; now left).
  rewrite <- (firstn_skipn o a). apply in_app_iff. now right.
Qed.

(** Numbers one behind the other. *)
Definition flat (l : list (nat * N)) : list N := concat (map (fun x => le_bytes (fst x) (snd x)) l).
Definition room (l : list (nat * N)) : N := fold_right (fun x n => N.of_nat (fst x) + n) 0 l.
Lemma flat_len l : len (flat l) = room l.
Proof.
  induction l as [|[n v] l IH]; [reflexivity|]. unfold flat in *. cbn [map concat fst snd room fold_right].
  unfold len in *. rewrite app_length, le_bytes_length. fold (room l). lia.
Qed.
Lemma flat_app l1 l2 : flat (l1 ++ l2) = flat l1 ++ flat l2.
Proof. unfold flat. now rewrite map_app, concat_app. Qed.
Lemma flat_slice l1 n v l2 o k : o = room l1 -> k = N.of_nat n ->
  slice (flat (l1 ++ (n, v) :: l2)) o k = le_bytes n v.
Proof.
  intros -> ->. rewrite flat_app. unfold flat at 2. cbn [map concat fst snd]. fold (flat l2).
  apply slice_app; [now rewrite flat_len|]. unfold len. now rewrite le_bytes_length.
Qed.

Definition attr_bits (m : x_attr) : N := N.lor (N.land (ea_flags m) flag_mask) (N.shiftl (ea_precise_ip m mod 4) 15).
Definition attr_wakeup (m : x_attr) : N :=
  if N.testbit (attr_bits m) F_WATERMARK then ea_wakeup_watermark m else ea_wakeup_events m.
Definition attr_parts (m : x_attr) : list (nat * N) :=
  [(4%nat, ea_type m); (4%nat, ea_size m); (8%nat, ea_config m); (8%nat, ea_sample_period m);
   (8%nat, ea_sample_type m); (8%nat, ea_read_format m); (8%nat, attr_bits m); (4%nat, attr_wakeup m);
   (4%nat, ea_bp_type m); (8%nat, ea_bp_addr m); (8%nat, ea_bp_len m); (8%nat, ea_branch m);
   (8%nat, ea_regs_user m); (4%nat, ea_stack_user m); (4%nat, 0)].
Lemma des_flat m : des_attr m = flat (attr_parts m).
Proof.
  unfold des_attr, attr_parts, flat, attr_wakeup, attr_bits. cbv zeta. cbn [map concat fst snd].
  now rewrite app_nil_r.
Qed.
Lemma des_attr_is m : is_attr (des_attr m).
Proof.
  split.
  - rewrite des_flat. apply Nat2N.inj. change (N.of_nat (length (flat (attr_parts m)))) with (len (flat (attr_parts m))).
    rewrite flat_len. reflexivity.
  - rewrite des_flat. unfold flat. generalize (attr_parts m). intros l. induction l as [|[n v] l IH]; [reflexivity|].
    cbn [map concat fst snd]. rewrite bytes_ok_app. now rewrite le_bytes_ok, IH.
Qed.

Lemma nth_split' {A} (l : list A) i x : nth_error l i = Some x -> l = firstn i l ++ x :: skipn (S i) l.
Proof.
  revert i. induction l as [|y l IH]; intros [|i] H; try discriminate H.
  - injection H as ->. reflexivity.
  - cbn. f_equal. now apply IH.
Qed.
Lemma des_slice m i n v o k : nth_error (attr_parts m) i = Some (n, v) ->
  o = room (firstn i (attr_parts m)) -> k = N.of_nat n -> slice (des_attr m) o k = le_bytes n v.
Proof.
  intros H O K. rewrite des_flat. rewrite (nth_split' _ _ _ H) at 1. apply flat_slice; [exact O|exact K].
Qed.
Lemma des_member m i n v o k : nth_error (attr_parts m) i = Some (n, v) ->
  o = room (firstn i (attr_parts m)) -> k = N.of_nat n ->
  member (des_attr m) o k = v mod 256 ^ N.of_nat n.
Proof. intros H O K. unfold member. rewrite (des_slice m i n v o k H O K). apply of_le_le_bytes_mod. Qed.

Lemma ser_describes a : describes a (ser_attr a).
Proof.
  split; try reflexivity; unfold ser_attr; cbn [ea_flags ea_precise_ip ea_wakeup_events ea_wakeup_watermark].
  - intros i N1 N2. rewrite flags_bit, Bool.andb_true_iff, maskbits_kept. unfold bit_field, member, attr_num. tauto.
  - rewrite !flags_bit. change (maskbits 15) with false. change (maskbits 16) with false.
    now rewrite !Bool.andb_false_r.
  - apply precise_small.
  - rewrite flags_bit. change (maskbits F_WATERMARK) with true. rewrite Bool.andb_true_r. reflexivity.
  - rewrite flags_bit. change (maskbits F_WATERMARK) with true. rewrite Bool.andb_true_r. reflexivity.
Qed.

Lemma kept_dec i : kept_bit i <-> (maskbits i = true \/ i = 15 \/ i = 16).
Proof. rewrite maskbits_kept. unfold kept_bit. lia. Qed.

Lemma ser_bits a i : N.testbit (attr_bits (ser_attr a)) i = true <-> kept_bit i /\ bit_field a i = true.
Proof.
  unfold attr_bits, ser_attr. cbn [ea_flags ea_precise_ip]. rewrite bits_bit, flags_bit.
  fold (attr_num a 40 8). change (bit_field a i) with (N.testbit (attr_num a 40 8) i).
  set (b := attr_num a 40 8). rewrite kept_dec.
  rewrite Bool.orb_true_iff, !Bool.andb_true_iff, N.leb_le, N.ltb_lt.
  change 4 with (2 ^ 2). split.
  - intros [[[H1 H2] _]|[[L U] H]]; [tauto|]. rewrite N.mod_pow2_bits_low, N.shiftr_spec' in H by lia.
    replace (i - 15 + 15) with i in H by lia. split; [lia|exact H].
  - intros [[H1|C] H]; [tauto|]. right. split; [lia|].
    rewrite N.mod_pow2_bits_low, N.shiftr_spec' by lia. replace (i - 15 + 15) with i by lia. exact H.
Qed.
Lemma ser_wakeup a : attr_wakeup (ser_attr a) = attr_num a 48 4.
Proof.
  unfold attr_wakeup. destruct (N.testbit (attr_bits (ser_attr a)) F_WATERMARK) eqn:E.
  - apply ser_bits in E. destruct E as [_ E]. rewrite (ds_watermark _ _ (ser_describes a)).
    change F_WATERMARK with 14 in E. now rewrite E.
  - rewrite (ds_events _ _ (ser_describes a)). destruct (bit_field a 14) eqn:T; [|reflexivity].
    assert (X : N.testbit (attr_bits (ser_attr a)) F_WATERMARK = true)
      by (apply ser_bits; split; [left; reflexivity|exact T]).
    rewrite X in E. discriminate E.
Qed.

Lemma back_cut a : is_attr a -> des_attr (ser_attr a) =
  slice a 0 4 ++ slice a 4 4 ++ slice a 8 8 ++ slice a 16 8 ++ slice a 24 8 ++ slice a 32 8 ++
  le_bytes 8 (attr_bits (ser_attr a)) ++
  slice a 48 4 ++ slice a 52 4 ++ slice a 56 8 ++ slice a 64 8 ++ slice a 72 8 ++ slice a 80 8 ++ slice a 88 4 ++
  le_bytes 4 0.
Proof.
  intros A. rewrite des_flat. unfold attr_parts, flat. rewrite ser_wakeup. cbn [map concat fst snd].
  rewrite app_nil_r. generalize (attr_bits (ser_attr a)). intros bits. unfold ser_attr.
  cbn [ea_type ea_size ea_config ea_sample_period ea_sample_type ea_read_format ea_bp_type ea_bp_addr ea_bp_len
       ea_branch ea_regs_user ea_stack_user].
  assert (M : forall (o n : nat), (o + n <= 96)%nat -> le_bytes n (attr_num a (N.of_nat o) (N.of_nat n)) = slice a (N.of_nat o) (N.of_nat n))
    by (intros o n H; now apply le_member).
  assert (M0 := M 0%nat 4%nat ltac:(lia)). assert (M4 := M 4%nat 4%nat ltac:(lia)).
  assert (M8 := M 8%nat 8%nat ltac:(lia)). assert (M16 := M 16%nat 8%nat ltac:(lia)).
  assert (M24 := M 24%nat 8%nat ltac:(lia)). assert (M32 := M 32%nat 8%nat ltac:(lia)).
  assert (M48 := M 48%nat 4%nat ltac:(lia)). assert (M52 := M 52%nat 4%nat ltac:(lia)).
  assert (M56 := M 56%nat 8%nat ltac:(lia)). assert (M64 := M 64%nat 8%nat ltac:(lia)).
  assert (M72 := M 72%nat 8%nat ltac:(lia)). assert (M80 := M 80%nat 8%nat ltac:(lia)).
  assert (M88 := M 88%nat 4%nat ltac:(lia)).
  change (N.of_nat 0) with 0 in *. change (N.of_nat 4) with 4 in *. change (N.of_nat 8) with 8 in *.
  change (N.of_nat 16) with 16 in *. change (N.of_nat 24) with 24 in *. change (N.of_nat 32) with 32 in *.
  change (N.of_nat 48) with 48 in *. change (N.of_nat 52) with 52 in *. change (N.of_nat 56) with 56 in *.
  change (N.of_nat 64) with 64 in *. change (N.of_nat 72) with 72 in *. change (N.of_nat 80) with 80 in *.
  change (N.of_nat 88) with 88 in *.
  rewrite M0, M4, M8, M16, M24, M32, M48, M52, M56, M64, M72, M80, M88. reflexivity.
Qed.

Lemma bits_fit m : attr_bits m < 256 ^ N.of_nat 8.
Proof. unfold attr_bits. apply bits_small. Qed.

Lemma des_bits m : member (des_attr m) 40 8 = attr_bits m.
Proof. rewrite (des_member m 6 8 (attr_bits m)) by reflexivity. apply N.mod_small, bits_fit. Qed.

Lemma slice_len (a : list N) o n : (o + n <= length a)%nat -> length (slice a (N.of_nat o) (N.of_nat n)) = n.
Proof. intros H. rewrite slice_nat, firstn_length, skipn_length. apply Nat.min_l. lia. Qed.

(** Forty bytes in front, eight of the bit field, forty-four behind, padding. *)
Lemma attr_cut4 (a : list N) : length a = 96%nat -> a = firstn 40 a ++ slice a 40 8 ++ slice a 48 44 ++ slice a 92 4.
Proof.
  intros L. rewrite <- (firstn_skipn 40 a) at 1. f_equal.
  rewrite (skip_cut 8 40 a) by (rewrite L; lia). rewrite (skip_cut 44 (40 + 8) a) by (rewrite L; lia).
  rewrite (skip_cut 4 (40 + 8 + 44) a) by (rewrite L; lia).
  rewrite (skipn_all2 a) by (rewrite L; auto). now rewrite app_nil_r.
Qed.
Lemma slice_range (a : list N) o n k : slice a o (n + k) = slice a o n ++ slice a (o + n) k.
Proof. unfold slice. rewrite !N2Nat.inj_add. generalize (N.to_nat o) (N.to_nat n) (N.to_nat k). clear.
  intros o n k. replace (skipn (o + n) a) with (skipn n (skipn o a)).
  - generalize (skipn o a). clear. intros l. revert l. induction n as [|n IH]; intros l; [reflexivity|].
    destruct l as [|x l]; [cbn; now rewrite firstn_nil|]. cbn. f_equal. apply IH.
  - revert a. induction o as [|o IH]; intros a; [reflexivity|]. destruct a as [|x a]; [cbn; apply skipn_nil|]. cbn. apply IH.
Qed.
Lemma front_cut (a : list N) : firstn 40 a = slice a 0 4 ++ slice a 4 4 ++ slice a 8 8 ++ slice a 16 8 ++ slice a 24 8 ++ slice a 32 8.
Proof.
  change (firstn 40 a) with (slice a 0 (4 + (4 + (8 + (8 + (8 + 8)))))). rewrite !slice_range. reflexivity.
Qed.
Lemma behind_cut (a : list N) : slice a 48 44 = slice a 48 4 ++ slice a 52 4 ++ slice a 56 8 ++ slice a 64 8 ++ slice a 72 8 ++ slice a 80 8 ++ slice a 88 4.
Proof.
  change 44 with (4 + (4 + (8 + (8 + (8 + (8 + 4)))))). rewrite !slice_range. reflexivity.
Qed.
Lemma back_cut4 a : is_attr a ->
  des_attr (ser_attr a) = firstn 40 a ++ le_bytes 8 (attr_bits (ser_attr a)) ++ slice a 48 44 ++ le_bytes 4 0.
Proof. intros A. rewrite (back_cut a A), front_cut, behind_cut. now rewrite <- !app_assoc. Qed.

Lemma back_kept a : is_attr a -> kept_attr a (des_attr (ser_attr a)).
Proof.
  intros A. assert (L := proj1 A). split.
  - apply des_attr_is.
  - rewrite (back_cut4 a A). rewrite firstn_app, firstn_firstn, firstn_length, L. cbn [Nat.min Nat.sub firstn].
    now rewrite app_nil_r.
  - intros i. unfold bit_field at 1. rewrite des_bits. apply ser_bits.
  - rewrite (back_cut4 a A). rewrite app_assoc.
    assert (F : length (firstn 40 a) = 40%nat) by (rewrite firstn_length, L; reflexivity).
    assert (B : length (slice a 48 44) = 44%nat) by (apply (slice_len a 48 44); rewrite L; auto).
    apply slice_app; unfold len; rewrite ?app_length, ?le_bytes_length, ?F, ?B; reflexivity.
  - rewrite (des_member (ser_attr a) 14 4 0) by reflexivity. reflexivity.
Qed.

Lemma of_le_inj8 x y : length x = length y -> bytes_ok x = true -> bytes_ok y = true -> of_le x = of_le y -> x = y.
Proof.
  intros L X Y H. rewrite <- (le_bytes_of_le x X), <- (le_bytes_of_le y Y). now rewrite L, H.
Qed.
Lemma kept_covered a b : is_attr a -> bytes_ok b = true -> kept_attr a b -> covered a -> b = a.
Proof.
  intros [L B] Bb [Lb K1 K2 K3 K4] [C1 C2].
  rewrite (attr_cut4 a L), (attr_cut4 b Lb). rewrite K1, K3. f_equal. f_equal; [|f_equal].
  - apply of_le_inj8; try (apply bytes_ok_slice; assumption).
    + etransitivity; [apply (slice_len b 40 8); rewrite Lb; lia|symmetry; apply (slice_len a 40 8); rewrite L; lia].
    + apply N.bits_inj. intros i. specialize (K2 i). specialize (C1 i). unfold bit_field, member in *.
      destruct (N.testbit (of_le (slice a 40 8)) i), (N.testbit (of_le (slice b 40 8)) i); try reflexivity; exfalso; intuition congruence.
  - apply of_le_inj8; try (apply bytes_ok_slice; assumption).
    + etransitivity; [apply (slice_len b 92 4); rewrite Lb; lia|symmetry; apply (slice_len a 92 4); rewrite L; lia].
    + unfold member in *. now rewrite K4, C2.
Qed.

(** From the message and back. *)
Lemma message_back m : message_ok m -> ser_attr (des_attr m) = m.
Proof.
  intros [W Q F P Z U].
  assert (FL : N.land (ea_flags m) flag_mask = ea_flags m).
  { apply N.bits_inj. intros i. rewrite flags_bit. destruct (N.testbit (ea_flags m) i) eqn:E; [|reflexivity].
    apply F in E. now rewrite (proj2 (maskbits_kept i)). }
  assert (BI : forall i, N.testbit (attr_bits m) i = (N.testbit (ea_flags m) i && maskbits i) || ((15 <=? i) && (i <? 17) && N.testbit (ea_precise_ip m) (i - 15)))
    by (intros i; apply bits_bit).
  assert (T14 : N.testbit (attr_bits m) 14 = N.testbit (ea_flags m) 14).
  { rewrite BI. change (maskbits 14) with true. change (15 <=? 14) with false. cbn [andb].
    now rewrite Bool.orb_false_r, Bool.andb_true_r. }
  assert (LB : N.land (attr_bits m) flag_mask = ea_flags m).
  { apply N.bits_inj. intros i. rewrite flags_bit, BI. destruct (maskbits i) eqn:M.
    - rewrite !Bool.andb_true_r. assert (X := M). apply maskbits_kept in X.
      destruct (N.leb_spec 15 i), (N.ltb_spec i 17); cbn [andb]; rewrite ?Bool.orb_false_r; try reflexivity. lia.
    - rewrite Bool.andb_false_r. destruct (N.testbit (ea_flags m) i) eqn:E; [|reflexivity].
      apply F in E. apply maskbits_kept in E. rewrite E in M. discriminate M. }
  assert (PB : N.shiftr (attr_bits m) 15 mod 4 = ea_precise_ip m).
  { rewrite <- (N.mod_small (ea_precise_ip m) 4) by exact P.
    apply N.bits_inj. intros i. change 4 with (2 ^ 2). destruct (N.lt_ge_cases i 2) as [L|L].
    - rewrite !N.mod_pow2_bits_low, N.shiftr_spec', BI by exact L.
      replace (i + 15 - 15) with i by lia. rewrite (proj2 (N.leb_le 15 _)), (proj2 (N.ltb_lt _ 17)) by lia.
      assert (M : maskbits (i + 15) = false).
      { assert (C : i = 0 \/ i = 1) by lia. destruct C as [-> | ->]; reflexivity. }
      rewrite M, Bool.andb_false_r. reflexivity.
    - now rewrite !N.mod_pow2_bits_high. }
  assert (D : forall i n v o k, nth_error (attr_parts m) i = Some (n, v) ->
            o = room (firstn i (attr_parts m)) -> k = N.of_nat n -> v < 256 ^ N.of_nat n -> attr_num (des_attr m) o k = v).
  { intros i n v o k H1 H2 H3 H4. change (attr_num (des_attr m) o k) with (member (des_attr m) o k).
    rewrite (des_member m i n v o k H1 H2 H3). now apply N.mod_small. }
  destruct W as (W1 & W2 & W3 & W4 & W5 & W6). destruct Q as (Q1 & Q2 & Q3 & Q4 & Q5 & Q6 & Q7 & Q8).
  assert (WK : attr_wakeup m < 256 ^ N.of_nat 4)
    by (unfold attr_wakeup; destruct (N.testbit (attr_bits m) F_WATERMARK); [exact W4|exact W3]).
  assert (V40 : attr_num (des_attr m) 40 8 = attr_bits m) by exact (des_bits m).
  assert (V48 := D 7%nat 4%nat (attr_wakeup m) 48 4 eq_refl eq_refl eq_refl WK).
  unfold ser_attr. cbv zeta. rewrite V40, V48, LB, PB.
  rewrite (D 0%nat 4%nat (ea_type m) 0 4 eq_refl eq_refl eq_refl W1).
  rewrite (D 1%nat 4%nat (ea_size m) 4 4 eq_refl eq_refl eq_refl W2).
  rewrite (D 2%nat 8%nat (ea_config m) 8 8 eq_refl eq_refl eq_refl Q1).
  rewrite (D 3%nat 8%nat (ea_sample_period m) 16 8 eq_refl eq_refl eq_refl Q2).
  rewrite (D 4%nat 8%nat (ea_sample_type m) 24 8 eq_refl eq_refl eq_refl Q3).
  rewrite (D 5%nat 8%nat (ea_read_format m) 32 8 eq_refl eq_refl eq_refl Q4).
  rewrite (D 8%nat 4%nat (ea_bp_type m) 52 4 eq_refl eq_refl eq_refl W5).
  rewrite (D 9%nat 8%nat (ea_bp_addr m) 56 8 eq_refl eq_refl eq_refl Q5).
  rewrite (D 10%nat 8%nat (ea_bp_len m) 64 8 eq_refl eq_refl eq_refl Q6).
  rewrite (D 11%nat 8%nat (ea_branch m) 72 8 eq_refl eq_refl eq_refl Q7).
  rewrite (D 12%nat 8%nat (ea_regs_user m) 80 8 eq_refl eq_refl eq_refl Q8).
  rewrite (D 13%nat 4%nat (ea_stack_user m) 88 4 eq_refl eq_refl eq_refl W6).
  unfold attr_wakeup. change F_WATERMARK with 14. rewrite T14.
  destruct m as [ty sz cf pe fq st rf fl pi we ww bt ba bl br ru su].
  cbn [ea_type ea_size ea_config ea_sample_period ea_sample_freq ea_sample_type ea_read_format ea_flags ea_precise_ip
       ea_wakeup_events ea_wakeup_watermark ea_bp_type ea_bp_addr ea_bp_len ea_branch ea_regs_user ea_stack_user] in *.
  rewrite Z. destruct (N.testbit fl 14); rewrite U; reflexivity.
Qed.

Lemma member_bound a o n : bytes_ok a = true -> member a o (N.of_nat n) < 256 ^ N.of_nat n.
Proof.
  intros B. unfold member. eapply N.lt_le_trans; [apply of_le_bound; now apply bytes_ok_slice|].
  apply N.pow_le_mono_r; [discriminate|]. unfold slice. rewrite Nat2N.id.
  assert (X := firstn_le_length n (skipn (N.to_nat o) a)). unfold len; lia.
Qed.
Lemma ser_message_ok a : is_attr a -> message_ok (ser_attr a).
Proof.
  intros [L B].
  assert (M4 : forall o, attr_num a o 4 < 2 ^ 32) by (intros o; exact (member_bound a o 4 B)).
  assert (M8 : forall o, attr_num a o 8 < 2 ^ 64) by (intros o; exact (member_bound a o 8 B)).
  assert (Z : 0 < 2 ^ 32) by reflexivity.
  split.
  - unfold ser_attr. cbn [ea_type ea_size ea_wakeup_events ea_wakeup_watermark ea_bp_type ea_stack_user].
    repeat split; try apply M4; destruct (N.testbit (N.land (attr_num a 40 8) flag_mask) F_WATERMARK); auto.
  - unfold ser_attr. cbn [ea_config ea_sample_period ea_sample_type ea_read_format ea_bp_addr ea_bp_len ea_branch ea_regs_user].
    repeat split; apply M8.
  - intros i H. unfold ser_attr in H. cbn [ea_flags] in H. rewrite flags_bit, Bool.andb_true_iff in H.
    now apply maskbits_kept.
  - unfold ser_attr. cbn [ea_precise_ip]. now apply N.mod_lt.
  - reflexivity.
  - unfold ser_attr. cbn [ea_flags ea_wakeup_events ea_wakeup_watermark]. change F_WATERMARK with 14.
    destruct (N.testbit (N.land (attr_num a 40 8) flag_mask) 14); reflexivity.
Qed.

Lemma describes_unique a m m' : describes a m -> describes a m' -> m = m'.
Proof.
  intros D D'.
  assert (F : ea_flags m = ea_flags m').
  { apply N.bits_inj. intros i. destruct (N.eq_dec i 15) as [-> |N1].
    - now rewrite (proj1 (ds_flags_precise _ _ D)), (proj1 (ds_flags_precise _ _ D')).
    - destruct (N.eq_dec i 16) as [-> |N2].
      + now rewrite (proj2 (ds_flags_precise _ _ D)), (proj2 (ds_flags_precise _ _ D')).
      + assert (X := ds_flags _ _ D i N1 N2). assert (Y := ds_flags _ _ D' i N1 N2).
        destruct (N.testbit (ea_flags m) i), (N.testbit (ea_flags m') i); try reflexivity; exfalso; intuition congruence. }
  destruct D as [A0 A1 A2 A3 A4 A5 A6 _ _ A7 A8 A9 A10 A11 A12 A13 A14 A15].
  destruct D' as [B0 B1 B2 B3 B4 B5 B6 _ _ B7 B8 B9 B10 B11 B12 B13 B14 B15].
  rewrite <- B0 in A0. rewrite <- B1 in A1. rewrite <- B2 in A2. rewrite <- B3 in A3. rewrite <- B4 in A4. rewrite <- B5 in A5.
  rewrite <- B6 in A6. rewrite <- B7 in A7. rewrite <- B8 in A8. rewrite <- B9 in A9. rewrite <- B10 in A10. rewrite <- B11 in A11.
  rewrite <- B12 in A12. rewrite <- B13 in A13. rewrite <- B14 in A14. rewrite <- B15 in A15.
  clear - F A0 A1 A2 A3 A4 A5 A6 A7 A8 A9 A10 A11 A12 A13 A14 A15.
  destruct m as [x0 x1 x2 x3 x4 x5 x6 x7 x8 x9 x10 x11 x12 x13 x14 x15 x16], m' as [y0 y1 y2 y3 y4 y5 y6 y7 y8 y9 y10 y11 y12 y13 y14 y15 y16].
  cbn [ea_type ea_size ea_config ea_sample_period ea_sample_freq ea_sample_type ea_read_format ea_flags ea_precise_ip
       ea_wakeup_events ea_wakeup_watermark ea_bp_type ea_bp_addr ea_bp_len ea_branch ea_regs_user ea_stack_user] in *.
  subst. reflexivity.
Qed.

Lemma slice_firstn_in (a : list N) (o n k : N) : o + n <= k -> slice (firstn (N.to_nat k) a) o n = slice a o n.
Proof.
  intros H. unfold slice. rewrite skipn_firstn_comm, firstn_firstn. f_equal. lia.
Qed.
Lemma kept_raw a b : kept_attr a b -> raw_attr b = raw_attr a.
Proof.
  intros [L K1 K2 K3 K4]. unfold raw_attr, attr_num.
  assert (E : forall o, o + 8 <= 40 -> slice b o 8 = slice a o 8).
  { intros o H. rewrite <- (slice_firstn_in b o 8 40 H), <- (slice_firstn_in a o 8 40 H).
    change (N.to_nat 40) with 40%nat. now rewrite K1. }
  rewrite (E 24), (E 32) by (vm_compute; discriminate).
  assert (X : slice b 72 8 = slice a 72 8).
  { assert (H : forall c : list N, slice c 72 8 = slice (slice c 48 44) 24 8).
    { intros c. unfold slice. rewrite skipn_firstn_comm, firstn_firstn.
      rewrite skipn_skipn'. f_equal. }
    now rewrite (H b), (H a), K3. }
  rewrite X. f_equal. specialize (K2 18). unfold bit_field, member in K2.
  assert (Kb : kept_bit 18) by (left; reflexivity).
  destruct (N.testbit (of_le (slice a 40 8)) 18), (N.testbit (of_le (slice b 40 8)) 18); try reflexivity;
    exfalso; intuition congruence.
Qed.
