(** Proofs about the Arm SPE decoder. *)
From Verif Require Import Base BytesModel BytesProofs BytesMoreProofs SpeModel SpeSpec.
Local Open Scope N_scope.

Lemma field_bits v s k :
  N.shiftr (N.land v (N.shiftl (N.ones k) s)) s = (v / 2 ^ s) mod 2 ^ k.
Proof.
  rewrite N.shiftr_land, N.shiftr_shiftl_l, N.sub_diag, N.shiftl_0_r, N.land_ones,
    N.shiftr_div_pow2 by lia.
  reflexivity.
Qed.

Lemma payload_size_eq h : payload_size h = 2 ^ ((h / 16) mod 4).
Proof.
  unfold payload_size. change 0x30 with (N.shiftl (N.ones 2) 4).
  rewrite field_bits, N.shiftl_1_l. reflexivity.
Qed.

Lemma payload_size_cases h :
  payload_size h = 1 \/ payload_size h = 2 \/ payload_size h = 4 \/ payload_size h = 8.
Proof.
  rewrite payload_size_eq.
  assert (h / 16 mod 4 < 4) by (apply N.mod_lt; discriminate).
  remember (h / 16 mod 4) as k. clear Heqk.
  assert (k = 0 \/ k = 1 \/ k = 2 \/ k = 3) as [-> | [-> | [-> | ->]]] by lia; cbn; tauto.
Qed.

Lemma byte_at_ok buf i : i < len buf -> exists b, byte_at buf i = Ok b.
Proof.
  intro H. unfold byte_at.
  destruct (nth_error buf (N.to_nat i)) eqn:E; eauto.
  apply nth_error_None in E. unfold len in H. lia.
Qed.

Lemma maybe_swap_ok n x s : (n = 1 \/ n = 2 \/ n = 4 \/ n = 8)%nat -> exists y, maybe_swap n x s = Ok y.
Proof. intros [-> | [-> | [-> | ->]]]; destruct s; cbn; eauto. Qed.

Lemma set_payload_safe t i ext :
  i + (if ext =? 0 then 0 else 1) < len (st_buf t) ->
  set_payload t i ext = Fail \/
  exists p sz, set_payload t i ext = Ok (p, sz) /\ 1 < sz /\ i + sz <= len (st_buf t).
Proof.
  intro H. unfold set_payload.
  set (hs := if ext =? 0 then 1 else 2).
  assert (Hhs : 1 <= hs <= 2 /\ i + hs - 1 < len (st_buf t)).
  { subst hs. destruct (ext =? 0); lia. }
  destruct (byte_at_ok (st_buf t) (i + hs - 1)) as [b Hb]; [apply Hhs|].
  rewrite Hb. cbn [obind].
  destruct (N.ltb_spec (len (st_buf t) - i) (hs + payload_size b)) as [|Hl]; [left; reflexivity|].
  right.
  pose proof (payload_size_cases b) as Hp.
  unfold mem_read. rewrite (proj2 (N.leb_le _ _)) by lia. cbn [obind].
  destruct (maybe_swap_ok (N.to_nat (payload_size b))
              (of_le (slice (st_buf t) (i + hs) (payload_size b))) (st_swap t)) as [y Hy]; [lia|].
  rewrite Hy. cbn [obind]. do 2 eexists. split; [reflexivity|]. lia.
Qed.

Lemma align_packet base i h :
  let a := N.shiftl 1 (N.land h 0xf + 1) in
  1 <= a - N.land (w64 (base + i)) (a - 1) <= a.
Proof.
  cbv zeta. rewrite N.shiftl_1_l.
  set (m := N.land h 15 + 1).
  replace (2 ^ m - 1) with (N.ones m) by (rewrite N.ones_equiv; lia).
  rewrite N.land_ones.
  assert (H : 2 ^ m <> 0) by (apply N.pow_nonzero; discriminate).
  pose proof (N.mod_lt (w64 (base + i)) (2 ^ m) H).
  set (x := w64 (base + i) mod 2 ^ m) in *. clearbody x. lia.
Qed.

Definition good_step (t : spe_trace) (i : N) (x : outcome (N * bool * spe_rec)) : Prop :=
  x = Fail \/ exists sz e r', x = Ok (sz, e, r') /\ 1 <= sz /\ i + sz <= len (st_buf t).

Lemma good_payload t i ext (f : N -> N -> outcome (N * bool * spe_rec)) :
  i + (if ext =? 0 then 0 else 1) < len (st_buf t) ->
  (forall p sz, 1 < sz -> i + sz <= len (st_buf t) -> good_step t i (f p sz)) ->
  good_step t i (let! (p, sz) := set_payload t i ext in f p sz).
Proof.
  intros H Hf. destruct (set_payload_safe t i ext H) as [-> | (p & sz & -> & Hs & Hl)]; cbn [obind].
  - left; reflexivity.
  - apply Hf; assumption.
Qed.

Lemma good_ok t i sz e r : 1 < sz -> i + sz <= len (st_buf t) -> good_step t i (Ok (sz, e, r)).
Proof. intros; right; do 3 eexists; split; [reflexivity|]; lia. Qed.

Lemma spe_tail_safe t i h ext r :
  i + (if ext =? 0 then 0 else 1) < len (st_buf t) -> good_step t i (spe_tail t i h ext r).
Proof.
  intro H. unfold spe_tail. set (hdr := if ext =? 0 then h else ext). clearbody hdr.
  destruct (N.land hdr 0xf8 =? 0xb0); [apply good_payload; [assumption|]; intros; apply good_ok; assumption|].
  destruct (N.land hdr 0xf8 =? 0x98); [apply good_payload; [assumption|]; intros; apply good_ok; assumption|].
  left; reflexivity.
Qed.

Lemma decode_op_cases h p o : decode_op h p o = Fail \/ exists o', decode_op h p o = Ok o'.
Proof.
  unfold decode_op. destruct (N.land h 3) as [|q]; eauto.
  destruct q as [[|[]|]|[|[]|]|]; eauto.
Qed.

Lemma spe_packet_safe t i r : i < len (st_buf t) -> good_step t i (spe_packet t i r).
Proof.
  intro H. unfold spe_packet.
  destruct (byte_at_ok (st_buf t) i H) as [h ->]. cbn [obind].
  assert (H0 : i + (if 0 =? 0 then 0 else 1) < len (st_buf t)) by (cbn; lia).
  destruct (h =? 0). { right; do 3 eexists; split; [reflexivity|]; lia. }
  destruct (h =? 1). { right; do 3 eexists; split; [reflexivity|]; lia. }
  destruct (h =? 0x71). { apply good_payload; [assumption|]; intros; apply good_ok; assumption. }
  destruct (N.land h 0xcf =? 0x42). { apply good_payload; [assumption|]; intros; apply good_ok; assumption. }
  destruct (N.land h 0xcf =? 0x43). { apply good_payload; [assumption|]; intros; apply good_ok; assumption. }
  destruct (N.land h 0xfc =? 0x64). { apply good_payload; [assumption|]; intros; apply good_ok; assumption. }
  destruct (N.land h 0xfc =? 0x48).
  { apply good_payload; [assumption|]. intros p sz H1 H2.
    destruct (decode_op_cases h p (sr_op r)) as [-> | [o' ->]]; cbn [obind].
    - left; reflexivity.
    - apply good_ok; assumption. }
  destruct (N.land h 0xfc =? 0x20).
  - destruct (N.eqb_spec (len (st_buf t) - i) 1) as [|H1]; [left; reflexivity|].
    destruct (byte_at_ok (st_buf t) (i + 1)) as [e ->]; [lia|]. cbn [obind].
    destruct (e =? 0) eqn:He.
    + pose proof (align_packet (st_base t) i h) as Ha. cbv zeta in Ha.
      set (a := N.shiftl 1 (N.land h 15 + 1)) in *.
      destruct (N.ltb_spec (len (st_buf t) - i) a); [left; reflexivity|].
      right; do 3 eexists; split; [reflexivity|]. lia.
    + apply spe_tail_safe. rewrite He. lia.
  - apply spe_tail_safe. assumption.
Qed.

Lemma spe_loop_safe fuel t : forall i r,
  i <= len (st_buf t) -> len (st_buf t) - i <= N.of_nat fuel ->
  exists res i', spe_loop fuel t i r = Ok (res, i') /\ i <= i' <= len (st_buf t) /\
    (i < len (st_buf t) -> res <> None -> i < i').
Proof.
  induction fuel as [|f IH]; intros i r Hi Hf; cbn [spe_loop].
  - rewrite (proj2 (N.leb_le _ _)) by lia. do 2 eexists. split; [reflexivity|]. lia.
  - destruct (N.leb_spec (len (st_buf t)) i) as [|Hlt].
    { do 2 eexists. split; [reflexivity|]. lia. }
    destruct (spe_packet_safe t i r Hlt) as [-> | (sz & e & r' & -> & Hs & Hl)].
    + do 2 eexists. split; [reflexivity|]. split; [lia|]. intros _ Hn. contradiction.
    + destruct e.
      * do 2 eexists. split; [reflexivity|]. split; [lia|]. lia.
      * destruct (IH (i + sz) r') as (res & i' & E & Hb & Hp); [lia|lia|].
        exists res, i'. split; [exact E|]. split; [lia|]. intros _ _. lia.
Qed.

Lemma next_record_safe t i :
  i <= len (st_buf t) ->
  exists res i', next_record t i = Ok (res, i') /\ i <= i' <= len (st_buf t) /\
    (res <> None -> i < i').
Proof.
  intro Hi. unfold next_record.
  destruct (N.leb_spec (len (st_buf t)) i) as [|Hlt].
  - do 2 eexists. split; [reflexivity|]. split; [lia|]. intro Hn; contradiction.
  - destruct (spe_loop_safe (length (st_buf t)) t i spe_rec0) as (res & i' & E & Hb & Hp);
      [lia|unfold len; lia|].
    exists res, i'. split; [exact E|]. split; [exact Hb|]. auto.
Qed.

Lemma all_records_safe fuel t : forall i,
  i <= len (st_buf t) -> len (st_buf t) - i < N.of_nat fuel ->
  exists rs, all_records fuel t i = Ok rs /\ len rs <= len (st_buf t) - i.
Proof.
  induction fuel as [|f IH]; intros i Hi Hf; [lia|].
  cbn [all_records].
  destruct (next_record_safe t i Hi) as (res & i' & -> & Hb & Hp).
  destruct res as [r|].
  - assert (i < i') by (apply Hp; discriminate).
    destruct (IH i') as (rs & -> & Hl); [lia|lia|]. cbn [obind].
    eexists. split; [reflexivity|]. rewrite len_cons. lia.
  - eexists. split; [reflexivity|]. rewrite len_nil. lia.
Qed.

(** Failing does not depend on the record built so far. *)
Lemma payload_fail_indep t i ext (f g : N -> N -> outcome (N * bool * spe_rec)) :
  (forall p sz, f p sz = Fail -> g p sz = Fail) ->
  (let! (p, sz) := set_payload t i ext in f p sz) = Fail ->
  (let! (p, sz) := set_payload t i ext in g p sz) = Fail.
Proof.
  intro H. destruct (set_payload t i ext) as [[p sz]| | | |]; cbn [obind]; try discriminate; auto.
Qed.

Ltac ext_fail t i :=
  destruct (len (st_buf t) - i =? 1); auto;
  let e := fresh in
  destruct (byte_at (st_buf t) (i + 1)) as [e| | | |]; cbn [obind]; try discriminate; auto;
  destruct (e =? 0); [auto; discriminate|];
  do 2 (match goal with |- context [if ?c then _ else _] => destruct c end;
        [apply payload_fail_indep; discriminate|]); auto.

Lemma spe_packet_fail_indep t i r r2 : spe_packet t i r = Fail -> spe_packet t i r2 = Fail.
Proof.
  unfold spe_packet, spe_tail.
  destruct (byte_at (st_buf t) i) as [h| | | |]; cbn [obind]; try discriminate; auto.
  repeat match goal with
  | |- context [if ?c then _ else _] =>
      lazymatch c with
      | context [N.land] => idtac
      | context [N.eqb h _] => idtac
      end;
      destruct c; try discriminate; try (apply payload_fail_indep; discriminate)
  end.
  - apply payload_fail_indep. intros p sz.
    unfold decode_op. destruct (N.land h 3) as [|q]; [discriminate|].
    destruct q as [[|[]|]|[|[]|]|]; cbn [obind]; try discriminate; auto.
  - ext_fail t i.
  - ext_fail t i.
  - auto.
Qed.

Lemma spe_loop_none fuel t : forall i r i',
  spe_loop fuel t i r = Ok (None, i') ->
  i' < len (st_buf t) /\ forall r2, spe_packet t i' r2 = Fail.
Proof.
  induction fuel as [|f IH]; intros i r i' H; cbn [spe_loop] in H.
  - destruct (_ <=? _); discriminate.
  - destruct (N.leb_spec (len (st_buf t)) i) as [|Hlt]; [discriminate|].
    destruct (spe_packet t i r) as [[[sz e] r']| | | |] eqn:E; try discriminate.
    + destruct e; [discriminate|]. exact (IH _ _ _ H).
    + injection H as <-. split; [assumption|]. intro r2. exact (spe_packet_fail_indep _ _ _ _ E).
Qed.

Lemma next_record_sticky t i i' :
  next_record t i = Ok (None, i') -> next_record t i' = Ok (None, i').
Proof.
  unfold next_record. destruct (N.leb_spec (len (st_buf t)) i) as [Hle|Hlt]; intro H.
  - injection H as <-. rewrite (proj2 (N.leb_le _ _)) by assumption. reflexivity.
  - destruct (spe_loop_none _ _ _ _ _ H) as [Hl Hf].
    destruct (N.leb_spec (len (st_buf t)) i') as [|_]; [lia|].
    destruct (length (st_buf t)) eqn:El; [unfold len in Hl; lia|].
    cbn [spe_loop]. destruct (N.leb_spec (len (st_buf t)) i') as [|_]; [lia|].
    rewrite Hf. reflexivity.
Qed.

(** * Decoding the encoding *)

Lemma byte_at_app pre b post : byte_at (pre ++ b :: post) (len pre) = Ok b.
Proof. unfold byte_at. rewrite to_nat_len, nth_error_app2, Nat.sub_diag by lia. reflexivity. Qed.

Lemma put_length sw n v : length (put sw n v) = n.
Proof. unfold put. destruct sw; [rewrite rev_length|]; apply le_bytes_length. Qed.

Lemma put_value sw n v :
  (n = 1 \/ n = 2 \/ n = 4 \/ n = 8)%nat -> v < 256 ^ N.of_nat n ->
  maybe_swap n (of_le (put sw n v)) sw = Ok v.
Proof.
  intros Hn Hv. destruct sw; cbn [put maybe_swap].
  - assert (E : rev (rev (le_bytes n v)) = le_bytes n v) by apply rev_involutive.
    destruct Hn as [-> | [-> | [-> | ->]]]; cbn [byte_swap]; f_equal.
    + cbn [le_bytes rev app of_le]. change (256 ^ N.of_nat 1) with 256 in Hv. lia.
    + rewrite <- bswap16_bytes, of_le_le_bytes by apply bswap16_lt.
      apply bswap16_involutive. exact Hv.
    + rewrite <- bswap32_bytes, of_le_le_bytes by apply bswap32_lt.
      apply bswap32_involutive. exact Hv.
    + rewrite <- bswap64_bytes, of_le_le_bytes by apply bswap64_lt.
      apply bswap64_involutive. exact Hv.
  - unfold put. rewrite of_le_le_bytes by assumption. reflexivity.
Qed.

Lemma set_payload_put pre hb n v post base sw :
  (n = 1 \/ n = 2 \/ n = 4 \/ n = 8)%nat -> v < 256 ^ N.of_nat n ->
  payload_size hb = N.of_nat n ->
  set_payload {| st_buf := pre ++ hb :: put sw n v ++ post; st_base := base; st_swap := sw |} (len pre) 0
  = Ok (v, 1 + N.of_nat n).
Proof.
  intros Hn Hv Hs. unfold set_payload. cbn [st_buf st_base st_swap N.eqb].
  replace (len pre + 1 - 1) with (len pre) by lia.
  rewrite byte_at_app. cbn [obind]. rewrite Hs.
  assert (Hlen : len (pre ++ hb :: put sw n v ++ post) = len pre + 1 + N.of_nat n + len post).
  { rewrite !len_app, len_cons, len_app. unfold len at 2. rewrite put_length. lia. }
  rewrite Hlen. destruct (N.ltb_spec (len pre + 1 + N.of_nat n + len post - len pre) (1 + N.of_nat n)); [lia|].
  unfold mem_read. rewrite Hlen, (proj2 (N.leb_le _ _)) by lia. cbn [obind].
  replace (pre ++ hb :: put sw n v ++ post) with ((pre ++ [hb]) ++ put sw n v ++ post)
    by (rewrite <- app_assoc; reflexivity).
  rewrite (slice_app (pre ++ [hb]) (put sw n v) post).
  - rewrite Nat2N.id, put_value by assumption. reflexivity.
  - rewrite len_app. reflexivity.
  - unfold len. rewrite put_length. reflexivity.
Qed.

Lemma set_payload_put2 pre h0 hb n v post base sw :
  (n = 1 \/ n = 2 \/ n = 4 \/ n = 8)%nat -> v < 256 ^ N.of_nat n ->
  payload_size hb = N.of_nat n -> (hb =? 0) = false ->
  set_payload {| st_buf := pre ++ h0 :: hb :: put sw n v ++ post; st_base := base; st_swap := sw |} (len pre) hb
  = Ok (v, 2 + N.of_nat n).
Proof.
  intros Hn Hv Hs Hz. unfold set_payload. cbn [st_buf st_base st_swap]. rewrite Hz.
  replace (len pre + 2 - 1) with (len (pre ++ [h0])) by (rewrite len_app, len_cons, len_nil; lia).
  replace (pre ++ h0 :: hb :: put sw n v ++ post) with ((pre ++ [h0]) ++ hb :: put sw n v ++ post)
    by (rewrite <- app_assoc; reflexivity).
  rewrite byte_at_app. cbn [obind]. rewrite Hs.
  assert (Hlen : len ((pre ++ [h0]) ++ hb :: put sw n v ++ post) = len pre + 2 + N.of_nat n + len post).
  { rewrite !len_app, !len_cons, len_app, len_nil. unfold len at 2. rewrite put_length. lia. }
  rewrite Hlen. destruct (N.ltb_spec (len pre + 2 + N.of_nat n + len post - len pre) (2 + N.of_nat n)); [lia|].
  unfold mem_read. rewrite Hlen, (proj2 (N.leb_le _ _)) by lia. cbn [obind].
  replace ((pre ++ [h0]) ++ hb :: put sw n v ++ post) with ((pre ++ [h0; hb]) ++ put sw n v ++ post)
    by (rewrite <- !app_assoc; reflexivity).
  rewrite (slice_app (pre ++ [h0; hb]) (put sw n v) post).
  - rewrite Nat2N.id, put_value by assumption. reflexivity.
  - rewrite len_app. reflexivity.
  - unfold len. rewrite put_length. reflexivity.
Qed.

(** ** Field extraction *)

Lemma land56 v : N.land v (N.ones 56) = v mod 2 ^ 56.
Proof. apply N.land_ones. Qed.

Lemma lor_top v : v < 2 ^ 64 -> N.lor v (N.shiftl 0xff 56) = with_top 0xff v.
Proof.
  intro Hv. unfold with_top.
  rewrite N.add_comm, <- (N.shiftl_mul_pow2 0xff 56), <- land56.
  rewrite N.add_nocarry_lxor, N.lxor_lor.
  - apply N.bits_inj. intro j. rewrite !N.lor_spec, N.land_spec.
    destruct (N.ltb_spec j 56).
    + rewrite N.ones_spec_low, andb_true_r by assumption. reflexivity.
    + rewrite N.ones_spec_high, andb_false_r, orb_false_l by assumption.
      rewrite N.shiftl_spec_high by lia.
      destruct (N.ltb_spec j 64).
      * change 0xff with (N.ones 8). rewrite N.ones_spec_low by lia. apply orb_true_r.
      * rewrite (bits_lt_pow2 v 64 j) by assumption. reflexivity.
  - apply N.bits_inj. intro j. rewrite !N.land_spec, N.bits_0.
    destruct (N.ltb_spec j 56).
    + rewrite N.shiftl_spec_low by assumption. apply andb_false_r.
    + rewrite N.ones_spec_high, andb_false_r by assumption. reflexivity.
  - apply N.bits_inj. intro j. rewrite !N.land_spec, N.bits_0.
    destruct (N.ltb_spec j 56).
    + rewrite N.shiftl_spec_low by assumption. apply andb_false_r.
    + rewrite N.ones_spec_high, andb_false_r by assumption. reflexivity.
Qed.

Lemma decode_ip_spec v : v < 256 ^ 8 -> decode_ip v = ip_of v.
Proof.
  intro Hv. change (256 ^ 8) with (2 ^ 64) in Hv. unfold decode_ip, ip_of.
  change 3 with (N.ones 2). change (N.shiftl 1 63) with (N.shiftl (N.ones 1) 63).
  rewrite !field_bits, land56, lor_top by assumption.
  change (2 ^ 2) with 4. change (2 ^ 1) with 2.
  assert (Hns : v / 2 ^ 63 < 2) by (apply N.div_lt_upper_bound; [discriminate|exact Hv]).
  rewrite (N.mod_small (v / 2 ^ 63) 2) by assumption.
  replace (v mod 2 ^ 56) with (with_top 0 v) by (unfold with_top; lia).
  set (ns := v / 2 ^ 63) in *. clearbody ns.
  assert (ns = 0 \/ ns = 1) as [-> | ->] by lia; reflexivity.
Qed.

Lemma decode_va_spec v : v < 256 ^ 8 -> decode_va v = va_of v.
Proof.
  intro Hv. change (256 ^ 8) with (2 ^ 64) in Hv. unfold decode_va, va_of.
  change 0xff with (N.ones 8) at 2.
  rewrite field_bits, land56, lor_top by assumption.
  rewrite (N.mod_small (v / 2 ^ 56)) by (apply N.div_lt_upper_bound; [discriminate|exact Hv]).
  replace (v mod 2 ^ 56) with (with_top 0 v) at 2 by (unfold with_top; lia).
  replace (N.land (N.shiftr (v mod 2 ^ 56) 48) 240 =? 240) with (v / 2 ^ 52 mod 16 =? 15); [reflexivity|].
  rewrite <- land56, N.shiftr_land.
  change (N.shiftr (N.ones 56) 48) with 255. rewrite <- N.land_assoc.
  change (N.land 255 240) with (N.shiftl (N.ones 4) 4).
  pose proof (field_bits (N.shiftr v 48) 4 4) as E.
  rewrite (N.shiftr_div_pow2 v 48), N.div_div in E by discriminate.
  change (2 ^ 48 * 2 ^ 4) with (2 ^ 52) in E. change (2 ^ 4) with 16 in E.
  rewrite (N.shiftr_div_pow2 v 48). rewrite <- E.
  set (y := N.land (v / 2 ^ 48) (N.shiftl (N.ones 4) 4)).
  assert (Hy : y = 16 * N.shiftr y 4).
  { subst y. rewrite N.shiftr_land, (N.shiftr_shiftl_l (N.ones 4)) by lia.
    rewrite N.sub_diag, N.shiftl_0_r. rewrite N.mul_comm.
    change 16 with (2 ^ 4). rewrite <- N.shiftl_mul_pow2, N.shiftl_land.
    apply N.bits_inj. intro j. rewrite !N.land_spec.
    destruct (N.ltb_spec j 4).
    - rewrite (N.shiftl_spec_low (N.ones 4)) by assumption. rewrite !andb_false_r. reflexivity.
    - rewrite (N.shiftl_spec_high' (N.shiftr _ _)), N.shiftr_spec' by assumption.
      replace (j - 4 + 4) with j by lia. reflexivity. }
  destruct (N.eqb_spec (N.shiftr y 4) 15), (N.eqb_spec y 240); try reflexivity; exfalso; lia.
Qed.

Lemma decode_pa_spec v : v < 256 ^ 8 -> decode_pa v = pa_of v.
Proof.
  intro Hv. change (256 ^ 8) with (2 ^ 64) in Hv. unfold decode_pa, pa_of.
  change (N.shiftl 1 63) with (N.shiftl (N.ones 1) 63).
  change (N.shiftl 1 62) with (N.shiftl (N.ones 1) 62).
  change (N.shiftl 0xf 56) with (N.shiftl (N.ones 4) 56).
  rewrite !field_bits, land56.
  rewrite (N.mod_small (v / 2 ^ 63)) by (apply N.div_lt_upper_bound; [discriminate|exact Hv]).
  reflexivity.
Qed.

Definition op_check (v : N) : bool :=
  let b n := N.testbit v n in
  Bool.eqb (N.land v 0x89 =? 8) (negb (b 7) && b 3 && negb (b 0)) &&
  Bool.eqb (N.land v 0xe2 =? 2) ((v / 32 =? 0) && b 1) &&
  Bool.eqb (N.land v 0xfe =? 0) (v / 2 =? 0) &&
  Bool.eqb (N.land v 0xfe =? 4) (v / 2 =? 2) &&
  Bool.eqb (N.land v 0xa =? 8) (b 3 && negb (b 1)) &&
  Bool.eqb (N.land v 0xfe =? 0x10) (v / 2 =? 8) &&
  Bool.eqb (N.land v 0xfe =? 0x30) (v / 2 =? 24) &&
  Bool.eqb (N.land v 0xfe =? 0x12) (v / 2 =? 9) &&
  Bool.eqb (N.land v 0xfe =? 0x20) (v / 2 =? 16) &&
  Bool.eqb (N.land v 0xff =? 0x25) (v =? 37) &&
  Bool.eqb (N.land v 1 =? 1) (b 0) &&
  Bool.eqb (N.land v 0xfe =? 2) (v / 2 =? 1).

Lemma below_256 (P : N -> bool) :
  forallb P (map N.of_nat (seq 0 256)) = true -> forall v, v < 256 -> P v = true.
Proof.
  intros H v Hv. rewrite forallb_forall in H. apply H.
  apply in_map_iff. exists (N.to_nat v). split; [lia|]. apply in_seq. lia.
Qed.

Lemma op_check_all v : v < 256 -> op_check v = true.
Proof. apply (below_256 op_check). vm_compute. reflexivity. Qed.

Lemma decode_op_spec c v o : c < 3 -> v < 256 -> decode_op (0x48 + c) v o = Ok (op_of c v o).
Proof.
  intros Hc Hv.
  assert (Hcc : c = 0 \/ c = 1 \/ c = 2) by lia. clear Hc.
  pose proof (op_check_all v Hv) as H. unfold op_check in H.
  cbv zeta in H. rewrite !andb_true_iff in H.
  destruct H as [[[[[[[[[[[H1 H2] H3] H4] H5] H6] H7] H8] H9] H10] H11] H12].
  apply eqb_prop in H1, H2, H3, H4, H5, H6, H7, H8, H9, H10, H11, H12.
  destruct Hcc as [-> | [-> | ->]].
  - unfold decode_op, op_of. change (N.land (72 + 0) 3) with 0. cbn [N.eqb]. rewrite H1. reflexivity.
  - unfold decode_op, op_of. change (N.land (72 + 1) 3) with 1. cbn [N.eqb].
    rewrite H2, H3, H4, H5, H6, H7, H8, H9, H10. reflexivity.
  - unfold decode_op, op_of. change (N.land (72 + 2) 3) with 2. cbn [N.eqb].
    rewrite H11, H12. reflexivity.
Qed.

Ltac lt_cases x n :=
  let H := fresh in
  assert (H : In x (map N.of_nat (seq 0 n)))
    by (apply in_map_iff; exists (N.to_nat x); split; [lia|apply in_seq; lia]);
  cbn in H; repeat (destruct H as [<-|H]); [..|contradiction H].

(** The index of an address or counter packet. *)
Lemma handle_address_spec header ext x v r :
  v < 256 ^ 8 -> x < 32 -> hdr_index header ext = x ->
  handle_address header ext v r = addr_meaning x v r.
Proof.
  intros Hv Hx Hi. unfold handle_address. rewrite Hi, decode_ip_spec, decode_va_spec, decode_pa_spec by assumption.
  clear - Hx. unfold addr_meaning. lt_cases x 32%nat; reflexivity.
Qed.

Lemma handle_counter_spec header ext x v r :
  v < 256 ^ 2 -> x < 32 -> hdr_index header ext = x ->
  handle_counter header ext v r = counter_meaning x v r.
Proof.
  intros Hv Hx Hi. unfold handle_counter. rewrite Hi. unfold w32.
  rewrite N.mod_small by (change (256 ^ 2) with 65536 in Hv; unfold two32; lia).
  clear - Hx. unfold counter_meaning. lt_cases x 32%nat; reflexivity.
Qed.

Lemma size_of_cases s : s < 4 ->
  (size_of s = 1 \/ size_of s = 2 \/ size_of s = 4 \/ size_of s = 8)%nat /\ N.of_nat (size_of s) = 2 ^ s.
Proof. intro H. unfold size_of. split; [|lia]. lt_cases s 4%nat; cbn; tauto. Qed.

Lemma set_payload_put' pre hb n v post base sw sz :
  (n = 1 \/ n = 2 \/ n = 4 \/ n = 8)%nat -> v < 256 ^ N.of_nat n ->
  payload_size hb = N.of_nat n -> sz = 1 + N.of_nat n ->
  set_payload {| st_buf := pre ++ hb :: put sw n v ++ post; st_base := base; st_swap := sw |} (len pre) 0
  = Ok (v, sz).
Proof. intros. subst sz. apply set_payload_put; assumption. Qed.

Lemma len_put sw n v : len (put sw n v) = N.of_nat n.
Proof. unfold len. rewrite put_length. reflexivity. Qed.

Lemma spe_packet_encode pre p post base sw r :
  pkt_ok p ->
  spe_packet {| st_buf := pre ++ encode_pkt sw p ++ post; st_base := base; st_swap := sw |} (len pre) r
  = Ok (len (encode_pkt sw p), ends p, meaning p r).
Proof.
  intro Hp. destruct p; cbn [pkt_ok] in Hp; cbn [encode_pkt ends meaning]; rewrite ?len_cons, ?len_nil;
    unfold spe_packet; cbn [st_buf app]; rewrite ?len_put.
  - rewrite byte_at_app. reflexivity.
  - rewrite byte_at_app. reflexivity.
  - rewrite byte_at_app. cbn [obind].
    rewrite set_payload_put by (auto; reflexivity). reflexivity.
  - destruct Hp as [Hs Hv]. destruct (size_of_cases _ Hs) as [Hc Hn].
    rewrite byte_at_app. cbn [obind].
    rewrite set_payload_put'
      with (sz := 1 + N.of_nat (size_of log2size));
      [|exact Hc|rewrite Hn; exact Hv|rewrite payload_size_eq, Hn; f_equal; lia|reflexivity].
    clear - Hs. unfold events_of. lt_cases log2size 4%nat; reflexivity.
  - destruct Hp as [Hs Hv]. destruct (size_of_cases _ Hs) as [Hc Hn].
    rewrite byte_at_app. cbn [obind].
    rewrite set_payload_put'
      with (sz := 1 + N.of_nat (size_of log2size));
      [|exact Hc|rewrite Hn; exact Hv|rewrite payload_size_eq, Hn; f_equal; lia|reflexivity].
    clear - Hs. lt_cases log2size 4%nat; reflexivity.
  - destruct Hp as [Hs Hv]. rewrite byte_at_app. cbn [obind].
    rewrite set_payload_put;
      [|tauto|exact Hv|rewrite payload_size_eq; change (N.of_nat 4) with (2 ^ 2); f_equal; lia].
    clear - Hs. lt_cases which 4%nat; reflexivity.
  - destruct Hp as [Hs Hv]. rewrite byte_at_app. cbn [obind].
    rewrite set_payload_put;
      [|tauto|exact Hv|rewrite payload_size_eq; change (N.of_nat 1) with (2 ^ 0); f_equal; lia].
    cbn [obind]. rewrite decode_op_spec by assumption. cbn [obind].
    clear - Hs. lt_cases class 3%nat; reflexivity.
  - destruct Hp as [Hs Hv]. rewrite byte_at_app. cbn [obind].
    unfold spe_tail. cbn [N.eqb].
    rewrite set_payload_put;
      [|tauto|exact Hv|rewrite payload_size_eq; change (N.of_nat 8) with (2 ^ 3); f_equal; lia].
    cbn [obind].
    rewrite (handle_address_spec (0xb0 + index) 0 index);
      [|assumption|lia|clear - Hs; lt_cases index 8%nat; reflexivity].
    set (a := addr_meaning index v r). clearbody a.
    clear - Hs. lt_cases index 8%nat; reflexivity.
  - destruct Hp as [Hs Hv]. rewrite byte_at_app. cbn [obind].
    replace (len pre + 1) with (len (pre ++ [0x20 + index / 8])) by (rewrite len_app, len_cons, len_nil; lia).
    assert (E : byte_at (pre ++ 32 + index / 8 :: 176 + index mod 8 :: put sw 8 v ++ post)
              (len (pre ++ [32 + index / 8])) = Ok (176 + index mod 8)).
    { replace (pre ++ 32 + index / 8 :: 176 + index mod 8 :: put sw 8 v ++ post)
        with ((pre ++ [32 + index / 8]) ++ 176 + index mod 8 :: put sw 8 v ++ post)
        by (rewrite <- app_assoc; reflexivity).
      apply byte_at_app. }
    rewrite E. clear E. cbn [obind].
    replace (len (pre ++ 32 + index / 8 :: 176 + index mod 8 :: put sw 8 v ++ post) - len pre =? 1)
      with false
      by (symmetry; apply N.eqb_neq; rewrite len_app, !len_cons, len_app, len_put; lia).
    assert (Hz : (176 + index mod 8 =? 0) = false) by (apply N.eqb_neq; lia).
    rewrite Hz. unfold spe_tail. rewrite Hz.
    rewrite set_payload_put2;
      [|tauto|exact Hv|rewrite payload_size_eq; change (N.of_nat 8) with (2 ^ 3); f_equal; lia|exact Hz].
    cbn [obind].
    rewrite (handle_address_spec _ _ index);
      [|assumption|lia|clear - Hs; lt_cases index 32%nat; reflexivity].
    set (a := addr_meaning index v r). clearbody a.
    set (z := handle_counter _ _ _ _). clearbody z.
    set (w := set_payload _ _ _). clearbody w.
    clear - Hs. lt_cases index 32%nat; reflexivity.
  - destruct Hp as [Hs Hv]. rewrite byte_at_app. cbn [obind].
    unfold spe_tail. cbn [N.eqb].
    rewrite set_payload_put;
      [|tauto|exact Hv|rewrite payload_size_eq; change (N.of_nat 2) with (2 ^ 1); f_equal; lia].
    cbn [obind].
    rewrite (handle_counter_spec (0x98 + index) 0 index);
      [|assumption|lia|clear - Hs; lt_cases index 8%nat; reflexivity].
    set (a := counter_meaning index v r). clearbody a.
    clear - Hs. lt_cases index 8%nat; reflexivity.
  - destruct Hp as [Hs Hv]. rewrite byte_at_app. cbn [obind].
    replace (len pre + 1) with (len (pre ++ [0x20 + index / 8])) by (rewrite len_app, len_cons, len_nil; lia).
    assert (E : byte_at (pre ++ 32 + index / 8 :: 152 + index mod 8 :: put sw 2 v ++ post)
              (len (pre ++ [32 + index / 8])) = Ok (152 + index mod 8)).
    { replace (pre ++ 32 + index / 8 :: 152 + index mod 8 :: put sw 2 v ++ post)
        with ((pre ++ [32 + index / 8]) ++ 152 + index mod 8 :: put sw 2 v ++ post)
        by (rewrite <- app_assoc; reflexivity).
      apply byte_at_app. }
    rewrite E. clear E. cbn [obind].
    replace (len (pre ++ 32 + index / 8 :: 152 + index mod 8 :: put sw 2 v ++ post) - len pre =? 1)
      with false
      by (symmetry; apply N.eqb_neq; rewrite len_app, !len_cons, len_app, len_put; lia).
    assert (Hz : (152 + index mod 8 =? 0) = false) by (apply N.eqb_neq; lia).
    rewrite Hz. unfold spe_tail. rewrite Hz.
    rewrite set_payload_put2;
      [|tauto|exact Hv|rewrite payload_size_eq; change (N.of_nat 2) with (2 ^ 1); f_equal; lia|exact Hz].
    cbn [obind].
    rewrite (handle_counter_spec _ _ index);
      [|assumption|lia|clear - Hs; lt_cases index 32%nat; reflexivity].
    set (a := counter_meaning index v r). clearbody a.
    set (z := handle_address _ _ _ _). clearbody z.
    set (w := set_payload _ _ _). clearbody w.
    clear - Hs. lt_cases index 32%nat; reflexivity.
Qed.

Lemma encode_pkt_pos sw p : 1 <= len (encode_pkt sw p).
Proof. destruct p; cbn [encode_pkt]; rewrite !len_cons; lia. Qed.

Lemma spe_loop_body base sw body : forall fuel pre post r,
  Forall (fun p => pkt_ok p /\ ends p = false) body ->
  len (flat_map (encode_pkt sw) body) <= N.of_nat fuel ->
  exists fuel',
    N.of_nat fuel <= N.of_nat fuel' + len (flat_map (encode_pkt sw) body) /\
    spe_loop fuel {| st_buf := pre ++ flat_map (encode_pkt sw) body ++ post;
                     st_base := base; st_swap := sw |} (len pre) r =
    spe_loop fuel' {| st_buf := pre ++ flat_map (encode_pkt sw) body ++ post;
                     st_base := base; st_swap := sw |}
             (len pre + len (flat_map (encode_pkt sw) body)) (fold_left (fun r p => meaning p r) body r).
Proof.
  induction body as [|p body IH]; intros fuel pre post r Hok Hf.
  - exists fuel. cbn [flat_map app fold_left]. rewrite len_nil. split; [lia|].
    f_equal. lia.
  - inversion Hok as [|? ? [Hp He] Hr]; subst. cbn [flat_map fold_left] in *.
    rewrite len_app in Hf. pose proof (encode_pkt_pos sw p) as Hpos.
    destruct fuel as [|f]; [lia|].
    destruct (IH f (pre ++ encode_pkt sw p) post (meaning p r) Hr) as (f' & Hf' & E); [lia|].
    exists f'. rewrite len_app in *. split; [lia|].
    replace (pre ++ (encode_pkt sw p ++ flat_map (encode_pkt sw) body) ++ post)
      with ((pre ++ encode_pkt sw p) ++ flat_map (encode_pkt sw) body ++ post)
      by (rewrite <- !app_assoc; reflexivity).
    rewrite N.add_assoc. rewrite <- E.
    cbn [spe_loop]. cbn [st_buf].
    destruct (N.leb_spec (len ((pre ++ encode_pkt sw p) ++ flat_map (encode_pkt sw) body ++ post)) (len pre)) as [Hle|_].
    { rewrite !len_app in Hle. lia. }
    replace ((pre ++ encode_pkt sw p) ++ flat_map (encode_pkt sw) body ++ post)
      with (pre ++ encode_pkt sw p ++ flat_map (encode_pkt sw) body ++ post)
      by (rewrite <- !app_assoc; reflexivity).
    rewrite spe_packet_encode by assumption. rewrite He. reflexivity.
Qed.

Lemma next_record_block base sw b pre post :
  block_ok b ->
  next_record {| st_buf := pre ++ encode_block sw b ++ post; st_base := base; st_swap := sw |} (len pre)
  = Ok (Some (block_record b), len pre + len (encode_block sw b)).
Proof.
  intros (Hb & He & Hend). unfold next_record, encode_block, block_record. cbn [st_buf].
  rewrite <- app_assoc.
  set (body := flat_map (encode_pkt sw) (bk_body b)).
  pose proof (encode_pkt_pos sw (bk_end b)) as Hpos.
  destruct (N.leb_spec (len (pre ++ body ++ encode_pkt sw (bk_end b) ++ post)) (len pre)) as [Hle|_].
  { rewrite !len_app in Hle. lia. }
  destruct (spe_loop_body base sw (bk_body b) (length (pre ++ body ++ encode_pkt sw (bk_end b) ++ post))
              pre (encode_pkt sw (bk_end b) ++ post) spe_rec0 Hb) as (f' & Hf & E).
  { fold body. rewrite !app_length. unfold len. lia. }
  fold body in E, Hf. rewrite E. clear E.
  assert (Hlen : len (pre ++ body ++ encode_pkt sw (bk_end b) ++ post)
                 = len pre + len body + len (encode_pkt sw (bk_end b)) + len post)
    by (rewrite !len_app; lia).
  fold (len (pre ++ body ++ encode_pkt sw (bk_end b) ++ post)) in Hf. rewrite Hlen in Hf.
  destruct f' as [|f']; [lia|].
  cbn [spe_loop]. cbn [st_buf]. rewrite Hlen.
  destruct (N.leb_spec (len pre + len body + len (encode_pkt sw (bk_end b)) + len post) (len pre + len body)) as [Hle|_]; [lia|].
  rewrite <- len_app.
  replace (pre ++ body ++ encode_pkt sw (bk_end b) ++ post)
    with ((pre ++ body) ++ encode_pkt sw (bk_end b) ++ post) by (rewrite <- app_assoc; reflexivity).
  rewrite spe_packet_encode by assumption. rewrite Hend.
  f_equal. f_equal. rewrite !len_app. lia.
Qed.

Lemma encode_block_pos sw b : 1 <= len (encode_block sw b).
Proof. unfold encode_block. rewrite len_app. pose proof (encode_pkt_pos sw (bk_end b)). lia. Qed.

Lemma all_records_blocks base sw post bs : forall fuel pre,
  Forall block_ok bs ->
  (length bs <= fuel)%nat ->
  all_records fuel {| st_buf := pre ++ flat_map (encode_block sw) bs ++ post;
                      st_base := base; st_swap := sw |} (len pre)
  = let! rs := all_records (fuel - length bs)
                 {| st_buf := pre ++ flat_map (encode_block sw) bs ++ post;
                    st_base := base; st_swap := sw |} (len pre + len (flat_map (encode_block sw) bs)) in
    Ok (map block_record bs ++ rs).
Proof.
  induction bs as [|b bs IH]; intros fuel pre Hok Hf.
  - cbn [flat_map length map app]. rewrite Nat.sub_0_r, len_nil, N.add_0_r.
    destruct (all_records _ _ _); reflexivity.
  - inversion Hok as [|? ? Hb Hr]; subst. cbn [length] in Hf. destruct fuel as [|f]; [lia|].
    cbn [all_records flat_map length map app Nat.sub].
    replace (pre ++ (encode_block sw b ++ flat_map (encode_block sw) bs) ++ post)
      with (pre ++ encode_block sw b ++ flat_map (encode_block sw) bs ++ post)
      by (rewrite <- !app_assoc; reflexivity).
    rewrite next_record_block by assumption.
    specialize (IH f (pre ++ encode_block sw b) Hr ltac:(lia)).
    rewrite <- !app_assoc, !len_app in IH. rewrite len_app, N.add_assoc.
    rewrite IH. destruct (all_records (f - length bs) _ _); reflexivity.
Qed.

Lemma spe_loop_pads base sw k : forall fuel pre r,
  (k <= fuel)%nat ->
  spe_loop fuel {| st_buf := pre ++ repeat 0 k; st_base := base; st_swap := sw |} (len pre) r
  = Ok (Some r, len pre + N.of_nat k).
Proof.
  induction k as [|k IH]; intros fuel pre r Hf.
  - cbn [repeat]. rewrite app_nil_r. destruct fuel; cbn [spe_loop st_buf]; rewrite N.leb_refl; f_equal; f_equal; lia.
  - destruct fuel as [|f]; [lia|]. cbn [spe_loop]. cbn [st_buf].
    destruct (N.leb_spec (len (pre ++ repeat 0 (S k))) (len pre)) as [Hle|_].
    { rewrite len_app in Hle. unfold len at 2 in Hle. rewrite repeat_length in Hle. lia. }
    cbn [repeat]. change (0 :: repeat 0 k) with (encode_pkt sw PkPad ++ repeat 0 k).
    rewrite spe_packet_encode by exact I. cbn [ends meaning].
    rewrite <- len_app, app_assoc, IH by lia. rewrite len_app. f_equal. f_equal.
    change (len (encode_pkt sw PkPad)) with 1. lia.
Qed.

Lemma len_blocks_pos sw bs : N.of_nat (length bs) <= len (flat_map (encode_block sw) bs).
Proof.
  induction bs as [|b bs IH]; cbn [flat_map length]; [lia|].
  rewrite len_app. pose proof (encode_block_pos sw b). lia.
Qed.

Lemma decode_blocks base sw bs :
  Forall block_ok bs ->
  decode_trace {| st_buf := flat_map (encode_block sw) bs; st_base := base; st_swap := sw |}
  = Ok (map block_record bs).
Proof.
  intro Hok. unfold decode_trace. cbn [st_buf].
  pose proof (len_blocks_pos sw bs) as Hl. unfold len in Hl.
  pose proof (all_records_blocks base sw [] bs (S (length (flat_map (encode_block sw) bs))) [] Hok
                ltac:(lia)) as E.
  cbn [app] in E. rewrite app_nil_r in E. change (len []) with 0 in E. rewrite E. clear E.
  destruct (S (length (flat_map (encode_block sw) bs)) - length bs)%nat eqn:Ef; [lia|].
  cbn [all_records]. unfold next_record. cbn [st_buf].
  rewrite (proj2 (N.leb_le _ _)) by lia. cbn [obind]. rewrite app_nil_r. reflexivity.
Qed.

Lemma decode_blocks_padded base sw bs k :
  Forall block_ok bs ->
  decode_trace {| st_buf := flat_map (encode_block sw) bs ++ repeat 0 (S k); st_base := base; st_swap := sw |}
  = Ok (map block_record bs ++ [spe_rec0]).
Proof.
  intro Hok. unfold decode_trace. cbn [st_buf].
  pose proof (len_blocks_pos sw bs) as Hl. unfold len in Hl.
  set (d := flat_map (encode_block sw) bs) in *.
  pose proof (all_records_blocks base sw (repeat 0 (S k)) bs (S (length (d ++ repeat 0 (S k)))) [] Hok) as E.
  fold d in E. rewrite app_length, repeat_length in *. specialize (E ltac:(lia)).
  cbn [app] in E. change (len []) with 0 in E. rewrite N.add_0_l in E. rewrite E. clear E.
  destruct (S (length d + S k) - length bs)%nat as [|f] eqn:Ef; [lia|].
  cbn [all_records]. unfold next_record at 1. cbn [st_buf].
  assert (Hd : len (d ++ repeat 0 (S k)) = len d + N.of_nat (S k))
    by (rewrite len_app; unfold len at 2; rewrite repeat_length; reflexivity).
  destruct (N.leb_spec (len (d ++ repeat 0 (S k))) (len d)) as [Hle|_]; [lia|].
  rewrite spe_loop_pads by (rewrite app_length, repeat_length; lia).
  destruct f as [|f]; [lia|]. cbn [all_records]. unfold next_record. cbn [st_buf].
  rewrite (proj2 (N.leb_le (len (d ++ repeat 0 (S k))) (len d + N.of_nat (S k)))) by lia.
  reflexivity.
Qed.

(** Alignment packets: the position after one is a multiple of the alignment. *)
Lemma spe_packet_align pre low post base sw r :
  low < 4 -> base + len pre < two64 -> 2 ^ (low + 1) <= 2 + len post ->
  exists sz,
    spe_packet {| st_buf := pre ++ (0x20 + low) :: 0 :: post; st_base := base; st_swap := sw |} (len pre) r
    = Ok (sz, false, r) /\ 1 <= sz <= 2 ^ (low + 1) /\ (base + len pre + sz) mod 2 ^ (low + 1) = 0.
Proof.
  intros Hlow Hb Hp. unfold spe_packet. cbn [st_buf st_base]. rewrite byte_at_app. cbn [obind].
  replace (len pre + 1) with (len (pre ++ [0x20 + low])) by (rewrite len_app, len_cons, len_nil; lia).
  assert (E : byte_at (pre ++ 32 + low :: 0 :: post) (len (pre ++ [32 + low])) = Ok 0).
  { replace (pre ++ 32 + low :: 0 :: post) with ((pre ++ [32 + low]) ++ 0 :: post)
      by (rewrite <- app_assoc; reflexivity). apply byte_at_app. }
  rewrite E. clear E. cbn [obind N.eqb].
  assert (Hlen : len (pre ++ 32 + low :: 0 :: post) - len pre = 2 + len post)
    by (rewrite len_app, !len_cons; lia).
  rewrite Hlen.
  replace (2 + len post =? 1) with false by (symmetry; apply N.eqb_neq; lia).
  rewrite w64_small by assumption.
  assert (Hm : forall m, m = low + 1 ->
     N.land (base + len pre) (N.shiftl 1 m - 1) = (base + len pre) mod 2 ^ m).
  { intros m _. rewrite N.shiftl_1_l.
    replace (2 ^ m - 1) with (N.ones m) by (rewrite N.ones_equiv; lia). apply N.land_ones. }
  assert (Hl : N.land (32 + low) 15 + 1 = low + 1) by (lt_cases low 4%nat; reflexivity).
  rewrite Hl, (Hm _ eq_refl). clear Hm Hl. rewrite N.shiftl_1_l.
  set (x := base + len pre) in *. clearbody x.
  exists (2 ^ (low + 1) - x mod 2 ^ (low + 1)).
  split.
  - destruct (N.ltb_spec (2 + len post) (2 ^ (low + 1))) as [|_]; [lia|].
    set (z := 2 ^ (low + 1) - x mod 2 ^ (low + 1)). clearbody z.
    clear - Hlow. lt_cases low 4%nat; reflexivity.
  - clear - Hlow. lt_cases low 4%nat.
    + change (2 ^ (0 + 1)) with 2. lia.
    + change (2 ^ (1 + 1)) with 4. lia.
    + change (2 ^ (2 + 1)) with 8. lia.
    + change (2 ^ (3 + 1)) with 16. lia.
Qed.
