(** AUX, TIME_CONV, COMM, MMAP2 and BPF metadata, and every event. *)
From Verif Require Import Base BytesModel BytesProofs BytesMoreProofs BufferModel EventSizeModel
  EventSizeSpec EventSizeProofs TextModel TextProofs SampleModel SampleSpec SampleProofs SampleReadProofs
  SampleSafeProofs SampleMainProofs FileModel FileProofs BuilderProofs SerializerModel SerializerSpec
  SerializerProofs SerializerSizeProofs SerializerSampleProofs SerializerMessageProofs
  SerializerSampleOfProofs SerializerBackProofs SerializerKindProofs SerializerMoreKindProofs.
From Coq Require Import Permutation.
Local Open Scope N_scope.

(** ** Blocks that are still zero where nothing was stored *)
Lemma stores_prefix e l :
  raw_event e -> Forall (fits (kept e) (len e)) l ->
  exists b, (let! b := block e in stores b l) = Ok b /\ len b = len e /\
    (forall i, 8 <= i -> inside (map range l) i = false -> byte b i = 0).
Proof.
  intros He Hl. destruct (block_ok e He) as (b0 & E & L0 & B0). rewrite E. cbn [obind].
  destruct (stores_fit (kept e) l b0) as (b & E1 & L1 & B1); [now rewrite L0|].
  exists b. split; [exact E1|]. split; [congruence|]. intros i Hi Ho.
  rewrite B1, Ho, B0, header_outside by exact Hi. reflexivity.
Qed.

Lemma mem_write_same b o d : o + len d <= len b -> slice b o (len d) = d -> mem_write b o d = Ok b.
Proof.
  intros H E. destruct (mem_write_in b o d H) as (b' & E'). rewrite E'. f_equal.
  destruct (mem_write_bytes b o d b' E') as (L & _ & B). apply bytes_ext; [exact L|].
  intros i Hi. rewrite B. destruct (N.leb_spec o i) as [H1|H1]; cbn [andb]; [|reflexivity].
  destruct (N.ltb_spec i (o + len d)) as [H2|H2]; [|reflexivity]. rewrite <- E at 1.
  rewrite byte_slice by lia. f_equal. lia.
Qed.

Lemma zero_slice b o n : o + n <= len b -> (forall i, o <= i -> i < o + n -> byte b i = 0) -> slice b o n = repeat 0 (N.to_nat n).
Proof.
  intros H Z. apply bytes_ext; [rewrite len_slice, len_repeat by exact H; reflexivity|].
  intros i Hi. rewrite len_slice in Hi by exact H. rewrite byte_slice by exact Hi. rewrite byte_zeros. apply Z; lia.
Qed.

(** ** AUX *)
Lemma of_le_zeros n : of_le (repeat 0 n) = 0.
Proof. induction n; cbn [repeat of_le]; lia. Qed.

Lemma low_bits f : N.lor (N.lor (N.lor 0 (bit_of (N.testbit f 0) 0)) (bit_of (N.testbit f 1) 1)) (bit_of (N.testbit f 2) 2) = f mod 8.
Proof.
  assert (T : forall k, k < 3 -> N.testbit f k = N.testbit (f mod 8) k).
  { intros k Hk. change 8 with (2 ^ 3). now rewrite N.mod_pow2_bits_low. }
  rewrite !T by reflexivity. assert (H : f mod 8 < 8) by (apply N.mod_lt; discriminate).
  set (g := f mod 8) in *. clearbody g. clear - H.
  assert (C : g = 0 \/ g = 1 \/ g = 2 \/ g = 3 \/ g = 4 \/ g = 5 \/ g = 6 \/ g = 7) by lia.
  repeat destruct C as [->|C]; try reflexivity. subst. reflexivity.
Qed.

Lemma small_bytes v : v < 256 -> le_bytes 8 v = [v; 0; 0; 0; 0; 0; 0; 0].
Proof.
  intros H. cbn [le_bytes]. rewrite (N.mod_small v 256) by exact H. rewrite (N.div_small v 256) by exact H. reflexivity.
Qed.

Lemma low_byte e : 24 + 8 <= len e -> of_le (slice e 24 8) mod 8 = byte e 24 mod 8.
Proof.
  intros L. assert (BS := byte_slice e 24 8 0 eq_refl). change (24 + 0) with 24 in BS. rewrite <- BS.
  assert (Ls := len_slice e 24 8 L). unfold byte. cbn [N.to_nat].
  destruct (slice e 24 8) as [|b l]; [discriminate|]. cbn [nth].
  change (of_le (b :: l)) with (b + 256 * of_le l).
  replace (b + 256 * of_le l) with (b + (32 * of_le l) * 8) by lia. now rewrite N.mod_add by discriminate.
Qed.

Lemma aux_back s e off m :
  native s -> readable_event s e off -> cpu_clear s e off -> ev_type e = R_AUX ->
  ser_aux s e = Ok m -> back s off e (let! b := block e in des_aux s m b).
Proof.
  intros Hn R Hc Et Hm. assert (Hb : bytes_ok e = true) by apply R.
  unfold ser_aux in Hm. peel Hm. apply obind_ok in Hm as (i & Hi & Hm).
  apply Ok_inj in Hm. subst m. unfold des_aux. cbn [xa_offset xa_size xa_truncated xa_overwrite xa_partial xa_info].
  set (l1 := [u64_at 8 _; u64_at 16 _]).
  assert (Fl : fields e = [(8, 8); (16, 8); (24, 1)]) by (fields_of Et; reflexivity).
  assert (F1 : Forall (fits (kept e) (len e)) l1).
  { assert (C : Forall (copied e) l1) by (unfold l1; copies). rewrite Forall_forall in *. intros x Hx.
    apply copied_fits; [now apply C|]. intros j J1 J2.
    assert (W : whole e j).
    { split; [|rewrite Et; discriminate]. intros _. unfold l1, u64_at in Hx. cbn [In] in Hx.
      destruct Hx as [<-|[<-|[]]]; cbn [fst snd] in J1, J2; rewrite len_le_bytes in J2; lia. }
    unfold l1, u64_at in Hx. cbn [In] in Hx.
    destruct Hx as [<-|[<-|[]]]; cbn [fst snd] in J1, J2; rewrite len_le_bytes in J2; change (N.of_nat 8) with 8 in J2.
    - apply (kept_field e 8 8); auto. rewrite Fl. cbn; auto.
    - apply (kept_field e 16 8); auto. rewrite Fl. cbn; auto. }
  destruct (stores_prefix e l1 (re_raw _ _ _ R) F1) as (b & E & Lb & Zb).
  assert (Old : num b 24 8 = Ok 0).
  { unfold num, mem_read. destruct (N.leb_spec (24 + 8) (len b)); [|lia]. cbn [obind]. f_equal.
    rewrite zero_slice; [apply of_le_zeros|assumption|]. intros j J1 J2. apply Zb; [lia|].
    unfold l1, range, u64_at, inside. cbn [map fst snd existsb]. rewrite !len_le_bytes.
    destruct (N.ltb_spec j (8 + N.of_nat 8)), (N.ltb_spec j (16 + N.of_nat 8)); rewrite ?andb_false_r; try reflexivity; lia. }
  set (fl := (24, le_bytes 8 (of_le (slice e 24 8) mod 8))).
  assert (Hall : stores (repeat 0 (N.to_nat (len e))) (header_of e ++ l1 ++ [fl]) = Ok (clean e)).
  { apply stores_clean; [apply R| |].
    - apply Forall_app. split; [exact F1|]. constructor; [|constructor]. unfold fl. rewrite low_byte by assumption.
      assert (B256 : byte e 24 mod 8 < 256).
      { assert (byte e 24 mod 8 < 8) by (apply N.mod_lt; discriminate). lia. }
      split; cbn [fst snd]; [rewrite len_le_bytes; assumption|]. rewrite len_le_bytes. intros j Hj.
      rewrite small_bytes by exact B256. unfold kept. rewrite Fl, Et.
      assert (C : j = 0 \/ j = 1 \/ j = 2 \/ j = 3 \/ j = 4 \/ j = 5 \/ j = 6 \/ j = 7) by lia.
      repeat destruct C as [->|C]; try reflexivity. subst. reflexivity.
    - intros j J Hj. rewrite Fl in Hj. apply inside_inv in Hj as (o & n & Hin & O1 & O2).
      unfold l1, fl, range, u64_at. cbn [map app fst snd]. rewrite !len_le_bytes. change (N.of_nat 8) with 8.
      cbn [In] in Hin. destruct Hin as [X|[X|[X|[]]]]; injection X as <- <-.
      + apply (inside_in _ 8 8); [cbn; auto|lia|lia].
      + apply (inside_in _ 16 8); [cbn; auto|lia|lia].
      + apply (inside_in _ 24 8); [cbn; auto|lia|lia]. }
  rewrite app_assoc, stores_app in Hall.
  replace (stores _ (header_of e ++ l1)) with (Ok b) in Hall by (rewrite stores_app; symmetry; exact E).
  cbn [obind] in Hall.
  destruct (block e) as [b0| | | |] eqn:E0; cbn [obind] in E |- *; try discriminate. rewrite E. cbn [obind].
  rewrite Old. cbn [obind]. rewrite low_bits. change (u64_at 24 (of_le (slice e 24 8) mod 8)) with fl.
  rewrite Hall. cbn [obind]. apply des_info_back; auto. other_type Et.
Qed.

(** ** TIME_CONV *)
Lemma time_conv_back s e off m :
  readable_event s e off -> ev_type e = R_TIME_CONV -> ser_time_conv e = Ok m ->
  back s off e (let! b := block e in des_time_conv m b).
Proof.
  intros R Et Hm. assert (Hb : bytes_ok e = true) by apply R. unfold ser_time_conv in Hm. peel Hm.
  assert (NI : contains_info s (ev_type e) = false) by (apply no_info; rewrite Et; [discriminate|reflexivity]).
  destruct (N.eqb_spec (ev_size e) 56) as [S56|S56].
  - peel Hm. apply Ok_inj in Hm. subst m. unfold des_time_conv.
    cbn [xtc_shift xtc_mult xtc_zero xtc_cycles xtc_mask xtc_cap_zero xtc_cap_short].
    set (l1 := [u64_at 8 _; u64_at 16 _; u64_at 24 _]). set (l2 := u64_at 32 _ :: _).
    assert (Fl : fields e = [(8, 8); (16, 8); (24, 8); (32, 8); (40, 8); (48, 1); (49, 1)]).
    { fields_of Et. rewrite S56. reflexivity. }
    assert (X : (let! b := block e in let! e0 := stores b l1 in stores e0 l2) = let! b := block e in stores b (l1 ++ l2)).
    { destruct (block e); cbn [obind]; auto. now rewrite stores_app. }
    rewrite X. apply stores_only; [exact R|exact NI|]. apply stores_clean; [apply R| |].
    + assert (G : forall o n v, In (o, N.of_nat n) (fields e) -> o + N.of_nat n <= 48 -> v = of_le (slice e o (N.of_nat n)) ->
                 o + N.of_nat n <= len e -> fits (kept e) (len e) (o, le_bytes n v)).
      { intros o n v Hin H48 -> Hl. apply copied_fits.
        - apply copied_num; auto. lia.
        - cbn [fst snd]. rewrite len_le_bytes. intros j J1 J2. apply (kept_field e o (N.of_nat n)); auto.
          split; [rewrite Et; discriminate|]. intros _. lia. }
      assert (G1 : forall o (c : bool), In (o, 1) (fields e) -> o = 48 \/ o = 49 -> c = negb (of_le (slice e o 1) =? 0) ->
                 o + 1 <= len e -> fits (kept e) (len e) (u8_at o (if c then 1 else 0))).
      { intros o c Hin Ho -> Hl. assert (BS := byte_slice e o 1 0 eq_refl).
        replace (o + 0) with o in BS by lia. assert (Ls := len_slice e o 1 Hl).
        split; unfold u8_at; cbn [fst snd]; rewrite len_le_bytes; [exact Hl|]. intros j Hj.
        assert (j = 0) by lia. subst j. replace (o + 0) with o by lia.
        unfold kept. replace (o <? 8) with false by (symmetry; apply N.ltb_ge; lia).
        rewrite (inside_in (fields e) o 1 o) by (auto; lia). cbn [negb]. rewrite Et.
        change (R_TIME_CONV =? R_AUX) with false. change (R_TIME_CONV =? R_TIME_CONV) with true. cbn [andb].
        replace ((o =? 48) || (o =? 49)) with true by (destruct Ho as [-> | ->]; reflexivity).
        rewrite <- BS. unfold byte. cbn [N.to_nat]. destruct (slice e o 1) as [|b [|? ?]]; unfold len in Ls; cbn [length] in Ls; try (exfalso; lia).
        cbn [nth of_le]. replace (b + 256 * 0) with b by lia. destruct (N.eqb_spec b 0) as [->|Hnz]; [reflexivity|].
        change (1 = N.min 1 b). clear - Hnz; lia. }
      unfold l1, l2. cbn [app].
      repeat (apply Forall_cons; [first [apply (G _ 8%nat); [rewrite Fl; cbn; auto 10|cbn; lia|reflexivity|assumption]
                                         | apply G1; [rewrite Fl; cbn; auto 10|auto|reflexivity|assumption]]|]).
      constructor.
    + intros j _. rewrite Fl. unfold l1, l2, range, u64_at, u8_at. cbn [map app fst snd]. rewrite !len_le_bytes. auto.
  - apply Ok_inj in Hm. subst m. unfold des_time_conv.
    cbn [xtc_shift xtc_mult xtc_zero xtc_cycles].
    set (l1 := [u64_at 8 _; u64_at 16 _; u64_at 24 _]).
    assert (Fl : fields e = [(8, 8); (16, 8); (24, 8)]).
    { fields_of Et. replace (ev_size e =? 56) with false by (symmetry; now apply N.eqb_neq). reflexivity. }
    assert (X : (let! b := block e in let! e0 := stores b l1 in Ok e0) = let! b := block e in stores b l1).
    { destruct (block e) as [b| | | |]; cbn [obind]; auto. destruct (stores b l1); reflexivity. }
    rewrite X. apply stores_only; [exact R|exact NI|]. apply stores_clean; [apply R| |].
    + assert (C : Forall (copied e) l1) by (unfold l1; copies). rewrite Forall_forall in *. intros x Hx.
      apply copied_fits; [now apply C|]. intros j J1 J2.
      unfold l1, u64_at in Hx. cbn [In] in Hx.
      destruct Hx as [<-|[<-|[<-|[]]]]; cbn [fst snd] in J1, J2; rewrite len_le_bytes in J2; change (N.of_nat 8) with 8 in J2;
        match type of J1 with ?o <= _ => apply (kept_field e o 8); [rewrite Fl; cbn; auto 6|assumption|assumption|] end;
        (split; [rewrite Et; discriminate|intros _; lia]).
    + intros j _. rewrite Fl. unfold l1, range, u64_at. cbn [map fst snd]. rewrite !len_le_bytes. auto.
Qed.
