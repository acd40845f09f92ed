(** The sample part of an event, to a message and back. *)
From Verif Require Import Base BytesModel BytesProofs BytesMoreProofs BufferModel EventSizeModel
  EventSizeSpec EventSizeProofs TextModel SampleModel SampleSpec SampleProofs SampleReadProofs
  SampleSafeProofs SampleMainProofs FileModel FileProofs SerializerModel SerializerSpec SerializerProofs
  SerializerSizeProofs.
Local Open Scope N_scope.

(** ** The readers *)
Record native (s : sstate) : Prop := {
  nv_swap : ss_swap s = false;
  nv_readers : forall id a, In (id, a) (ss_readers s) ->
    at_sample_type a < two64 /\ one_id a /\
    ss_sample_pos s = Some (fst (id_positions (at_sample_type a))) /\
    ss_other_pos s = Some (snd (id_positions (at_sample_type a)))
}.

Lemma in_reader_set id a m k b : In (k, b) (reader_set id a m) -> (k = id /\ b = a) \/ In (k, b) m.
Proof.
  induction m as [|(k' & b') m IH]; cbn [reader_set].
  - intros [X|[]]. injection X as <- <-. auto.
  - destruct (id <? k'); [|destruct (id =? k')].
    + intros [X|X]; [injection X as <- <-; auto|auto].
    + intros [X|X]; [injection X as <- <-; auto|cbn; auto].
    + intros [X|X]; [cbn; auto|]. destruct (IH X); cbn; auto.
Qed.

Lemma in_fold_set a ids : forall m k b,
  In (k, b) (fold_left (fun m id => reader_set id a m) ids m) -> b = a \/ In (k, b) m.
Proof.
  induction ids as [|i ids IH]; intros m k b; cbn [fold_left]; [auto|].
  intros H. apply IH in H as [H|H]; [auto|]. apply in_reader_set in H as [(_ & H)|H]; auto.
Qed.

Lemma pos_eqb_eq a b : pos_eqb a b = true -> a = b.
Proof.
  destruct a, b; cbn; try discriminate; [|reflexivity]. intros H. apply N.eqb_eq in H. now subst.
Qed.

Lemma create_reader_native a ids s s' :
  native s -> at_sample_type a < two64 -> one_id a -> create_reader a ids s = Ok s' -> native s'.
Proof.
  intros [Hw Hr] Ha H1. unfold create_reader, set_positions. cbn [ss_sample_pos ss_other_pos ss_readers ss_swap].
  destruct (id_positions (at_sample_type a)) as (sp & op) eqn:Ep.
  destruct (_ && _) eqn:E; [|discriminate]. intros X. apply Ok_inj in X. subst s'.
  apply andb_prop in E as [E1 E2]. constructor; cbn [ss_swap ss_readers ss_sample_pos ss_other_pos]; [exact Hw|].
  intros id b H. apply in_fold_set in H as [->|H].
  - rewrite Ep. auto.
  - destruct (Hr id b H) as (R1 & R2 & R3 & R4). rewrite R3 in E1. rewrite R4 in E2.
    apply pos_eqb_eq in E1. apply pos_eqb_eq in E2. split; [exact R1|]. split; [exact R2|]. now rewrite E1, E2.
Qed.

Lemma native_created l : forall s0 s,
  native s0 -> Forall (fun x => at_sample_type (fst x) < two64 /\ one_id (fst x)) l ->
  create_readers l s0 = Ok s -> native s.
Proof.
  induction l as [|(a & ids) l IH]; intros s0 s H Hl; cbn [create_readers].
  - intros X. apply Ok_inj in X. now subst.
  - apply Forall_cons_iff in Hl as ((L1 & L2) & Hl). cbn [fst] in *.
    intros X. apply obind_ok in X as (s1 & X1 & X). apply (IH s1); auto.
    now apply (create_reader_native a ids s0).
Qed.

Lemma native_of l s : native_serializer l s -> native s.
Proof.
  intros (H & Hl). apply (native_created l (new_serializer false)); auto. constructor; [reflexivity|].
  intros id a [].
Qed.

Lemma in_reader_find id m a : reader_find id m = Some a -> In (id, a) m.
Proof.
  induction m as [|(k & b) m IH]; cbn [reader_find]; [discriminate|].
  destruct (N.eqb_spec k id) as [->|Hn]; [intros X; injection X as ->; now left|]. intros X. right. auto.
Qed.

Lemma in_reader_for_id s id a : reader_for_id s id = Some a -> exists k, In (k, a) (ss_readers s).
Proof.
  unfold reader_for_id. destruct (id =? 0).
  - destruct (ss_readers s) as [|(k & b) r]; [discriminate|]. intros X. injection X as ->. exists k. now left.
  - intros X. exists id. now apply in_reader_find.
Qed.

Lemma reader_for_event_id s e a : reader_for_event s e = Ok a -> exists id, reader_for_id s id = Some a.
Proof.
  unfold reader_for_event. cbv zeta.
  assert (F : forall id, match reader_for_id s id with Some a => Ok a | None => Fail end = Ok a ->
              exists id, reader_for_id s id = Some a).
  { intros id. destruct (reader_for_id s id) eqn:E; [|discriminate]. intros X. apply Ok_inj in X. subst. eauto. }
  destruct (if ev_type e =? R_SAMPLE then _ else _) as [[p|]|]; [| |discriminate].
  - intros X. apply obind_ok in X as (off & _ & X). destruct (_ <=? _); [discriminate|].
    destruct (_ =? _).
    + destruct (_ <=? _); [discriminate|]. apply obind_ok in X as (id & _ & X). eauto.
    + destruct (_ <? _); [discriminate|]. apply obind_ok in X as (id & _ & X). eauto.
  - intros X. eauto.
Qed.

(** ** What is known of an event whose sample fields were read *)
Lemma image_word A v B d :
  v < two64 -> image (A ++ [put64 v] ++ B) d ->
  of_le (slice d (total A) 8) = v /\ len d = total A + 8 + total B.
Proof.
  intros Hv H. split; [|rewrite (image_len _ _ H), !total_app, total_put64; cbn [total]; lia].
  apply image_app in H as (d1 & r & -> & H1 & H). apply image_app in H as (d2 & d3 & -> & H2 & H3).
  apply image_one, image_put64 in H2. subst d2.
  rewrite slice_app; [apply of_le_le_bytes; exact Hv|symmetry; now apply image_len|].
  now rewrite len_le_bytes.
Qed.

Record sample_facts (s : sstate) (e : list N) (off : N) (a : attr) (p : psample) : Prop := {
  sf_type : supported_type (ev_type e) = true;
  sf_split : exists pre d, e = pre ++ d /\ len pre = off /\ len d = field_bytes a (ev_type e) p /\
               image (all_chunks a (ev_type e) p) d;
  sf_ok : sample_ok p;
  sf_hw : hw_idx_agrees a (ev_type e) p;
  sf_readable : readable a (ev_type e);
  sf_self : recovered a (ev_type e) p p;
  sf_in : exists id, In (id, a) (ss_readers s);
  sf_all : ev_type e = R_SAMPLE \/ at_sample_id_all a = true;
  sf_reader : reader_for_id s (s_id p) = Some a
}.

Lemma carries_sample a b : carries a R_SAMPLE b = N.testbit (at_sample_type a) b.
Proof. unfold carries. change (R_SAMPLE =? R_SAMPLE) with true. cbn [orb]. apply andb_true_r. Qed.

Lemma carries_other a ty b :
  ty <> R_SAMPLE -> at_sample_id_all a = true ->
  carries a ty b = N.testbit (at_sample_type a) b && existsb (N.eqb b) sample_id_bits.
Proof.
  intros H Ha. unfold carries. rewrite Ha. destruct (N.eqb_spec ty R_SAMPLE); [contradiction|]. reflexivity.
Qed.

Lemma reader_lookup s e off a p k pre d :
  native s -> raw_event e -> len e = ev_size e -> event_data_size e = Ok off -> off mod 8 = 0 ->
  contains_info s (ev_type e) = true -> In (k, a) (ss_readers s) ->
  (ev_type e = R_SAMPLE \/ at_sample_id_all a = true) ->
  e = pre ++ d -> len pre = off -> image (all_chunks a (ev_type e) p) d -> sample_ok p ->
  recovered a (ev_type e) p p ->
  reader_for_event s e = match reader_for_id s (s_id p) with Some a => Ok a | None => Fail end.
Proof.
  intros Hn He Hle Hd H8 Hc Hin Hall E Lp Im Hok Hself.
  destruct (nv_readers s Hn k a Hin) as (Hst & Hone & Hsp & Hop).
  assert (Ld : off + len d = ev_size e) by (assert (L := f_equal (@len N) E); rewrite len_app in L; lia).
    assert (U : forall o, off <= o -> o + 8 <= off + len d -> ev_u64 e o = Ok (of_le (slice d (o - off) 8))).
    { intros o O1 O2. unfold ev_u64, mem_read. destruct (N.leb_spec (o + 8) (len e)) as [|O3]; [|lia]. cbn [obind].
      f_equal. f_equal. rewrite <- (slice_inner pre d []) by lia.
      rewrite app_nil_r, <- E. f_equal. lia. }
    assert (Vid : s_id p < two64) by (apply Hok).
    unfold reader_for_event. cbv zeta. unfold one_id in Hone.
    change B_ID with 6 in *. change B_IDENTIFIER with 16 in *.
    destruct (N.eqb_spec (ev_type e) R_SAMPLE) as [Es|Hns].
    + rewrite Hsp. rewrite Es in *. unfold id_positions.
      assert (Rid := rc_id _ _ _ _ Hself). rewrite !carries_sample in Rid.
      change B_ID with 6 in *. change B_IDENTIFIER with 16 in *.
      destruct (N.testbit (at_sample_type a) 16) eqn:Bi; [|destruct (N.testbit (at_sample_type a) 6) eqn:Bd]; cbn [fst].
      * rewrite Hd. cbn [obind].
        unfold all_chunks in Im. cbv zeta in Im. rewrite carries_sample in Im.
        change B_IDENTIFIER with 16 in Im. rewrite Bi in Im.
        change (R_SAMPLE =? R_SAMPLE) with true in Im. cbn [andb when] in Im.
        apply (image_word [] (s_id p)) in Im as (I1 & I2); [|exact Vid]. cbn [total] in *.
        destruct (N.leb_spec (ev_size e) off) as [|G1]; [lia|]. destruct (N.leb_spec ((ev_size e - off) / 8) 0) as [|G2]; [lia|].
        rewrite U by lia. cbn [obind]. replace (8 * (off / 8) + 8 * 0 - off) with 0 by lia. now rewrite I1.
      * rewrite Hd. cbn [obind].
        unfold all_chunks in Im. cbv zeta in Im. rewrite !carries_sample in Im.
        change B_IDENTIFIER with 16 in Im. change B_ID with 6 in Im. rewrite Bi, Bd, !andb_false_r in Im.
        cbn [when app] in Im.
        set (w1 := when (N.testbit _ B_IP) _) in Im. set (w2 := when (N.testbit _ B_TID) _) in Im.
        set (w3 := when (N.testbit _ B_TIME) _) in Im. set (w4 := when (N.testbit _ B_ADDR) _) in Im.
        match type of Im with image (w1 ++ w2 ++ w3 ++ w4 ++ ?w5 :: ?rest) d =>
          replace (w1 ++ w2 ++ w3 ++ w4 ++ w5 :: rest) with ((w1 ++ w2 ++ w3 ++ w4) ++ [w5] ++ rest) in Im
            by (rewrite <- !app_assoc; reflexivity) end.
        apply image_word in Im as (I1 & I2); [|exact Vid].
        assert (T : total (w1 ++ w2 ++ w3 ++ w4) = 8 * count_bits (at_sample_type a) [0; 1; 2; 3]).
        { unfold w1, w2, w3, w4, count_bits. rewrite !total_app, !total_when, !total_put64, !total_put32. cbn [total filter].
          change B_IP with 0. change B_TID with 1. change B_TIME with 2. change B_ADDR with 3.
          destruct (N.testbit (at_sample_type a) 0), (N.testbit (at_sample_type a) 1), (N.testbit (at_sample_type a) 2), (N.testbit (at_sample_type a) 3); reflexivity. }
        rewrite T in *. destruct (N.leb_spec (ev_size e) off) as [|G1]; [lia|]. destruct (N.leb_spec ((ev_size e - off) / 8) (count_bits (at_sample_type a) [0; 1; 2; 3])) as [|G2]; [lia|].
        rewrite U by lia. cbn [obind].
        replace (8 * (off / 8) + 8 * count_bits (at_sample_type a) [0; 1; 2; 3] - off)
          with (8 * count_bits (at_sample_type a) [0; 1; 2; 3]) by lia. now rewrite I1.
      * now rewrite Rid.
    + destruct Hall as [|Hall]; [contradiction|]. rewrite Hc, Hop. unfold id_positions.
      assert (Rid := rc_id _ _ _ _ Hself). rewrite !(carries_other a _ _ Hns Hall) in Rid.
      change B_ID with 6 in *. change B_IDENTIFIER with 16 in *.
      assert (C : forall b, carries a (ev_type e) b = N.testbit (at_sample_type a) b && existsb (N.eqb b) sample_id_bits).
      { intros b. now apply carries_other. }
      assert (Z : existsb (N.eqb B_IP) sample_id_bits = false /\ existsb (N.eqb B_ADDR) sample_id_bits = false /\
        existsb (N.eqb B_PERIOD) sample_id_bits = false /\ existsb (N.eqb B_READ) sample_id_bits = false /\
        existsb (N.eqb B_CALLCHAIN) sample_id_bits = false /\ existsb (N.eqb B_RAW) sample_id_bits = false /\
        existsb (N.eqb B_BRANCH_STACK) sample_id_bits = false /\ existsb (N.eqb B_WEIGHT) sample_id_bits = false /\
        existsb (N.eqb B_WEIGHT_STRUCT) sample_id_bits = false /\ existsb (N.eqb B_DATA_SRC) sample_id_bits = false /\
        existsb (N.eqb B_TRANSACTION) sample_id_bits = false /\ existsb (N.eqb B_PHYS_ADDR) sample_id_bits = false /\
        existsb (N.eqb B_CGROUP) sample_id_bits = false /\ existsb (N.eqb B_DATA_PAGE_SIZE) sample_id_bits = false /\
        existsb (N.eqb B_CODE_PAGE_SIZE) sample_id_bits = false) by (repeat split; reflexivity).
      destruct Z as (Z1 & Z2 & Z3 & Z4 & Z5 & Z6 & Z7 & Z8 & Z9 & Z10 & Z11 & Z12 & Z13 & Z14 & Z15).
      unfold all_chunks in Im. cbv zeta in Im. rewrite !C, Z1, Z2, Z3, Z4, Z5, Z6, Z7, Z8, Z9, Z10, Z11, Z12, Z13, Z14, Z15 in Im.
      destruct (N.eqb_spec (ev_type e) R_SAMPLE) as [|_]; [contradiction|].
      rewrite !andb_false_r in Im. cbn [negb andb orb when app] in Im.
      change (existsb (N.eqb B_TID) sample_id_bits) with true in *.
      change (existsb (N.eqb B_TIME) sample_id_bits) with true in *.
      change (existsb (N.eqb B_ID) sample_id_bits) with true in *.
      change (existsb (N.eqb 6) sample_id_bits) with true in *.
      change (existsb (N.eqb B_STREAM_ID) sample_id_bits) with true in *.
      change (existsb (N.eqb B_CPU) sample_id_bits) with true in *.
      change (existsb (N.eqb B_IDENTIFIER) sample_id_bits) with true in *.
      change (existsb (N.eqb 16) sample_id_bits) with true in *.
      rewrite !andb_true_r in *. rewrite app_nil_r in Im.
      change B_ID with 6 in *. change B_IDENTIFIER with 16 in *.
      destruct (N.testbit (at_sample_type a) 16) eqn:Bi; [|destruct (N.testbit (at_sample_type a) 6) eqn:Bd]; cbn [snd].
      * rewrite Hd. cbn [obind]. cbn [when] in Im.
        set (w1 := when (N.testbit _ B_TID) _) in Im. set (w2 := when (N.testbit _ B_TIME) _) in Im.
        set (w3 := when (N.testbit _ 6) _) in Im. set (w4 := when (N.testbit _ B_STREAM_ID) _) in Im.
        set (w5 := when (N.testbit _ B_CPU) _) in Im.
        replace (w1 ++ w2 ++ w3 ++ w4 ++ w5 ++ [put64 (s_id p)])
          with ((w1 ++ w2 ++ w3 ++ w4 ++ w5) ++ [put64 (s_id p)] ++ []) in Im
          by (rewrite <- !app_assoc; reflexivity).
        apply image_word in Im as (I1 & I2); [|exact Vid]. cbn [total] in I2.
        set (t := total (w1 ++ w2 ++ w3 ++ w4 ++ w5)) in *.
        assert (Mt : t mod 8 = 0).
        { unfold t, w1, w2, w3, w4, w5. rewrite !total_app, !total_when, !total_put64, !total_put32. cbn [total].
          repeat match goal with |- context [if ?b then _ else _] => destruct b end; reflexivity. }
        clearbody t. clear w1 w2 w3 w4 w5.
        assert (Es : 8 * (off / 8) + 8 * ((ev_size e - off) / 8 - 1) = off + t) by lia.
        destruct (N.leb_spec (ev_size e) off) as [|G1]; [lia|]. destruct (N.ltb_spec ((ev_size e - off) / 8) 1) as [|G2]; [lia|].
        rewrite Es, U by lia. cbn [obind]. replace (off + t - off) with t by lia. now rewrite I1.
      * rewrite Hd. cbn [obind]. cbn [when] in Im. rewrite app_nil_r in Im.
        set (w1 := when (N.testbit _ B_TID) _) in Im. set (w2 := when (N.testbit _ B_TIME) _) in Im.
        set (w4 := when (N.testbit _ B_STREAM_ID) _) in Im.
        set (w5 := when (N.testbit _ B_CPU) _) in Im.
        replace (w1 ++ w2 ++ [put64 (s_id p)] ++ w4 ++ w5)
          with ((w1 ++ w2) ++ [put64 (s_id p)] ++ (w4 ++ w5)) in Im
          by (rewrite <- !app_assoc; reflexivity).
        apply image_word in Im as (I1 & I2); [|exact Vid].
        assert (T : total (w4 ++ w5) = 8 * count_bits (at_sample_type a) [7; 9]).
        { unfold w4, w5, count_bits. rewrite !total_app, !total_when, !total_put64, !total_put32. cbn [total filter].
          change B_CPU with 7. change B_STREAM_ID with 9.
          destruct (N.testbit (at_sample_type a) 7), (N.testbit (at_sample_type a) 9); reflexivity. }
        rewrite T in I2. set (t := total (w1 ++ w2)) in *.
        assert (Mt : t mod 8 = 0).
        { unfold t, w1, w2. rewrite !total_app, !total_when, !total_put64, !total_put32. cbn [total].
          repeat match goal with |- context [if ?b then _ else _] => destruct b end; reflexivity. }
        clearbody t. clear w1 w2 w4 w5 T.
        set (c := count_bits (at_sample_type a) [7; 9]) in *. clearbody c.
        assert (Es : 8 * (off / 8) + 8 * ((ev_size e - off) / 8 - (1 + c)) = off + t) by lia.
        destruct (N.leb_spec (ev_size e) off) as [|G1]; [lia|]. destruct (N.ltb_spec ((ev_size e - off) / 8) (1 + c)) as [|G2]; [lia|].
        rewrite Es, U by lia. cbn [obind]. replace (off + t - off) with t by lia. now rewrite I1.
      * now rewrite Rid.
Qed.

Lemma sample_known s e off a p :
  native s -> readable_event s e off -> cpu_clear s e off -> contains_info s (ev_type e) = true ->
  read_info_and_attr s e = Ok (p, a) -> sample_facts s e off a p.
Proof.
  intros Hn [He Hle Hd _] Hcpu Hc H. unfold read_info_and_attr in H.
  apply obind_ok in H as (a' & Ha & H). apply obind_ok in H as (p' & Hp & H).
  apply Ok_inj in H. injection H as -> ->. rewrite (nv_swap s Hn) in Hp.
  destruct (reader_for_event_id s e a Ha) as (id0 & Hid0).
  destruct (in_reader_for_id s id0 a Hid0) as (k & Hin).
  destruct (nv_readers s Hn k a Hin) as (Hst & Hone & Hsp & Hop).
  assert (G := read_anything a false e He Hst). rewrite Hp in G.
  destruct G as (Ht & off' & pre & d & post & Hd' & E & Lp & Hsz & Hfb & Hok & Hh & Hr & _ & _ & _ & _ & Him).
  rewrite Hd in Hd'. apply Ok_inj in Hd'. subst off'.
  assert (H16 := ev_size_bound e (proj1 He)).
  assert (post = []) as ->. { apply len_0. assert (L := f_equal (@len N) E). rewrite !len_app in L. lia. }
  rewrite app_nil_r in E.
  assert (Hid : (carries a (ev_type e) B_ID && carries a (ev_type e) B_IDENTIFIER) = false).
  { unfold carries. unfold one_id in Hone. destruct (N.testbit (at_sample_type a) B_ID); [|reflexivity].
    destruct (N.testbit (at_sample_type a) B_IDENTIFIER); [discriminate|]. cbn [andb]. apply andb_false_r. }
  assert (CW : carries a (ev_type e) B_CPU = true -> slice e (off + cpu_word a (ev_type e) + 4) 4 = [0; 0; 0; 0]).
  { intros C. apply (Hcpu k a Hin C). assert (X := cpu_word_inside a _ p C). rewrite Hle. lia. }
  assert (Im : image (all_chunks a (ev_type e) p) d).
  { apply Him; auto. intros C. rewrite <- (CW C). assert (X := cpu_word_inside a _ p C).
    rewrite <- (slice_inner pre d []) by lia. rewrite app_nil_r, <- E, Lp. f_equal. lia. }
  assert (Hself : recovered a (ev_type e) p p).
  { assert (W := rewrite_same a e p He ltac:(unfold two64, two16 in *; lia) Hst Hp Hid).
    destruct (roundtrip a p e e He ltac:(unfold two64, two16 in *; lia) Hok Hr Hh) as (p2 & E2 & R2).
    { apply W. intros o Ho. rewrite Hd in Ho. apply Ok_inj in Ho. subst o. exact CW. }
    rewrite Hp in E2. apply Ok_inj in E2. now subst p2. }
  assert (H8 : off mod 8 = 0).
  { destruct (data_size_total e He) as [X|(n & f & X & _ & _ & _ & M)]; [congruence|]. congruence. }
  assert (Hall : ev_type e = R_SAMPLE \/ at_sample_id_all a = true).
  { destruct (N.eq_dec (ev_type e) R_SAMPLE) as [|Hns]; [now left|right].
    destruct (at_sample_id_all a) eqn:Ea; [reflexivity|exfalso].
    assert (Fb : field_bytes a (ev_type e) p = 0).
    { assert (C : forall b, carries a (ev_type e) b = false).
      { intros b. apply carries_nothing. unfold reads_something.
        destruct (N.eqb_spec (ev_type e) R_SAMPLE); [contradiction|]. now rewrite Ea. }
      unfold field_bytes. cbv zeta. cbn [map app]. now rewrite !C. }
    unfold reader_for_event in Ha. cbv zeta in Ha.
    destruct (N.eqb_spec (ev_type e) R_SAMPLE) as [|_]; [contradiction|]. rewrite Hc, Hop in Ha.
    destruct (snd (id_positions (at_sample_type a))) as [q|].
    - rewrite Hd in Ha. cbn [obind] in Ha. destruct (N.leb_spec (ev_size e) off) as [|L]; [discriminate|]. lia.
    - unfold contains_info in Hc. destruct (N.eqb_spec (ev_type e) R_SAMPLE) as [|_]; [contradiction|].
      unfold reader_for_id in Ha. change (0 =? 0) with true in Ha. cbv iota in Ha.
      destruct (ss_readers s) as [|(k0 & a0) rs]; [discriminate|]. apply Ok_inj in Ha. subst a0.
      rewrite Ea, andb_false_r in Hc. discriminate. }
  constructor; auto.
  - exists pre, d. auto.
  - exists k. exact Hin.
  - rewrite (reader_lookup s e off a p k pre d) in Ha; auto.
    destruct (reader_for_id s (s_id p)) as [y|]; [|discriminate]. apply Ok_inj in Ha. congruence.
Qed.
