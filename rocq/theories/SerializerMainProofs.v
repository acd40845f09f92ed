(** COMM, MMAP2 and BPF metadata, and every event. *)
From Verif Require Import Base BytesModel BytesProofs BytesMoreProofs BufferModel EventSizeModel
  EventSizeSpec EventSizeProofs TextModel TextProofs SampleModel SampleSpec SampleProofs SampleReadProofs
  SampleSafeProofs SampleMainProofs FileModel FileProofs BuilderProofs SerializerModel SerializerSpec
  SerializerProofs SerializerSizeProofs SerializerSampleProofs SerializerMessageProofs
  SerializerSampleOfProofs SerializerBackProofs SerializerKindProofs SerializerMoreKindProofs
  SerializerLastKindProofs.
From Coq Require Import Permutation.
Local Open Scope N_scope.

(** ** COMM: the size is computed anew *)
Lemma sample_part s e off i :
  native s -> readable_event s e off -> cpu_clear s e off -> ev_type e <> R_SAMPLE ->
  contains_info s (ev_type e) = true -> ser_info s e = Ok i ->
  exists q a n, info_sample i = Ok q /\ reader_for_id s (s_id q) = Some a /\
    sample_data_size a q (ev_type e) = Ok n /\ off + n = ev_size e.
Proof.
  intros Hn R Hc Es C Hi. unfold ser_info in Hi. rewrite C in Hi. cbn [negb] in Hi.
  apply obind_ok in Hi as ((p & a) & Hr & Hi). apply Ok_inj in Hi.
  assert (F := sample_known s e off a p Hn R Hc C Hr).
  destruct (info_carried s e off a p F Es) as (q & Q1 & Q2).
  exists q, a, (field_bytes a (ev_type e) p).
  assert (X : i = info_for a p) by (rewrite <- Hi; reflexivity). rewrite X.
  split; [exact Q1|]. split; [apply Q2|]. split.
  - rewrite <- (cd_size _ _ _ _ _ Q2). apply data_size; [apply F|apply F|apply Q2|apply Q2].
  - destruct (sf_split _ _ _ _ _ F) as (pre & d & E & L1 & L2 & _).
    assert (L := f_equal (@len N) E). rewrite len_app in L. assert (RL := re_len _ _ _ R). lia.
Qed.

Lemma comm_back s e off m :
  native s -> readable_event s e off -> cpu_clear s e off -> ev_type e = R_COMM ->
  ser_comm s e = Ok m ->
  back s off e (let! b := block e in
    let! size := x_size s (XEvent R_COMM (ev_misc e) (ev_size e) (XBComm m) (time_of R_COMM (XBComm m))) in
    let! b := stores b [u16_at 6 size] in des_comm s m b).
Proof.
  intros Hn R Hc Et Hm. assert (Hb : bytes_ok e = true) by apply R.
  unfold ser_comm in Hm. peel Hm. peel_text Hm. apply obind_ok in Hm as (i & Hi & Hm).
  apply Ok_inj in Hm. subst m.
  destruct (text_kind e R_COMM 16 4096 off txt (re_raw _ _ _ R)) as (Lt & Eo); auto; [cbn; auto 6|apply R|].
  destruct (text_store e 16 txt 4096 X Lt) as (T1 & T2).
  assert (S16 := ev_size_bound e Hb). unfold two16 in S16.
  assert (Do : off <= ev_size e).
  { destruct (data_size_total e (re_raw _ _ _ R)) as [Q|(n & f & Q & _ & _ & Q2 & _)]; [rewrite (re_data _ _ _ R) in Q; discriminate|].
    rewrite (re_data _ _ _ R) in Q. apply Ok_inj in Q. now subst. }
  assert (Sz : x_size s (XEvent R_COMM (ev_misc e) (ev_size e) (XBComm (XComm (of_le (slice e 8 4)) (of_le (slice e 12 4)) txt i))
                 (time_of R_COMM (XBComm (XComm (of_le (slice e 8 4)) (of_le (slice e 12 4)) txt i)))) = Ok (ev_size e)).
  { unfold x_size, x_data_size. cbn [xe_type xe_body]. change (fixed_payload R_COMM) with (Some 16).
    unfold x_variable. pick_type. cbn [orb get_comm xc_comm].
    rewrite aligned_string_length_value by (clear - Lt; unfold two64; lia). cbn [obind].
    replace ((8 * (len txt / 8 + 1)) mod 8) with 0
      by (rewrite N.mul_comm; symmetry; apply N.mod_mul; discriminate). cbn [N.eqb negb obind].
    rewrite w64_small by (clear - Lt; unfold two64; lia). rewrite <- Eo.
    replace (65535 <? off) with false by (symmetry; apply N.ltb_ge; lia). cbn [obind].
    destruct (contains_info s R_COMM) eqn:C; cbn [negb].
    - rewrite <- Et in C. destruct (sample_part s e off i Hn R Hc ltac:(other_type Et) C Hi) as (q & a & n & Q1 & Q2 & Q3 & Q4).
      unfold info_of. pick_type. cbn [orb get_comm xc_info]. rewrite Q1. cbn [obind]. rewrite Q2.
      rewrite <- Et, Q3. cbn [obind]. rewrite Q4, w64_small; [reflexivity|unfold two64; lia].
    - f_equal. apply (re_plain _ _ _ R). now rewrite Et. }
  destruct (block e) as [b| | | |] eqn:Eb; cbn [obind].
  2-5: destruct (block_ok e (re_raw _ _ _ R)) as (b & Eb' & _); rewrite Eb in Eb'; discriminate.
  rewrite Sz. cbn [obind]. unfold des_comm. cbn [xc_pid xc_tid xc_comm xc_info]. rewrite stores_two.
  assert (ST : stores (repeat 0 (N.to_nat (len e))) (header_of e ++ [u16_at 6 (ev_size e)] ++
     [u32_at 8 (of_le (slice e 8 4)); u32_at 12 (of_le (slice e 12 4)); (16, snprintf 4096 txt)]) = Ok (clean e)).
  { assert (Fl : fields e = [(8, 4); (12, 4); text_field e 16]) by (fields_of Et; reflexivity).
    assert (C : Forall (copied e) ([u32_at 8 (of_le (slice e 8 4)); u32_at 12 (of_le (slice e 12 4)); (16, snprintf 4096 txt)])) by copies.
    assert (Rg : map range [u32_at 8 (of_le (slice e 8 4)); u32_at 12 (of_le (slice e 12 4)); (16, snprintf 4096 txt)] = fields e).
    { rewrite Fl. cbn [map]. rewrite T2. ranges. }
    apply stores_clean; [apply R| |].
    - apply Forall_app. split.
      + constructor; [|constructor]. apply copied_fits.
        * unfold u16_at, ev_size. apply copied_num; auto. lia.
        * unfold u16_at. cbn [fst snd]. rewrite len_le_bytes. intros j J1 J2. unfold kept.
          destruct (N.ltb_spec j 8); [reflexivity|lia].
      + rewrite Forall_forall in *. intros x Hx. apply copied_fits; [now apply C|].
        intros j J1 J2. apply (kept_field e (fst x) (len (snd x))); auto; [|split; other_type Et].
        rewrite <- Rg. now apply (in_map range).
    - intros j J Hj. rewrite map_app, Rg. unfold inside in *. rewrite existsb_app, Hj. apply orb_true_r. }
  assert (Y := stores_then e ([u16_at 6 (ev_size e)] ++
     [u32_at 8 (of_le (slice e 8 4)); u32_at 12 (of_le (slice e 12 4)); (16, snprintf 4096 txt)]) (des_info s i) ST).
  rewrite Eb in Y. cbn [obind] in Y. rewrite Y. apply des_info_back; auto. other_type Et.
Qed.

(** ** MMAP2 *)
Lemma mmap2_back s e off m :
  native s -> readable_event s e off -> cpu_clear s e off -> ev_type e = R_MMAP2 ->
  ser_mmap2 s e = Ok m -> back s off e (let! b := block e in des_mmap2 s m b).
Proof.
  intros Hn R Hc Et Hm. assert (Hb : bytes_ok e = true) by apply R.
  unfold ser_mmap2 in Hm. peel Hm. apply obind_ok in Hm as (((((maj & min) & ino) & gen) & bid) & Hd & Hm).
  peel Hm. peel_text Hm. apply obind_ok in Hm as (i & Hi & Hm). apply Ok_inj in Hm. subst m.
  destruct (text_kind e R_MMAP2 72 4096 off txt (re_raw _ _ _ R)) as (Lt & Eo); auto; [cbn; auto 6|apply R|].
  destruct (text_store e 72 txt 4096 X Lt) as (T1 & T2).
  unfold des_mmap2. cbn [xm_pid xm_tid xm_start xm_len xm_pgoff xm_maj xm_min xm_ino xm_ino_gen xm_build_id xm_prot xm_flags xm_filename xm_info].
  set (l1 := [u32_at 8 _; u32_at 12 _; u64_at 16 _; u64_at 24 _; u64_at 32 _]).
  set (l3 := [u32_at 64 _; u32_at 68 _; (72, snprintf 4096 txt)]).
  assert (C1 : Forall (copied e) l1) by (unfold l1; copies).
  assert (C3 : Forall (copied e) l3) by (unfold l3; copies).
  assert (R1 : map range l1 = [(8, 4); (12, 4); (16, 8); (24, 8); (32, 8)]) by (unfold l1; cbn [map]; ranges).
  assert (R3 : map range l3 = [(64, 4); (68, 4); text_field e 72]) by (unfold l3; cbn [map]; rewrite T2; ranges).
  destruct (N.testbit (ev_misc e) 14) eqn:M14.
  - peel Hd. destruct (N.ltb_spec 20 (of_le (slice e 40 1))) as [|Hs]; [discriminate|].
    apply obind_ok in Hd as (id & Hr & Hd). apply Ok_inj in Hd. injection Hd as <- <- <- <- <-.
    unfold mem_read in Hr. destruct (N.leb_spec (44 + of_le (slice e 40 1)) (len e)) as [Hl|]; [|discriminate].
    apply Ok_inj in Hr. set (n := of_le (slice e 40 1)) in *.
    assert (En : byte e 40 = n).
    { unfold n. assert (BS := byte_slice e 40 1 0 eq_refl). change (40 + 0) with 40 in BS. rewrite <- BS.
      assert (Ls := len_slice e 40 1 ltac:(assumption)). unfold byte. cbn [N.to_nat].
      destruct (slice e 40 1) as [|b [|? ?]]; unfold len in Ls; cbn [length] in Ls; try (exfalso; lia).
      change (b = b + 256 * 0). lia. }
    assert (Lid : len id = n) by (subst id; apply len_slice; exact Hl).
    assert (Bid : bytes_ok id = true) by (subst id; now apply bytes_ok_slice).
    assert (Lh : len (raw_to_hex id) = 2 * n).
    { unfold len. rewrite hex_length. unfold len in Lid. lia. }
    rewrite hex_roundtrip_gen by exact Bid. rewrite Lh. rewrite repeat_length.
    replace ((2 * n) mod 2) with 0 by (rewrite N.mul_comm; symmetry; apply N.mod_mul; discriminate).
    replace (2 * n / 2) with n by (rewrite N.mul_comm; symmetry; apply N.div_mul; discriminate).
    replace (n <=? 20) with true by (symmetry; now apply N.leb_le). cbn [N.eqb andb].
    assert (Lnat : length id = N.to_nat n) by (unfold len in Lid; lia).
    rewrite (firstn_all2 id) by lia.
    replace (firstn (N.to_nat n) (id ++ skipn (length id) (repeat 0 20))) with id
      by (rewrite <- Lnat, firstn_app, Nat.sub_diag, firstn_O, app_nil_r; symmetry; apply firstn_all).
    assert (C2 : Forall (copied e) [u8_at 40 n; (44, id)]).
    { constructor; [apply copied_num; auto|]. constructor; [|constructor]. unfold copied. cbn [fst snd].
      rewrite Lid. split; [exact Hl|now rewrite <- Hr]. }
    assert (Rg : map range (l1 ++ [u8_at 40 n; (44, id)] ++ l3) = fields e).
    { rewrite !map_app, R1, R3. fields_of Et. rewrite M14, En. unfold range, u8_at. cbn [map fst snd].
      rewrite len_le_bytes, Lid. reflexivity. }
    assert (Ca : Forall (copied e) (l1 ++ [u8_at 40 n; (44, id)] ++ l3)) by (rewrite !Forall_app; auto).
    assert (ST := stores_fields e _ (re_raw _ _ _ R) ltac:(split; other_type Et) Rg Ca).
    assert (Fit : Forall (fits (kept e) (len e)) (l1 ++ [u8_at 40 n])).
    { rewrite Forall_forall in Ca |- *. intros x Hx.
      assert (Hx' : In x (l1 ++ [u8_at 40 n; (44, id)] ++ l3)).
      { rewrite in_app_iff in *. destruct Hx as [Hx|[<-|[]]]; [now left|]. right. left. reflexivity. }
      apply copied_fits; [now apply Ca|]. intros j J1 J2.
      apply (kept_field e (fst x) (len (snd x))); auto; [|split; other_type Et].
      rewrite <- Rg. now apply (in_map range). }
    destruct (stores_prefix e (l1 ++ [u8_at 40 n]) (re_raw _ _ _ R) Fit) as (b2 & E2 & Lb2 & Z2).
    assert (L64 : 72 <= len e) by lia.
    assert (Same : mem_write b2 44 (repeat 0 20) = Ok b2).
    { apply mem_write_same; change (len (repeat 0 20)) with 20; [lia|].
      apply (zero_slice b2 44 20); [lia|]. intros j J1 J2. apply Z2; [lia|].
      rewrite map_app, R1. unfold range, u8_at. cbn [map fst snd app]. rewrite len_le_bytes.
      unfold inside. cbn [existsb fst snd].
      repeat match goal with |- context [j <? ?y] =>
        replace (j <? y) with false by (symmetry; apply N.ltb_ge; cbn; lia) end.
      now rewrite !andb_false_r. }
    assert (Y := stores_then e _ (des_info s i) ST).
    destruct (block e) as [b0| | | |]; cbn [obind] in E2, Y |- *; try discriminate.
    rewrite stores_app in E2, Y.
    destruct (stores b0 l1) as [b1| | | |] eqn:E1; cbn [obind] in E2, Y |- *; try discriminate.
    assert (Mid : stores b1 [u8_at 40 n; (44, repeat 0 20); (44, id)] = stores b1 [u8_at 40 n; (44, id)]).
    { unfold u8_at in *. cbn [stores] in E2 |- *. destruct (mem_write b1 40 (le_bytes 1 n)) as [b'| | | |]; cbn [obind] in E2 |- *; auto.
      apply Ok_inj in E2. subst b'. rewrite Same. reflexivity. }
    rewrite Mid. rewrite stores_two, Y. apply des_info_back; auto. other_type Et.
  - peel Hd. apply Ok_inj in Hd. injection Hd as <- <- <- <- <-.
    set (l2 := [u32_at 40 _; u32_at 44 _; u64_at 48 _; u64_at 56 _]).
    assert (C2 : Forall (copied e) l2) by (unfold l2; copies).
    assert (R2 : map range l2 = [(40, 4); (44, 4); (48, 8); (56, 8)]) by (unfold l2; cbn [map]; ranges).
    assert (Rg : map range (l1 ++ l2 ++ l3) = fields e).
    { rewrite !map_app, R1, R2, R3. fields_of Et. rewrite M14. reflexivity. }
    assert (Ca : Forall (copied e) (l1 ++ l2 ++ l3)) by (rewrite !Forall_app; auto).
    assert (ST := stores_fields e _ (re_raw _ _ _ R) ltac:(split; other_type Et) Rg Ca).
    assert (Y := stores_then e _ (des_info s i) ST).
    destruct (block e) as [b0| | | |]; cbn [obind] in Y |- *; try discriminate.
    + rewrite stores_two, stores_two, <- app_assoc, Y. apply des_info_back; auto. other_type Et.
    + destruct (des_info_back s e off i Hn R Hc ltac:(other_type Et) Hi) as (e' & Q & _). rewrite <- Y in Q. discriminate.
    + destruct (des_info_back s e off i Hn R Hc ltac:(other_type Et) Hi) as (e' & Q & _). rewrite <- Y in Q. discriminate.
    + destruct (des_info_back s e off i Hn R Hc ltac:(other_type Et) Hi) as (e' & Q & _). rewrite <- Y in Q. discriminate.
    + destruct (des_info_back s e off i Hn R Hc ltac:(other_type Et) Hi) as (e' & Q & _). rewrite <- Y in Q. discriminate.
Qed.

(** ** BPF metadata *)
Lemma nodup_insert l : forall m,
  (forall x y, In x m -> In y l -> fst x <> fst y) ->
  (forall i j x y, (i < j)%nat -> nth_error l i = Some x -> nth_error l j = Some y -> fst x <> fst y) ->
  fold_left insert_new l m = m ++ l.
Proof.
  induction l as [|kv l IH]; intros m Hm Hl; cbn [fold_left]; [now rewrite app_nil_r|].
  assert (E : insert_new m kv = m ++ [kv]).
  { unfold insert_new. destruct (existsb _ m) eqn:X; [|reflexivity].
    apply existsb_exists in X as (x & X1 & X2). apply list_eqb_eq in X2. exfalso.
    apply (Hm x kv X1 (or_introl eq_refl) X2). }
  rewrite E, IH.
  - now rewrite <- app_assoc.
  - intros x y Hx Hy. apply in_app_iff in Hx as [Hx|[<-|[]]]; [apply Hm; auto; now right|].
    apply In_nth_error in Hy as (j & Hj). apply (Hl 0%nat (S j)); [lia|reflexivity|exact Hj].
  - intros i j x y Hij Hi Hj. apply (Hl (S i) (S j)); auto. lia.
Qed.

Lemma entries_nth {A} (f : N -> outcome A) size n : forall off l i x,
  entries_go f off size n = Ok l -> nth_error l i = Some x ->
  f (off + size * N.of_nat i) = Ok x /\ (i < n)%nat.
Proof.
  induction n as [|n IH]; intros off l i x H Hx; cbn [entries_go] in H.
  { apply Ok_inj in H. subst l. destruct i; discriminate. }
  apply obind_ok in H as (y & H1 & H). apply obind_ok in H as (r & H2 & H). apply Ok_inj in H. subst l.
  destruct i as [|i]; cbn [nth_error] in Hx.
  - injection Hx as ->. replace (off + size * N.of_nat 0) with off by lia. split; [exact H1|lia].
  - destruct (IH _ _ _ _ H2 Hx) as (A1 & A2). split; [|lia]. rewrite <- A1. f_equal. lia.
Qed.

Lemma bpf_back ord s e off m :
  native s -> readable_event s e off -> cpu_clear s e off -> ev_type e = R_BPF_METADATA ->
  bpf_plain ord e -> (forall l, Permutation l (ord l)) ->
  ser_bpf s e = Ok m -> back s off e (let! b := block e in des_bpf ord s m b).
Proof.
  intros Hn R Hc Et Hp Ho Hm. assert (Hb : bytes_ok e = true) by apply R.
  destruct (Hp Et) as (P1 & P2 & P3 & P4).
  unfold ser_bpf in Hm. peel_text Hm. peel Hm. apply obind_ok in Hm as (kvs & Hk & Hm).
  apply obind_ok in Hm as (i & Hi & Hm). apply Ok_inj in Hm. subst m.
  change (of_le (slice e 520 8)) with (number_at e 520) in Hk. set (nr := number_at e 520) in *.
  assert (Lp := text_short e 8 txt 512 X P1).
  assert (Ent : forall i k v, i < nr -> ev_c_str e (528 + 320 * i) = Ok k -> ev_c_str e (528 + 320 * i + 64) = Ok v ->
    c_str (snprintf 64 k) = k /\ c_str (snprintf 256 v) = v /\ text_read e (528 + 320 * i) k /\
    text_read e (528 + 320 * i + 64) v /\ len k < 64 /\ len v < 256).
  { intros j k v Hj Ek Ev. apply c_str_text in Ek, Ev. destruct (P2 j Hj) as (Q1 & Q2).
    assert (A1 := text_short _ _ _ _ Ek Q1). assert (A2 := text_short _ _ _ _ Ev Q2).
    rewrite !c_str_snprintf by (first [apply Ek|apply Ev|assumption]). auto 10. }
  destruct (entries_stored e _ (fun o kv => [(o, snprintf 64 (fst kv)); (o + 64, snprintf 256 (snd kv))])
     (fun o => [text_field e o; text_field e (o + 64)]) _ _ _ _ Hk) as (E1 & E2 & E3).
  { intros j x Hj Hf. apply obind_ok in Hf as (k & K1 & Hf). apply obind_ok in Hf as (v & K2 & Hf).
    apply Ok_inj in Hf. subst x. cbn [fst snd]. destruct (Ent j k v Hj K1 K2) as (-> & -> & T1 & T2 & L1 & L2).
    destruct (text_store _ _ _ 64 T1 L1) as (S1 & S2). destruct (text_store _ _ _ 256 T2 L2) as (S3 & S4).
    split; [copies|]. cbn [map]. now rewrite S2, S4. }
  assert (Hfold : fold_left insert_new kvs [] = kvs).
  { apply (nodup_insert kvs []); [intros x y []|].
    unfold entries_of in Hk. destruct (len e <? 528 + 320 * nr); [discriminate|].
    intros a b x y Hab Hx Hy.
    destruct (entries_nth _ _ _ _ _ _ _ Hk Hx) as (F1 & I1). destruct (entries_nth _ _ _ _ _ _ _ Hk Hy) as (F2 & I2).
    apply obind_ok in F1 as (k & K1 & F1). apply obind_ok in F1 as (v & K2 & F1). apply Ok_inj in F1. subst x.
    apply obind_ok in F2 as (k' & K1' & F2). apply obind_ok in F2 as (v' & K2' & F2). apply Ok_inj in F2. subst y.
    destruct (Ent (N.of_nat a) k v ltac:(lia) K1 K2) as (D1 & _).
    destruct (Ent (N.of_nat b) k' v' ltac:(lia) K1' K2') as (D2 & _).
    cbn [fst]. rewrite D1, D2. specialize (P3 (N.of_nat a) (N.of_nat b) ltac:(lia) ltac:(lia)).
    assert (TO : forall o t, ev_c_str e o = Ok t -> text_of e o = t).
    { intros o t. unfold ev_c_str, text_of. destruct (_ <? _); [|discriminate]. apply Ok_inj. }
    now rewrite (TO _ _ K1), (TO _ _ K1') in P3. }
  assert (Hord : ord kvs = kvs).
  { destruct P4 as [P4|P4]; [|apply P4]. assert (Q := Ho kvs).
    destruct kvs as [|x [|y r]].
    - apply Permutation_nil in Q. exact Q.
    - apply Permutation_length_1_inv in Q. exact Q.
    - exfalso. unfold len in E1. cbn [length] in E1. lia. }
  unfold des_bpf. cbn [xb_prog xb_metadata xb_info]. rewrite Hfold, Hord.
  rewrite c_str_snprintf by (auto; apply X).
  destruct (text_store e 8 txt 512 X Lp) as (S1 & S2).
  assert (CC := count_copied e 520 (len kvs) Hb L E1).
  rewrite stores_then; [apply des_info_back; auto; other_type Et|].
  apply stores_fields; [apply R|split; other_type Et| |].
  - fields_of Et. unfold array_fields. fold nr. rewrite map_app. cbn [map]. rewrite E3, S2. cbn [app]. ranges.
  - apply Forall_app. split; [copies|exact E2].
Qed.

(** ** Every event *)
Ltac settle Hs :=
    revert Hs;
    repeat match goal with |- context [64 <=? ?b] =>
      let x := eval vm_compute in (64 <=? b) in change (64 <=? b) with x end;
    pick_type; cbn [orb]; cbv iota;
    unfold omap; intros Hs; apply obind_ok in Hs as (m & Hs & Hbb); apply Ok_inj in Hbb; subst;
    cbn [get_sample get_mmap get_comm get_fork get_exit get_lost get_throttle get_aux get_itrace get_lost_samples
         get_switch get_namespaces get_cgroup get_ksymbol get_bpf get_auxinfo get_auxtrace get_auxerror
         get_id_index get_thread_map get_stat_config get_stat get_stat_round get_time_conv].

Lemma event_back ord s e off x :
  native s -> readable_event s e off -> cpu_clear s e off -> bpf_plain ord e ->
  (forall l, Permutation l (ord l)) -> serialize s e = Ok x -> back s off e (deserialize ord s x).
Proof.
  intros Hn R Hc Hp Ho Hx. unfold serialize in Hx. apply obind_ok in Hx as (b & Hs & Hx). apply Ok_inj in Hx.
  assert (Hd : deserialize ord s x = let! k := block e in
     if 64 <=? ev_type e then des_user ord s x k else des_kernel s x k).
  { subst x. unfold deserialize, block, header_of. cbn [xe_type xe_misc xe_size]. rewrite (re_len _ _ _ R). reflexivity. }
  rewrite Hd. clear Hd.
  assert (K : exists f, In (ev_type e, f) known_events).
  { destruct (data_size_total e (re_raw _ _ _ R)) as [Q|(n & f & Q & Hk & _)]; [rewrite (re_data _ _ _ R) in Q; discriminate|].
    eauto. }
  destruct K as (f & K). remember (ev_type e) as ty eqn:Et. symmetry in Et.
  unfold ser_user, ser_kernel in Hs. rewrite Et in Hs. unfold des_user, des_kernel.
  replace (xe_type x) with ty by (subst x; reflexivity). replace (xe_body x) with b by (subst x; reflexivity).
  cbn [known_events text_events plain_events closed_events map fst app In] in K.
  repeat (destruct K as [K|K];
    [injection K as K _; symmetry in K; rewrite K in Et, Hs, Hx |- *; clear K|]); [..|contradiction].
  - settle Hs. now apply mmap_back.
  - settle Hs. now apply comm_back.
  - settle Hs. now apply mmap2_back.
  - settle Hs. now apply cgroup_back.
  - settle Hs. now apply ksymbol_back.
  - settle Hs. now apply lost_back.
  - settle Hs. apply fork_back; auto.
  - settle Hs. apply fork_back; auto.
  - settle Hs. apply throttle_back; auto.
  - settle Hs. apply throttle_back; auto.
  - settle Hs.
    assert (X := stores_then e [] (fun k => des_sample s m k)). cbn [stores obind] in X.
    rewrite X; [now apply des_sample_back|].
    apply stores_fields; [apply R|split; other_type Et| |constructor]. fields_of Et. reflexivity.
  - settle Hs. now apply aux_back.
  - settle Hs. now apply itrace_back.
  - settle Hs. now apply lost_samples_back.
  - settle Hs. apply switch_back; auto.
  - settle Hs. apply switch_back; auto.
  - revert Hs. change (64 <=? R_FINISHED_ROUND) with true. pick_type. cbn [orb]. cbv iota. intros Hs.
    change (85 <=? R_FINISHED_ROUND) with false. cbv iota.
    assert (Y : back s off e (let! k := block e in stores k [])); [|exact Y].
    user_event Et R; [fields_of Et; reflexivity|constructor].
  - settle Hs. now apply auxtrace_back.
  - settle Hs. now apply stat_back.
  - settle Hs. now apply stat_round_back.
  - settle Hs. now apply id_index_back.
  - settle Hs. now apply stat_config_back.
  - settle Hs. now apply thread_map_back.
  - settle Hs. now apply namespaces_back.
  - settle Hs. now apply auxinfo_back.
  - settle Hs. now apply auxerror_back.
  - settle Hs. now apply time_conv_back.
  - settle Hs. now apply bpf_back.
Qed.

Lemma event_same l ord s e off x :
  native_serializer l s -> readable_event s e off -> cpu_clear s e off -> bpf_plain ord e ->
  (forall l, Permutation l (ord l)) -> serialize s e = Ok x ->
  exists e', deserialize ord s x = Ok e' /\ same_event s off e e'.
Proof.
  intros Hn R Hc Hp Ho Hx. destruct (event_back ord s e off x (native_of _ _ Hn) R Hc Hp Ho Hx) as (e' & A & B & _). eauto.
Qed.

Lemma event_exact l ord s e off x :
  native_serializer l s -> readable_event s e off -> cpu_clear s e off -> bpf_plain ord e ->
  (forall l, Permutation l (ord l)) -> serialize s e = Ok x -> fully_represented s e off ->
  deserialize ord s x = Ok e.
Proof.
  intros Hn R Hc Hp Ho Hx F. destruct (event_back ord s e off x (native_of _ _ Hn) R Hc Hp Ho Hx) as (e' & A & _ & B).
  now rewrite A, (B F).
Qed.
