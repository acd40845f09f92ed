(** The size computed for a message is the size of the event it was made from. *)
From Verif Require Import Base BytesModel BytesProofs BytesMoreProofs BufferModel EventSizeModel
  EventSizeSpec EventSizeProofs TextModel TextProofs SampleModel SampleSpec SampleProofs SampleReadProofs
  SampleSafeProofs SampleMainProofs FileModel FileProofs BuilderProofs SerializerModel SerializerSpec
  SerializerProofs SerializerSizeProofs SerializerSampleProofs SerializerMessageProofs
  SerializerSampleOfProofs SerializerBackProofs SerializerKindProofs SerializerMoreKindProofs
  SerializerLastKindProofs SerializerMainProofs.
From Coq Require Import Permutation.
Local Open Scope N_scope.

Lemma size_back s e off x v fixed :
  native s -> readable_event s e off -> cpu_clear s e off -> xe_type x = ev_type e ->
  fixed_payload (ev_type e) = Some fixed -> x_variable (ev_type e) (xe_body x) = Ok v -> off = fixed + v ->
  (ev_type e <> R_SAMPLE -> contains_info s (ev_type e) = true ->
     exists i, info_of (ev_type e) (xe_body x) = Some i /\ ser_info s e = Ok i) ->
  (ev_type e = R_SAMPLE -> exists m, xe_body x = XBSample m /\ ser_sample s e = Ok m) ->
  x_size s x = Ok (ev_size e).
Proof.
  intros Hn R Hc Ht Hf Hv Ho Hi Hsm. assert (Hb : bytes_ok e = true) by apply R.
  assert (S16 := ev_size_bound e Hb). unfold two16 in S16.
  assert (Do : off <= ev_size e).
  { destruct (data_size_total e (re_raw _ _ _ R)) as [Q|(n & f & Q & _ & _ & Q2 & _)]; [rewrite (re_data _ _ _ R) in Q; discriminate|].
    rewrite (re_data _ _ _ R) in Q. apply Ok_inj in Q. now subst. }
  unfold x_size, x_data_size. rewrite Ht, Hf, Hv. cbn [obind]. rewrite <- Ho.
  rewrite w64_small by (unfold two64; lia).
  replace (65535 <? off) with false by (symmetry; apply N.ltb_ge; lia). cbn [obind].
  destruct (contains_info s (ev_type e)) eqn:C; cbn [negb]; [|f_equal; now apply (re_plain _ _ _ R)].
  destruct (N.eqb_spec (ev_type e) R_SAMPLE) as [Es|Es].
  - destruct (Hsm Es) as (m & -> & Hm). cbn [get_sample]. assert (Hm' := Hm). unfold ser_sample in Hm'.
    apply obind_ok in Hm' as ((p & a) & Hr & _).
    assert (F := sample_known s e off a p Hn R Hc C Hr).
    destruct (sample_carried s e off a p m F Es Hr Hm) as (q & Q1 & Q2). rewrite Q1. cbn [obind].
    rewrite (cd_reader _ _ _ _ _ Q2).
    replace (sample_data_size a q (ev_type e)) with (Ok (field_bytes a (ev_type e) p)).
    2:{ symmetry. rewrite <- (cd_size _ _ _ _ _ Q2). apply data_size; [apply F|apply F|apply Q2|apply Q2]. }
    cbn [obind]. destruct (sf_split _ _ _ _ _ F) as (pre & d & E & L1 & L2 & _).
    assert (L := f_equal (@len N) E). rewrite len_app in L. assert (RL := re_len _ _ _ R).
    rewrite w64_small by (unfold two64; lia). f_equal. lia.
  - destruct (Hi Es eq_refl) as (i & -> & Hi'). destruct (sample_part s e off i Hn R Hc Es C Hi') as (q & a & n & Q1 & Q2 & Q3 & Q4).
    rewrite Q1. cbn [obind]. rewrite Q2, Q3. cbn [obind]. rewrite w64_small by (unfold two64; lia). now rewrite Q4.
Qed.

(** ** The variable part *)
Lemma entries_len {A} e (f : N -> outcome A) off size nr l :
  entries_of e off size nr f = Ok l -> len l = nr /\ off + size * nr <= len e.
Proof.
  intros H. assert (L : off + size * nr <= len e).
  { unfold entries_of in H. destruct (N.ltb_spec (len e) (off + size * nr)); [discriminate|assumption]. }
  split; [|exact L].
  destruct (entries_stored e f (fun _ _ => []) (fun _ => []) off size nr l H) as (E & _); [|exact E].
  intros. split; [constructor|reflexivity].
Qed.

Lemma mod8 n : (8 * n) mod 8 = 0.
Proof. rewrite N.mul_comm. now apply N.mod_mul. Qed.

Lemma bpf_entries s e m ord :
  ev_type e = R_BPF_METADATA -> bpf_plain ord e -> ser_bpf s e = Ok m ->
  len (xb_metadata m) = number_at e 520 /\ 528 + 320 * number_at e 520 <= len e.
Proof.
  intros Et Hp Hm. destruct (Hp Et) as (P1 & P2 & P3 & P4).
  unfold ser_bpf in Hm. peel_text Hm. peel Hm. apply obind_ok in Hm as (kvs & Hk & Hm).
  apply obind_ok in Hm as (i & Hi & Hm). apply Ok_inj in Hm. subst m. cbn [xb_metadata].
  change (of_le (slice e 520 8)) with (number_at e 520) in Hk. set (nr := number_at e 520) in *.
  destruct (entries_len _ _ _ _ _ _ Hk) as (E1 & E2). split; [|exact E2].
  replace (fold_left insert_new kvs []) with kvs; [exact E1|]. symmetry.
  assert (Ent : forall i k, i < nr -> ev_c_str e (528 + 320 * i) = Ok k -> c_str (snprintf 64 k) = k).
  { intros j k Hj Ek. apply c_str_text in Ek. destruct (P2 j Hj) as (Q1 & Q2).
    assert (A1 := text_short _ _ _ _ Ek Q1). apply c_str_snprintf; [apply Ek|assumption]. }
  apply (nodup_insert kvs []); [intros x y []|].
  unfold entries_of in Hk. destruct (len e <? 528 + 320 * nr); [discriminate|].
  intros a b x y Hab Hx Hy.
  destruct (entries_nth _ _ _ _ _ _ _ Hk Hx) as (F1 & I1). destruct (entries_nth _ _ _ _ _ _ _ Hk Hy) as (F2 & I2).
  apply obind_ok in F1 as (k & K1 & F1). apply obind_ok in F1 as (v & K2 & F1). apply Ok_inj in F1. subst x.
  apply obind_ok in F2 as (k' & K1' & F2). apply obind_ok in F2 as (v' & K2' & F2). apply Ok_inj in F2. subst y.
  cbn [fst]. rewrite (Ent (N.of_nat a) k ltac:(lia) K1), (Ent (N.of_nat b) k' ltac:(lia) K1').
  specialize (P3 (N.of_nat a) (N.of_nat b) ltac:(lia) ltac:(lia)).
  assert (TO : forall o t, ev_c_str e o = Ok t -> text_of e o = t).
  { intros o t. unfold ev_c_str, text_of. destruct (_ <? _); [|discriminate]. apply Ok_inj. }
  now rewrite (TO _ _ K1), (TO _ _ K1') in P3.
Qed.

Lemma text_variable e ty fixed max off txt :
  raw_event e -> In (ty, fixed, max) text_events -> ev_type e = ty -> event_data_size e = Ok off ->
  text_read e fixed txt ->
  exists v, aligned_string_length (len txt) = v /\ v mod 8 = 0 /\ off = fixed + v.
Proof.
  intros He Hin Ht Hd Hr. destruct (text_kind e ty fixed max off txt He Hin Ht Hd Hr) as (Lt & Eo).
  assert (max <= 4096) by (cbn in Hin; repeat (destruct Hin as [X|Hin]; [injection X as _ _ <-; lia|]); contradiction).
  exists (8 * (len txt / 8 + 1)). split; [|split; [apply mod8|exact Eo]].
  apply aligned_string_length_value. unfold two64. lia.
Qed.

Ltac no_sample Et := let X := fresh in intros X; rewrite Et in X; discriminate X.
Ltac var_of Et := rewrite Et; cbn [xe_body]; unfold x_variable; pick_type; cbn [orb existsb];
  cbn [get_sample get_mmap get_comm get_fork get_exit get_lost get_throttle get_aux get_itrace get_lost_samples
         get_switch get_namespaces get_cgroup get_ksymbol get_bpf get_auxinfo get_auxtrace get_auxerror
         get_id_index get_thread_map get_stat_config get_stat get_stat_round get_time_conv].
Ltac info_found Et Hi :=
  intros _ _; eexists; split; [|exact Hi]; rewrite Et; cbn [xe_body]; unfold info_of; pick_type; reflexivity.

Ltac begin Hs :=
    revert Hs;
    repeat match goal with |- context [64 <=? ?b] =>
      let x := eval vm_compute in (64 <=? b) in change (64 <=? b) with x end;
    pick_type; cbn [orb]; cbv iota;
    unfold omap; intros Hs; apply obind_ok in Hs as (m & Hs & Hbb); apply Ok_inj in Hbb; subst.

Lemma plain_off e ty fixed off :
  In (ty, fixed) plain_events -> ev_type e = ty -> event_data_size e = Ok off -> off = fixed + 0.
Proof.
  intros H1 H2 D. rewrite (plain_event_size e ty fixed H1 H2) in D. destruct (_ <? _); [discriminate|].
  apply Ok_inj in D. lia.
Qed.
Lemma closed_off e ty fixed off :
  In (ty, fixed) closed_events -> ev_type e = ty -> event_data_size e = Ok off -> off = fixed + 0.
Proof.
  intros H1 H2 D. rewrite (closed_event_size e ty fixed H1 H2) in D. destruct (_ =? _); [|discriminate].
  apply Ok_inj in D. lia.
Qed.
Lemma counted (n w : N) : w mod 8 = 0 -> n * w < two64 -> w64 (n * w) = n * w /\ (n * w) mod 8 = 0.
Proof.
  intros H1 H2. split; [now apply w64_small|]. rewrite (N.div_mod w 8) by discriminate. rewrite H1, N.add_0_r.
  replace (n * (8 * (w / 8))) with (8 * (n * (w / 8))) by lia. apply mod8.
Qed.

Ltac plain Et f :=
  match goal with D : event_data_size ?e = Ok ?off |- _ =>
    apply (size_back _ e off _ 0 f); auto; [rewrite Et; reflexivity|var_of Et; reflexivity|
      apply (plain_off e _ f off) with (2 := Et); [cbn; auto 20|exact D]|..] end.
Ltac closed Et f :=
  match goal with D : event_data_size ?e = Ok ?off |- _ =>
    apply (size_back _ e off _ 0 f); auto; [rewrite Et; reflexivity|var_of Et; reflexivity|
      apply (closed_off e _ f off) with (2 := Et); [cbn; auto 20|exact D]|
      match goal with N : _ -> _ -> _ -> _ |- _ => apply N; rewrite Et; reflexivity end|no_sample Et] end.

Lemma event_size ord s e off x :
  native s -> readable_event s e off -> cpu_clear s e off -> bpf_plain ord e ->
  serialize s e = Ok x -> x_size s x = Ok (ev_size e).
Proof.
  intros Hn R Hc Hp Hx. unfold serialize in Hx. apply obind_ok in Hx as (b & Hs & Hx). apply Ok_inj in Hx.
  assert (D := re_data _ _ _ R). assert (He := re_raw _ _ _ R).
  assert (K : exists f, In (ev_type e, f) known_events).
  { destruct (data_size_total e He) as [Q|(n & f & Q & Hk & _)]; [rewrite D in Q; discriminate|]. eauto. }
  destruct K as (f & K). remember (ev_type e) as ty eqn:Et. symmetry in Et.
  unfold ser_user, ser_kernel in Hs. rewrite Et in Hs.
  assert (NI : supported_type (ev_type e) = false -> ev_type e <> R_SAMPLE -> contains_info s (ev_type e) = true ->
     exists i, info_of (ev_type e) (xe_body x) = Some i /\ ser_info s e = Ok i).
  { intros N1 N2 N3. rewrite no_info in N3; auto. discriminate. }
  assert (Tx : xe_type x = ev_type e) by (subst x; symmetry; exact Et).
  cbn [known_events text_events plain_events closed_events map fst app In] in K.
  repeat (destruct K as [K|K];
    [injection K as K _; symmetry in K; rewrite K in Et, Hs, Hx; clear K|]); [..|contradiction].
  - begin Hs. unfold ser_mmap in Hs. peel Hs. peel_text Hs. apply obind_ok in Hs as (i & Hi & Hs). apply Ok_inj in Hs. subst m.
    destruct (text_variable e R_MMAP 40 4096 off txt) as (v & V1 & V2 & V3); auto; [cbn; auto 6|].
    apply (size_back s e off _ v 40); auto; [rewrite Et; reflexivity| |info_found Et Hi|no_sample Et].
    var_of Et. cbn [xm_filename obind]. now rewrite V1, V2.
  - begin Hs. unfold ser_comm in Hs. peel Hs. peel_text Hs. apply obind_ok in Hs as (i & Hi & Hs). apply Ok_inj in Hs. subst m.
    destruct (text_variable e R_COMM 16 4096 off txt) as (v & V1 & V2 & V3); auto; [cbn; auto 6|].
    apply (size_back s e off _ v 16); auto; [rewrite Et; reflexivity| |info_found Et Hi|no_sample Et].
    var_of Et. cbn [xc_comm obind]. now rewrite V1, V2.
  - begin Hs. unfold ser_mmap2 in Hs. peel Hs. apply obind_ok in Hs as (((((maj & min) & ino) & gen) & bid) & Hd & Hs).
    peel Hs. peel_text Hs. apply obind_ok in Hs as (i & Hi & Hs). apply Ok_inj in Hs. subst m.
    destruct (text_variable e R_MMAP2 72 4096 off txt) as (v & V1 & V2 & V3); auto; [cbn; auto 6|].
    apply (size_back s e off _ v 72); auto; [rewrite Et; reflexivity| |info_found Et Hi|no_sample Et].
    var_of Et. cbn [xm_filename obind]. now rewrite V1, V2.
  - begin Hs. unfold ser_cgroup in Hs. peel Hs. peel_text Hs. apply obind_ok in Hs as (i & Hi & Hs). apply Ok_inj in Hs. subst m.
    destruct (text_variable e R_CGROUP 16 4096 off txt) as (v & V1 & V2 & V3); auto; [cbn; auto 6|].
    apply (size_back s e off _ v 16); auto; [rewrite Et; reflexivity| |info_found Et Hi|no_sample Et].
    var_of Et. cbn [xcg_path obind]. now rewrite V1, V2.
  - begin Hs. unfold ser_ksymbol in Hs. peel Hs. peel_text Hs. apply obind_ok in Hs as (i & Hi & Hs). apply Ok_inj in Hs. subst m.
    destruct (text_variable e R_KSYMBOL 24 512 off txt) as (v & V1 & V2 & V3); auto; [cbn; auto 6|].
    apply (size_back s e off _ v 24); auto; [rewrite Et; reflexivity| |info_found Et Hi|no_sample Et].
    var_of Et. cbn [xk_name obind]. now rewrite V1, V2.
  - begin Hs. unfold ser_lost in Hs. peel Hs. apply obind_ok in Hs as (i & Hi & Hs). apply Ok_inj in Hs. subst m.
    plain Et 24; [info_found Et Hi|no_sample Et].
  - begin Hs. unfold ser_fork in Hs. peel Hs. apply obind_ok in Hs as (i & Hi & Hs). apply Ok_inj in Hs. subst m.
    plain Et 32; [info_found Et Hi|no_sample Et].
  - begin Hs. unfold ser_fork in Hs. peel Hs. apply obind_ok in Hs as (i & Hi & Hs). apply Ok_inj in Hs. subst m.
    plain Et 32; [info_found Et Hi|no_sample Et].
  - begin Hs. unfold ser_throttle in Hs. peel Hs. apply obind_ok in Hs as (i & Hi & Hs). apply Ok_inj in Hs. subst m.
    plain Et 32; [info_found Et Hi|no_sample Et].
  - begin Hs. unfold ser_throttle in Hs. peel Hs. apply obind_ok in Hs as (i & Hi & Hs). apply Ok_inj in Hs. subst m.
    plain Et 32; [info_found Et Hi|no_sample Et].
  - begin Hs. plain Et 8; [contradiction|]. intros _. eexists. split; [reflexivity|exact Hs].
  - begin Hs. unfold ser_aux in Hs. peel Hs. apply obind_ok in Hs as (i & Hi & Hs). apply Ok_inj in Hs. subst m.
    plain Et 32; [info_found Et Hi|no_sample Et].
  - begin Hs. unfold ser_itrace in Hs. peel Hs. apply obind_ok in Hs as (i & Hi & Hs). apply Ok_inj in Hs. subst m.
    plain Et 16; [info_found Et Hi|no_sample Et].
  - begin Hs. unfold ser_lost_samples in Hs. peel Hs. apply obind_ok in Hs as (i & Hi & Hs). apply Ok_inj in Hs. subst m.
    plain Et 16; [info_found Et Hi|no_sample Et].
  - begin Hs. unfold ser_switch in Hs. apply obind_ok in Hs as ((pid & tid) & _ & Hs).
    apply obind_ok in Hs as (i & Hi & Hs). apply Ok_inj in Hs. subst m.
    plain Et 8; [info_found Et Hi|no_sample Et].
  - begin Hs. unfold ser_switch in Hs. apply obind_ok in Hs as ((pid & tid) & _ & Hs).
    apply obind_ok in Hs as (i & Hi & Hs). apply Ok_inj in Hs. subst m.
    plain Et 16; [info_found Et Hi|no_sample Et].
  - closed Et 8.
  - begin Hs. closed Et 48.
  - begin Hs. closed Et 48.
  - begin Hs. closed Et 24.
  - begin Hs. unfold ser_id_index in Hs. peel Hs. apply entries_len in Hs as (E1 & E2).
    change (of_le (slice e 8 8)) with (number_at e 8) in *.
    apply (array_event_size e R_ID_INDEX 8 16 32 off He) in D as (D1 & D2 & _); [|cbn; auto|exact Et].
    assert (S16 := ev_size_bound e (proj1 He)). unfold two16 in S16.
    destruct (counted (len m) 32) as (W1 & W2); [reflexivity|unfold two64; lia|].
    apply (size_back s e off _ (len m * 32) 16); auto; [rewrite Et; reflexivity| |lia|apply NI; rewrite Et; reflexivity|no_sample Et].
    var_of Et. cbn [obind]. now rewrite W1, W2.
  - begin Hs. unfold ser_stat_config in Hs. peel Hs. apply entries_len in Hs as (E1 & E2).
    change (of_le (slice e 8 8)) with (number_at e 8) in *.
    apply (array_event_size e R_STAT_CONFIG 8 16 16 off He) in D as (D1 & D2 & _); [|cbn; auto|exact Et].
    assert (S16 := ev_size_bound e (proj1 He)). unfold two16 in S16.
    destruct (counted (len m) 16) as (W1 & W2); [reflexivity|unfold two64; lia|].
    apply (size_back s e off _ (len m * 16) 16); auto; [rewrite Et; reflexivity| |lia|apply NI; rewrite Et; reflexivity|no_sample Et].
    var_of Et. cbn [obind]. now rewrite W1, W2.
  - begin Hs. unfold ser_thread_map in Hs. peel Hs. apply entries_len in Hs as (E1 & E2).
    change (of_le (slice e 8 8)) with (number_at e 8) in *.
    apply (array_event_size e R_THREAD_MAP 8 16 24 off He) in D as (D1 & D2 & _); [|cbn; auto|exact Et].
    assert (S16 := ev_size_bound e (proj1 He)). unfold two16 in S16.
    destruct (counted (len m) 24) as (W1 & W2); [reflexivity|unfold two64; lia|].
    apply (size_back s e off _ (len m * 24) 16); auto; [rewrite Et; reflexivity| |lia|apply NI; rewrite Et; reflexivity|no_sample Et].
    var_of Et. cbn [obind]. now rewrite W1, W2.
  - begin Hs. unfold ser_namespaces in Hs. peel Hs. apply obind_ok in Hs as (ls & Hl & Hs). apply obind_ok in Hs as (i & Hi & Hs).
    apply Ok_inj in Hs. subst m. apply entries_len in Hl as (E1 & E2).
    change (of_le (slice e 16 8)) with (number_at e 16) in *.
    apply (namespaces_size e off He Et) in D as (_ & D1 & D2).
    assert (S16 := ev_size_bound e (proj1 He)). unfold two16 in S16.
    destruct (counted (len ls) 16) as (W1 & W2); [reflexivity|unfold two64; lia|].
    apply (size_back s e off _ (len ls * 16) 24); auto; [rewrite Et; reflexivity| |lia|info_found Et Hi|no_sample Et].
    var_of Et. cbn [obind xn_links]. now rewrite W1, W2.
  - begin Hs. unfold ser_auxinfo in Hs. peel Hs. apply obind_ok in Hs as (l & Hl & Hs). apply Ok_inj in Hs. subst m.
    apply entries_len in Hl as (E1 & E2). rewrite (auxtrace_info_size e He Et) in D.
    destruct (N.leb_spec 16 (ev_size e)) as [H16|]; [|discriminate]. destruct (N.eqb_spec (ev_size e mod 8) 0) as [M8|]; [|discriminate].
    cbn [andb] in D. apply Ok_inj in D. assert (S16 := ev_size_bound e (proj1 He)). unfold two16 in S16.
    rewrite sub64_small in E1 by (unfold two64; lia).
    destruct (counted (len l) 8) as (W1 & W2); [reflexivity|unfold two64; lia|].
    apply (size_back s e off _ (len l * 8) 16); auto; [rewrite Et; reflexivity| |lia|apply NI; rewrite Et; reflexivity|no_sample Et].
    var_of Et. cbn [obind xai_priv]. now rewrite W1, W2.
  - begin Hs. unfold ser_auxerror in Hs. peel Hs. cbv zeta in Hs.
    apply (auxtrace_error_size e off He Et) in D as (D1 & Sz & T).
    assert (Le := re_len _ _ _ R). assert (S16 := ev_size_bound e (proj1 He)). unfold two16 in S16.
    rewrite sub64_small in Hs by (unfold two64; lia).
    rewrite ev_strnlen_ok in Hs by lia. cbn [obind] in Hs.
    destruct T as (t & T1 & T2 & T3 & T4).
    set (mx := N.min 64 (ev_size e - 40)) in *.
    assert (Lt : len t + 1 <= mx) by (unfold mx; lia).
    assert (En : strnlen (slice e 40 mx) = len t).
    { rewrite <- (firstn_skipn (N.to_nat (len t + 1)) (slice e 40 mx)).
      rewrite slice_firstn by exact Lt. rewrite T2, <- app_assoc. now apply strnlen_app. }
    rewrite En in Hs. apply obind_ok in Hs as (msg & Hr & Hs). apply Ok_inj in Hs. subst m.
    assert (Lm : len msg = len t).
    { unfold mem_read in Hr. destruct (N.leb_spec (40 + len t) (len e)); [|discriminate]. apply Ok_inj in Hr. subst msg.
      now apply len_slice. }
    apply (size_back s e off _ (8 * (len t / 8 + 1)) 40); auto; [rewrite Et; reflexivity| |lia|apply NI; rewrite Et; reflexivity|no_sample Et].
    var_of Et. cbn [obind xer_msg]. rewrite Lm, aligned_string_length_value by (unfold two64; lia). cbn [obind]. now rewrite mod8.
  - begin Hs. unfold ser_time_conv in Hs. peel Hs. rewrite (time_conv_size e He Et) in D.
    destruct (N.eqb_spec (ev_size e) 56) as [S56|S56].
    + peel Hs. apply Ok_inj in Hs. subst m. rewrite orb_true_r in D. apply Ok_inj in D.
      apply (size_back s e off _ 24 32); auto; [rewrite Et; reflexivity| |lia|apply NI; rewrite Et; reflexivity|no_sample Et].
      var_of Et. reflexivity.
    + apply Ok_inj in Hs. subst m. rewrite orb_false_r in D. destruct (N.eqb_spec (ev_size e) 32); [|discriminate]. apply Ok_inj in D.
      apply (size_back s e off _ 0 32); auto; [rewrite Et; reflexivity| |lia|apply NI; rewrite Et; reflexivity|no_sample Et].
      var_of Et. reflexivity.
  - begin Hs. destruct (bpf_entries s e m ord Et Hp Hs) as (E1 & E2).
    assert (Hi : ser_info s e = Ok (xb_info m)).
    { unfold ser_bpf in Hs. peel_text Hs. peel Hs. apply obind_ok in Hs as (kvs & Hk & Hs).
      apply obind_ok in Hs as (i & Hi & Hs). apply Ok_inj in Hs. now subst m. }
    assert (Le := re_len _ _ _ R). assert (S16 := ev_size_bound e (proj1 He)). unfold two16 in S16.
    rewrite (bpf_size e He Et) in D. destruct (_ && _); [|discriminate]. apply Ok_inj in D.
    destruct (counted (len (xb_metadata m)) 320) as (W1 & W2); [reflexivity|unfold two64; lia|].
    rewrite <- E1, W1 in D.
    apply (size_back s e off _ (len (xb_metadata m) * 320) 528); auto; [rewrite Et; reflexivity| |info_found Et Hi|no_sample Et].
    var_of Et. cbn [obind]. now rewrite W1, W2.
Qed.
