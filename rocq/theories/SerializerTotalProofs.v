(** Every readable event is made into a message. *)
From Verif Require Import Base BytesModel BytesProofs BytesMoreProofs BufferModel BufferProofs EventSizeModel
  EventSizeSpec EventSizeProofs TextModel TextProofs SampleModel SampleSpec SampleProofs SampleReadProofs
  SampleSafeProofs SampleMainProofs FileModel FileProofs BuilderProofs SerializerModel SerializerSpec
  SerializerProofs SerializerSizeProofs SerializerSampleProofs SerializerMessageProofs
  SerializerSampleOfProofs SerializerBackProofs SerializerKindProofs SerializerMoreKindProofs
  SerializerLastKindProofs SerializerMainProofs SerializerLengthProofs.
From Coq Require Import Permutation.
Local Open Scope N_scope.

(** ** The sample fields *)
Lemma attr_reader s p a : native s -> attr_of s p a ->
  (forall id b, In (id, b) (ss_readers s) -> reader_find id (ss_readers s) = Some b) ->
  reader_for_id s (s_id p) = Some a /\ exists k, In (k, a) (ss_readers s).
Proof.
  intros Hn H Hf. unfold attr_of in H. unfold reader_for_id. destruct (s_id p =? 0).
  - destruct H as (id & r & ->). split; [reflexivity|]. exists id. now left.
  - split; [now apply Hf|]. eauto.
Qed.

(** Ids occur once. *)
Fixpoint ascending (lo : N) (m : list (N * attr)) : Prop :=
  match m with [] => True | (k, _) :: r => lo <= k /\ ascending (k + 1) r end.
Lemma ascending_le lo lo' m : lo <= lo' -> ascending lo' m -> ascending lo m.
Proof. destruct m as [|(k & b) m]; cbn; [auto|]. intros L (A & B). split; [lia|exact B]. Qed.
Lemma ascending_set id a m : forall lo, lo <= id -> ascending lo m -> ascending lo (reader_set id a m).
Proof.
  induction m as [|(k & b) m IH]; intros lo L; cbn [reader_set ascending]; [auto|]. intros (A & B).
  destruct (N.ltb_spec id k); [cbn [ascending]; repeat split; auto; lia|].
  destruct (N.eqb_spec id k) as [->|]; [cbn [ascending]; auto|]. cbn [ascending]. split; [exact A|].
  apply IH; [lia|exact B].
Qed.
Lemma ascending_find m : forall lo, ascending lo m -> forall id b, In (id, b) m -> lo <= id /\ reader_find id m = Some b.
Proof.
  induction m as [|(k & b) m IH]; intros lo; cbn [ascending In]; [intros _ ? ? []|].
  intros (A & B) id c [X|X].
  - injection X as -> ->. split; [exact A|]. cbn [reader_find]. now rewrite N.eqb_refl.
  - destruct (IH _ B id c X) as (C & D). split; [lia|]. cbn [reader_find].
    destruct (N.eqb_spec k id); [lia|exact D].
Qed.
Lemma created_ascending l : forall s0 s, ascending 0 (ss_readers s0) -> create_readers l s0 = Ok s -> ascending 0 (ss_readers s).
Proof.
  induction l as [|(a & ids) l IH]; intros s0 s H; cbn [create_readers].
  - intros X. apply Ok_inj in X. now subst.
  - intros X. apply obind_ok in X as (s1 & X1 & X). apply (IH s1); auto.
    unfold create_reader, set_positions in X1. cbn [ss_sample_pos ss_other_pos ss_readers ss_swap] in X1.
    destruct (id_positions (at_sample_type a)) as (sp & op). destruct (_ && _); [|discriminate].
    apply Ok_inj in X1. subst s1. cbn [ss_readers].
    generalize (match ids with [] => [0] | _ => ids end). intros is_. revert H. generalize (ss_readers s0).
    induction is_ as [|i is_ IHi]; intros m Hm; cbn [fold_left]; [exact Hm|].
    apply IHi. apply ascending_set; [lia|exact Hm].
Qed.

Lemma info_read l s e off :
  native_serializer l s -> readable_event s e off -> cpu_clear s e off -> convertible s e ->
  contains_info s (ev_type e) = true -> exists p a, read_info_and_attr s e = Ok (p, a).
Proof.
  intros Hs R Hcpu V Hc. assert (Hn := native_of _ _ Hs). destruct (cv_info _ _ V Hc) as (a & p & Ha & Hall & Hp).
  assert (As : ascending 0 (ss_readers s)) by (destruct Hs as (Hs & _); now apply (created_ascending l (new_serializer false))).
  destruct (attr_reader s p a Hn Ha) as (Hr & k & Hin).
  { intros id b Hi. now apply (ascending_find _ 0 As). }
  destruct R as [He Hle Hd _].
  destruct (nv_readers s Hn k a Hin) as (Hst & Hone & Hsp & Hop).
  assert (G := read_anything a false e He Hst). rewrite Hp in G.
  destruct G as (Ht & off' & pre & d & post & Hd' & E & Lp & Hsz & Hfb & Hok & Hh & Hrd & _ & _ & _ & _ & Him).
  rewrite Hd in Hd'. apply Ok_inj in Hd'. subst off'.
  assert (H16 := ev_size_bound e (proj1 He)).
  assert (post = []) as ->. { apply len_0. assert (L := f_equal (@len N) E). rewrite !len_app in L. lia. }
  rewrite app_nil_r in E.
  assert (Hid : (carries a (ev_type e) B_ID && carries a (ev_type e) B_IDENTIFIER) = false).
  { unfold carries. unfold one_id in Hone. destruct (N.testbit (at_sample_type a) B_ID); [|reflexivity].
    destruct (N.testbit (at_sample_type a) B_IDENTIFIER); [discriminate|]. cbn [andb]. apply andb_false_r. }
  assert (CW : carries a (ev_type e) B_CPU = true -> slice e (off + cpu_word a (ev_type e) + 4) 4 = [0; 0; 0; 0]).
  { intros C. apply (Hcpu k a Hin C). assert (X := cpu_word_inside a _ p C). rewrite Hle. lia. }
  assert (Im : image (all_chunks a (ev_type e) p) d).
  { apply Him; auto. intros C. rewrite <- (CW C). assert (X := cpu_word_inside a _ p C).
    rewrite <- (slice_inner pre d []) by lia. rewrite app_nil_r, <- E, Lp. f_equal. lia. }
  assert (Hself : recovered a (ev_type e) p p).
  { assert (W := rewrite_same a e p He ltac:(unfold two64, two16 in *; lia) Hst Hp Hid).
    destruct (roundtrip a p e e He ltac:(unfold two64, two16 in *; lia) Hok Hrd Hh) as (p2 & E2 & R2).
    { apply W. intros o Ho. rewrite Hd in Ho. apply Ok_inj in Ho. subst o. exact CW. }
    rewrite Hp in E2. apply Ok_inj in E2. now subst p2. }
  assert (H8 : off mod 8 = 0).
  { destruct (data_size_total e He) as [X|(n & f & X & _ & _ & _ & M)]; [congruence|]. congruence. }
  exists p, a. unfold read_info_and_attr. rewrite (reader_lookup s e off a p k pre d); auto. rewrite Hr. cbn [obind].
  now rewrite (nv_swap s Hn), Hp.
Qed.

Lemma info_total l s e off :
  native_serializer l s -> readable_event s e off -> cpu_clear s e off -> convertible s e ->
  exists i, ser_info s e = Ok i.
Proof.
  intros Hs R Hc V. unfold ser_info. destruct (contains_info s (ev_type e)) eqn:C; cbn [negb]; [|eauto].
  destruct (info_read l s e off Hs R Hc V C) as (p & a & ->). cbn [obind]. eauto.
Qed.

Lemma sample_total l s e off :
  native_serializer l s -> readable_event s e off -> cpu_clear s e off -> convertible s e ->
  ev_type e = R_SAMPLE -> exists m, ser_sample s e = Ok m.
Proof.
  intros Hs R Hc V Es.
  assert (C : contains_info s (ev_type e) = true) by (unfold contains_info; rewrite Es; reflexivity).
  destruct (info_read l s e off Hs R Hc V C) as (p & a & Hr).
  assert (F := sample_known s e off a p (native_of _ _ Hs) R Hc C Hr).
  unfold ser_sample. rewrite Hr. cbn [obind]. set (has := fun b => N.testbit (at_sample_type a) b).
  assert (Rd : exists r, (if has B_READ then let! r := ser_read a p in Ok (Some r) else Ok None) = Ok r).
  { destruct (has B_READ); [|eauto]. unfold ser_read.
    destruct (N.testbit (at_read_format a) F_GROUP); [destruct (s_group p)|]; cbn [obind]; eauto. }
  destruct Rd as (r & ->). cbn [obind].
  assert (Sf := sf_self _ _ _ _ _ F).
  assert (Rc := rc_callchain _ _ _ _ Sf). assert (Rb := rc_branch _ _ _ _ Sf).
  assert (Hw := sf_hw _ _ _ _ _ F). unfold hw_idx_agrees in Hw.
  rewrite Es in Rc, Rb, Hw. rewrite carries_sample in Rc, Rb. try rewrite carries_sample in Hw.
  change (N.testbit (at_sample_type a) B_CALLCHAIN) with (has B_CALLCHAIN) in *.
  change (N.testbit (at_sample_type a) B_BRANCH_STACK) with (has B_BRANCH_STACK) in *.
  destruct (has B_CALLCHAIN); [rewrite Rc|]; cbn [obind];
  (destruct (has B_BRANCH_STACK); [rewrite Rb, (Hw eq_refl)|]; cbn [obind]; eauto).
Qed.

(** ** The data part *)
Lemma num_total e o w : o + w <= len e -> num e o w = Ok (of_le (slice e o w)).
Proof. intros H. unfold num, mem_read. destruct (N.leb_spec (o + w) (len e)); [reflexivity|lia]. Qed.

Lemma c_str_total e o n : In 0 (slice e o n) -> exists t, ev_c_str e o = Ok t.
Proof.
  intros H. unfold ev_c_str. cbv zeta. unfold slice in H.
  assert (H' : In 0 (skipn (N.to_nat o) e)) by (rewrite <- (firstn_skipn (N.to_nat n)); apply in_app_iff; auto).
  apply strnlen_nul in H'.
  destruct (N.ltb_spec (strnlen (skipn (N.to_nat o) e)) (len (skipn (N.to_nat o) e))); [eauto|lia].
Qed.

Lemma text_total e ty fixed max off :
  raw_event e -> In (ty, fixed, max) text_events -> ev_type e = ty -> event_data_size e = Ok off ->
  exists t, ev_c_str e fixed = Ok t.
Proof.
  intros He Hin Ht Hd. apply (text_event_size e ty fixed max off He Hin Ht) in Hd as (_ & v & -> & t & T1 & T2 & _).
  apply (c_str_total e fixed (len t + 1)). rewrite T2. apply in_app_iff. right. now left.
Qed.

Lemma entries_total {A} e (f : N -> outcome A) off size nr :
  off + size * nr <= len e -> (forall i, i < nr -> exists x, f (off + size * i) = Ok x) ->
  exists l, entries_of e off size nr f = Ok l.
Proof.
  intros H F. unfold entries_of. destruct (N.ltb_spec (len e) (off + size * nr)); [lia|].
  assert (G : forall n o, (forall i, i < N.of_nat n -> exists x, f (o + size * i) = Ok x) ->
               exists l, entries_go f o size n = Ok l).
  { induction n as [|n IH]; intros o Fo; cbn [entries_go]; [eauto|].
    destruct (Fo 0) as (x & X); [lia|]. replace (o + size * 0) with o in X by lia. rewrite X. cbn [obind].
    destruct (IH (o + size)) as (l & ->).
    - intros i Hi. destruct (Fo (i + 1)) as (y & Y); [lia|]. exists y. rewrite <- Y. f_equal. lia.
    - cbn [obind]. eauto. }
  apply G. intros i Hi. apply F. lia.
Qed.

Ltac nums := repeat (rewrite num_total by lia; cbn [obind]).

Lemma event_total l ord s e off :
  native_serializer l s -> readable_event s e off -> cpu_clear s e off -> convertible s e -> bpf_plain ord e ->
  exists x, serialize s e = Ok x.
Proof.
  intros Hs R Hc V Hp. assert (D := re_data _ _ _ R). assert (He := re_raw _ _ _ R). assert (Le := re_len _ _ _ R).
  assert (S16 := ev_size_bound e (proj1 He)). unfold two16 in S16.
  assert (K : exists f, In (ev_type e, f) known_events /\ f <= len e).
  { destruct (data_size_total e He) as [Q|(n & f & Q & Hk & Q1 & Q2 & _)]; [rewrite D in Q; discriminate|].
    exists f. split; [exact Hk|lia]. }
  destruct K as (f & K & Lf).
  destruct (info_total l s e off Hs R Hc V) as (i & Hi).
  unfold serialize. cut (exists b, (if 64 <=? ev_type e then ser_user s e else ser_kernel s e) = Ok b).
  { intros (b & ->). cbn [obind]. eauto. }
  remember (ev_type e) as ty eqn:Et. symmetry in Et. unfold ser_user, ser_kernel. rewrite Et.
  cbn [known_events text_events plain_events closed_events map fst app In] in K.
  repeat (destruct K as [K|K]; [injection K as K <-; symmetry in K; rewrite K in Et |- *; clear K|]); [..|contradiction];
  repeat match goal with |- context [64 <=? ?b] =>
    let x := eval vm_compute in (64 <=? b) in change (64 <=? b) with x end;
  pick_type; cbn [orb]; cbv iota; unfold omap.
  - destruct (text_total e R_MMAP 40 4096 off) as (t & T); auto; [cbn; auto 6|].
    unfold ser_mmap. nums. rewrite T. cbn [obind]. rewrite Hi. cbn [obind]. eauto.
  - destruct (text_total e R_COMM 16 4096 off) as (t & T); auto; [cbn; auto 6|].
    unfold ser_comm. nums. rewrite T. cbn [obind]. rewrite Hi. cbn [obind]. eauto.
  - destruct (text_total e R_MMAP2 72 4096 off) as (t & T); auto; [cbn; auto 6|].
    unfold ser_mmap2. nums. destruct (N.testbit (ev_misc e) 14) eqn:M14.
    + assert (B := cv_build_id _ _ V Et M14).
      assert (En : of_le (slice e 40 1) <= 20).
      { assert (BS := byte_slice e 40 1 0 eq_refl). change (40 + 0) with 40 in BS. rewrite <- BS in B.
        assert (Ls := len_slice e 40 1 ltac:(lia)). unfold byte in B. change (N.to_nat 0) with O in B.
        destruct (slice e 40 1) as [|b [|? ?]]; unfold len in Ls; cbn [length] in Ls; try (exfalso; lia).
        cbn [nth] in B. cbn [of_le]. lia. }
      nums. destruct (N.ltb_spec 20 (of_le (slice e 40 1))) as [|_]; [lia|].
      unfold mem_read. destruct (N.leb_spec (44 + of_le (slice e 40 1)) (len e)); [|lia]. cbn [obind]. nums.
      rewrite T. cbn [obind]. rewrite Hi. cbn [obind]. eauto.
    + nums. rewrite T. cbn [obind]. rewrite Hi. cbn [obind]. eauto.
  - destruct (text_total e R_CGROUP 16 4096 off) as (t & T); auto; [cbn; auto 6|].
    unfold ser_cgroup. nums. rewrite T. cbn [obind]. rewrite Hi. cbn [obind]. eauto.
  - destruct (text_total e R_KSYMBOL 24 512 off) as (t & T); auto; [cbn; auto 6|].
    unfold ser_ksymbol. nums. rewrite T. cbn [obind]. rewrite Hi. cbn [obind]. eauto.
  - unfold ser_lost. nums. rewrite Hi. cbn [obind]. eauto.
  - unfold ser_fork. nums. rewrite Hi. cbn [obind]. eauto.
  - unfold ser_fork. nums. rewrite Hi. cbn [obind]. eauto.
  - unfold ser_throttle. nums. rewrite Hi. cbn [obind]. eauto.
  - unfold ser_throttle. nums. rewrite Hi. cbn [obind]. eauto.
  - destruct (sample_total l s e off Hs R Hc V Et) as (m & ->). cbn [obind]. eauto.
  - unfold ser_aux. nums. rewrite Hi. cbn [obind]. eauto.
  - unfold ser_itrace. nums. rewrite Hi. cbn [obind]. eauto.
  - unfold ser_lost_samples. nums. rewrite Hi. cbn [obind]. eauto.
  - unfold ser_switch. rewrite Et. change (R_SWITCH =? R_SWITCH_CPU_WIDE) with false. cbn [obind]. rewrite Hi. cbn [obind]. eauto.
  - unfold ser_switch. rewrite Et. change (R_SWITCH_CPU_WIDE =? R_SWITCH_CPU_WIDE) with true. cbv iota. nums. rewrite Hi. cbn [obind]. eauto.
  - eauto.
  - unfold ser_auxtrace. nums. eauto.
  - unfold ser_stat. nums. eauto.
  - unfold ser_stat_round. nums. eauto.
  - apply (array_event_size e R_ID_INDEX 8 16 32 off He) in D as (D1 & D2 & _); [|cbn; auto|exact Et].
    unfold ser_id_index. nums. change (of_le (slice e 8 8)) with (number_at e 8).
    match goal with |- context [entries_of e 16 32 (number_at e 8) ?f] => destruct (entries_total e f 16 32 (number_at e 8)) as (ls & ->) end;
      [lia| |cbn [obind]; eauto]. intros j Hj. nums. eauto.
  - apply (array_event_size e R_STAT_CONFIG 8 16 16 off He) in D as (D1 & D2 & _); [|cbn; auto|exact Et].
    unfold ser_stat_config. nums. change (of_le (slice e 8 8)) with (number_at e 8).
    match goal with |- context [entries_of e 16 16 (number_at e 8) ?f] => destruct (entries_total e f 16 16 (number_at e 8)) as (ls & ->) end;
      [lia| |cbn [obind]; eauto]. intros j Hj. nums. eauto.
  - apply (array_event_size e R_THREAD_MAP 8 16 24 off He) in D as (D1 & D2 & D3); [|cbn; auto|exact Et].
    unfold ser_thread_map. nums. change (of_le (slice e 8 8)) with (number_at e 8).
    match goal with |- context [entries_of e 16 24 (number_at e 8) ?f] => destruct (entries_total e f 16 24 (number_at e 8)) as (ls & ->) end;
      [lia| |cbn [obind]; eauto]. intros j Hj. nums.
    destruct (c_str_total e (16 + 24 * j + 8) 16) as (t & ->); [now apply D3|]. cbn [obind]. eauto.
  - apply (namespaces_size e off He Et) in D as (_ & D1 & D2).
    unfold ser_namespaces. nums. change (of_le (slice e 16 8)) with (number_at e 16).
    match goal with |- context [entries_of e 24 16 (number_at e 16) ?f] => destruct (entries_total e f 24 16 (number_at e 16)) as (ls & ->) end;
      [lia| |cbn [obind]; rewrite Hi; cbn [obind]; eauto]. intros j Hj. nums. eauto.
  - rewrite (auxtrace_info_size e He Et) in D.
    destruct (N.leb_spec 16 (ev_size e)) as [H16|]; [|discriminate].
    unfold ser_auxinfo. nums. rewrite sub64_small by (unfold two64; lia).
    match goal with |- context [entries_of e 16 8 ?n ?f] => destruct (entries_total e f 16 8 n) as (ls & ->) end;
      [lia| |cbn [obind]; eauto]. intros j Hj. rewrite num_total by lia. eauto.
  - apply (auxtrace_error_size e off He Et) in D as (D1 & Sz & T). destruct T as (t & T1 & T2 & T3 & T4).
    unfold ser_auxerror. nums. rewrite sub64_small by (unfold two64; lia).
    rewrite ev_strnlen_ok by lia. cbn [obind].
    assert (Ls := strnlen_le (slice e 40 (N.min 64 (ev_size e - 40)))). rewrite len_slice in Ls by lia.
    unfold mem_read. destruct (N.leb_spec (40 + strnlen (slice e 40 (N.min 64 (ev_size e - 40)))) (len e)); [|lia].
    cbn [obind]. eauto.
  - rewrite (time_conv_size e He Et) in D. unfold ser_time_conv. nums.
    destruct (N.eqb_spec (ev_size e) 56); nums; cbn [obind]; eauto.
  - destruct (Hp Et) as (P1 & P2 & P3 & P4). assert (B := cv_bpf _ _ V Et).
    unfold ser_bpf. destruct (c_str_total e 8 512 P1) as (t & ->). cbn [obind]. nums.
    change (of_le (slice e 520 8)) with (number_at e 520).
    match goal with |- context [entries_of e 528 320 (number_at e 520) ?f] => destruct (entries_total e f 528 320 (number_at e 520)) as (ls & ->) end;
      [lia| |cbn [obind]; rewrite Hi; cbn [obind]; eauto]. intros j Hj. destruct (P2 j Hj) as (Q1 & Q2).
    destruct (c_str_total e _ _ Q1) as (k & ->). cbn [obind]. destruct (c_str_total e _ _ Q2) as (v & ->). cbn [obind]. eauto.
Qed.

Lemma event_length l ord s e off x :
  native_serializer l s -> readable_event s e off -> cpu_clear s e off -> bpf_plain ord e ->
  serialize s e = Ok x -> x_size s x = Ok (ev_size e).
Proof. intros Hn. exact (event_size ord s e off x (native_of _ _ Hn)). Qed.

(** Both ways at once. *)
Lemma event_there_and_back l ord s e off :
  native_serializer l s -> readable_event s e off -> cpu_clear s e off -> bpf_plain ord e ->
  (forall m, Permutation m (ord m)) -> convertible s e ->
  exists x, serialize s e = Ok x /\ x_size s x = Ok (ev_size e) /\
    exists e', deserialize ord s x = Ok e' /\ same_event s off e e'.
Proof.
  intros Hn R Hc Hp Ho V. destruct (event_total l ord s e off Hn R Hc V Hp) as (x & Hx).
  exists x. split; [exact Hx|]. split; [eapply event_length; eauto|eapply event_same; eauto].
Qed.
