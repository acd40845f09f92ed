(** A file that is read and written again. *)
From Verif Require Import Base BytesModel BytesProofs BytesMoreProofs BufferModel BufferSpec BufferProofs TextModel TextProofs Assoc
  EventSizeModel EventSizeSpec EventSizeProofs SampleModel SampleSpec SampleProofs ReaderOpsModel ReaderOpsProofs FileModel FileSpec
  FileProofs FileEventProofs FileReadProofs FileMetaProofs FileMainProofs SerializerModel SerializerSpec SerializerProofs SerializerSampleProofs
  AttrModel AttrSpec AttrProofs WriteModel WriteSpec RereadSpec RereadEventProofs PipelineModel RewriteModel RewriteSpec RewriteReadProofs RewriteEventProofs.
From Verif Require RereadAttrProofs SampleProps SerializerProps WriteFileProofs WriteProps RereadMainProofs RereadProps.
From Coq Require Import Permutation.
Local Open Scope N_scope.

(** What a reader holds. *)
Definition read_state (b : list N) (st : fstate) : Prop :=
  exists M s0 s1, state_inv b M 31 s0 /\ events_inv s0 s1 /\
    st = match fs_types s1 with [] => s1 | _ => add_feature 12 s1 end.

Lemma read_inv b st : bytes_ok b = true -> len b < 2 ^ 31 -> file_header false b ->
  read_perf_data (new_reader false) b = Ok st -> read_state b st.
Proof.
  intros Hb Lb (F1 & F2 & F3 & _) H. unfold read_perf_data, read_from_reader in H.
  unfold rbind at 1 in H. unfold rask in H. unfold rbind at 1 in H. unfold rguard at 1 in H.
  change (rbuf (mkReader b 0 false)) with b in H.
  replace (len b =? 0) with false in H by lia. cbn [negb rret] in H. unfold rret in H. unfold rbind at 1 in H.
  assert (W := fun Q K => wp_header b fs_new Q Hb ltac:(change (2 ^ 31) with 2147483648 in Lb; unfold two63; lia) K).
  specialize (W (fun x r' => good r' /\ rbuf r' = b /\ exists sw, rswap r' = sw /\ header_result sw b fs_new x)).
  unfold wp in W. destruct (read_header fs_new (mkReader b 0 false)) as [[x| | | |] r]; try discriminate H.
  destruct W as (G & B & sw & S & X); [intros sw x' r' G B S X _; split; [exact G|]; split; [exact B|]; exists sw; auto|].
  destruct x as [[s size] oh]. unfold header_result in X. cbv beta iota in X. destruct X as (_ & X1 & X2 & X3).
  assert (Sw : sw = false) by (destruct sw; [rewrite F2 in X1; vm_compute in X1; discriminate|reflexivity]).
  rewrite Sw in *. clear sw Sw X1. rewrite F3 in X2. rewrite <- X2 in *. clear X2 size.
  destruct oh as [h|]; [|destruct X3 as [X3 _]; discriminate X3].
  destruct X3 as (_ & (M & -> & _) & _ & Xa & _ & Xt & Ia & _ & It).
  cbn [rbind] in H. unfold rbind, rguard in H. change (104 =? 104) with true in H. cbv iota in H. unfold rret in H.
  destruct (read_file_data (new_reader false) h (put_mask M fs_new) r) as [[st'| | | |] r'] eqn:E; try discriminate H.
  cbn [fst] in H. apply Ok_inj in H. subst st'. unfold section_inside in *.
  destruct (gives_file_data b Hb Lb M h (put_mask M fs_new) eq_refl ltac:(rewrite Xa; lia) ltac:(rewrite Xt; lia) r
              (conj G (conj B S)) st r' E) as (_ & s0 & s1 & I).
  exists M, s0, s1. exact I.
Qed.

(** ** Traces *)
Lemma trace_deserialize ord s t x : deserialize ord s (with_trace t x) = deserialize ord s x.
Proof. destruct x as [ty mi sz b tm]. destruct b; reflexivity. Qed.
Lemma trace_size s t x : x_size s (with_trace t x) = x_size s x.
Proof. destruct x as [ty mi sz b tm]. destruct b; reflexivity. Qed.
Lemma trace_head t x : xe_type (with_trace t x) = xe_type x /\ xe_size (with_trace t x) = xe_size x.
Proof. destruct x as [ty mi sz b tm]. destruct b; split; reflexivity. Qed.

(** ** The state, flat *)
Record held (b : list N) (M : N) (st : fstate) : Prop := mkHeld {
  hd_mask : forall ty, ty <> 12 -> N.testbit (fs_mask st) ty = N.testbit M ty;
  hd_meta : meta_inv b M 31 (fs_meta st);
  hd_attrs : Forall attr_read (fs_attrs st);
  hd_count : len (fs_attrs st) < 2 ^ 31;
  hd_types : (N.testbit (fs_mask st) 12 = false /\ fs_types st = []) \/
             (N.testbit (fs_mask st) 12 = true /\ Forall2 (named b) (fs_attrs st) (fs_types st));
  hd_readers : create_readers (map (fun a => (raw_attr (fa_attr a), fa_ids a)) (fs_attrs st)) (new_serializer false)
               = Ok (serializer false st);
  hd_builds : Forall build_read (fs_builds st);
  hd_some : fs_events st = [] \/ ss_readers (serializer false st) <> [];
  hd_events : Forall (event_kept (serializer false st) (excludes st)) (fs_events st) }.

Lemma read_held b st : read_state b st -> exists M, held b M st.
Proof.
  intros (M & s0 & s1 & [S1 S2 [A1 A2 A3 A4 A5] S4 S5] & V & ->). exists M.
  assert (Sr := serializer_same _ _ V). destruct V as [V1 V2 V3 V4 V5 V6 V7 V8 V9 V10].
  assert (R : fs_events s1 = [] \/ ss_readers (serializer_of s0) <> []).
  { destruct V9 as [V9|V9]; [now left|]. right. cbn [serializer_of ss_readers]. destruct (fs_readers s0); [congruence|discriminate]. }
  assert (Ex : excludes s1 = excludes s0) by (unfold excludes; now rewrite V3).
  assert (T : (N.testbit (fs_mask s1) 12 = false /\ fs_types s1 = []) \/ Forall2 (named b) (fs_attrs s1) (fs_types s1)).
  { rewrite V1, V3, V4, S1. exact A4. }
  rewrite <- Sr in *. rewrite <- Ex in *. rewrite <- V2 in S2. rewrite <- V3 in A2, A3, A5. rewrite S1 in V1.
  clear - V1 S2 A2 A3 A5 T R V8 V10.
  change (serializer_of s1) with (serializer false s1) in *.
  destruct (fs_types s1) as [|t l] eqn:Ty.
  - constructor; auto; [now intros; rewrite V1|]. rewrite Ty. destruct (N.testbit (fs_mask s1) 12) eqn:E; [|now left].
    destruct T as [[T _]|T]; [discriminate|now right].
  - destruct T as [[_ T]|T]; [discriminate|].
    destruct s1 as [x0 x1 x2 x3 x4 x5 x6 x7 x8 x9 x10 x11 x12].
    cbn [fs_mask fs_types fs_attrs fs_meta fs_builds fs_events] in *. subst x2.
    constructor; unfold add_feature; cbn [put_mask fs_mask fs_types fs_attrs fs_meta fs_builds fs_events]; auto.
    + intros ty D. rewrite N.setbit_neq by congruence. now rewrite V1.
    + right. split; [apply N.setbit_eq|exact T].
Qed.

(** ** The messages of the events *)
Lemma message_short s e x : raw_event e -> native s -> serialize s e = Ok x -> xe_size x < two16 /\ xe_type x = ev_type e /\ xe_size x = ev_size e /\ WriteEventProofs.short_sample x.
Proof.
  intros He Hn H. assert (B := ev_size_bound e (proj1 He)). unfold serialize in H. cbv zeta in H.
  apply obind_ok in H as (y & H & E). apply Ok_inj in E. subst x. cbn [xe_size xe_type].
  split; [exact B|]. split; [reflexivity|]. split; [reflexivity|]. unfold WriteEventProofs.short_sample. cbn [xe_type xe_body]. intros T.
  rewrite T in H. change (64 <=? R_SAMPLE) with false in H. cbv iota in H. unfold ser_kernel in H. cbv zeta in H. rewrite T in H.
  change (R_SAMPLE =? R_SAMPLE) with true in H. cbv iota in H. unfold omap in H.
  destruct (ser_sample s e) as [m| | | |] eqn:Sm; try discriminate. apply Ok_inj in H. subst y. cbn [get_sample].
  unfold ser_sample in Sm. apply obind_ok in Sm as ([ps a] & R & Sm). cbv zeta in Sm.
  apply obind_ok in Sm as (rd & _ & Sm). apply obind_ok in Sm as (ch & _ & Sm). apply obind_ok in Sm as ([[n1 n2] br] & _ & Sm).
  apply Ok_inj in Sm. subst m. unfold WriteEventProofs.short_raw. cbn [xsa_raw xsa_raw_size].
  unfold read_info_and_attr in R. apply obind_ok in R as (a' & Ha & R). apply obind_ok in R as (p' & Hp & R).
  apply Ok_inj in R. injection R as -> ->.
  destruct (reader_for_event_id s e a Ha) as (id0 & Hid0).
  destruct (in_reader_for_id s id0 a Hid0) as (k & Hin).
  destruct (nv_readers s Hn k a Hin) as (Hst & _).
  assert (G := SampleProps.C34_safe_and_exact a (ss_swap s) e He Hst). rewrite Hp in G. destruct G as (_ & _ & _ & _ & _ & G & _).
  destruct (N.testbit (at_sample_type a) B_RAW); [split; lia|]. change (len []) with 0. unfold two16. split; lia.
Qed.
Lemma message_trace s e x : serialize s e = Ok x -> ev_type e = R_AUXTRACE ->
  exists a, xe_body x = XBAuxtrace a /\ xat_size a = number_at e 8.
Proof.
  intros H T. unfold serialize in H. cbv zeta in H. apply obind_ok in H as (y & H & E). apply Ok_inj in E. subst x. cbn [xe_body].
  rewrite T in H. change (64 <=? R_AUXTRACE) with true in H. cbv iota in H. unfold ser_user in H. cbv zeta in H. rewrite T in H.
  change (R_AUXTRACE =? R_AUXTRACE_INFO) with false in H. change (R_AUXTRACE =? R_AUXTRACE) with true in H. cbv iota in H.
  unfold omap in H. destruct (ser_auxtrace e) as [a| | | |] eqn:A; try discriminate. apply Ok_inj in H. subst y. exists a. split; [reflexivity|].
  unfold ser_auxtrace in A. apply obind_ok in A as (v & V & A). do 5 (apply obind_ok in A as (? & _ & A)). apply Ok_inj in A. subst a.
  cbn [xat_size]. unfold num in V. apply obind_ok in V as (d & D & V). apply Ok_inj in V. subst v. now apply mem_read_inv in D as [-> _].
Qed.

Lemma kept_message ord l s nk fe x : native_serializer l s -> (forall m, Permutation m (ord m)) ->
  event_kept s nk fe -> plain_event ord s (fe_raw fe) -> message s fe = Ok x ->
  event_read ord s nk x /\ deserialize ord s x = Ok (fe_raw fe) /\ trace_of x = fe_trace fe /\ xe_size x <> 0.
Proof.
  intros Hn Po [K1 K2] (off & D & C1 & C2 & C3) H. unfold message in H. apply obind_ok in H as (y & H & E). apply Ok_inj in E. subst x.
  destruct (eo_readable _ _ _ K1) as (off' & R). assert (off' = off) as -> by (assert (X := re_data _ _ _ R); rewrite D in X; apply Ok_inj in X; congruence).
  destruct (message_short s (fe_raw fe) y (re_raw _ _ _ R) (native_of _ _ Hn) H) as (S1 & S2 & S3 & S4).
  assert (X1 := SerializerProps.C44_identical l ord s _ off y Hn R C1 C2 Po H C3).
  assert (X2 := SerializerProps.C44_size l ord s _ off y Hn R C1 C2 H).
  destruct (trace_head (fe_trace fe) y) as [T1 T2].
  assert (Tr : xe_type y = R_AUXTRACE -> exists a, xe_body y = XBAuxtrace a /\ xat_size a = len (fe_trace fe)).
  { intros T. rewrite S2 in T. destruct (message_trace s _ y H T) as (a & A1 & A2). exists a. split; [exact A1|].
    rewrite T in K2. change (R_AUXTRACE =? R_AUXTRACE) with true in K2. cbv iota in K2. congruence. }
  assert (Ds : deserialize ord s (with_trace (fe_trace fe) y) = Ok (fe_raw fe)) by now rewrite trace_deserialize.
  split; [|split; [exact Ds|split]].
  - unfold event_read. rewrite trace_size, T1, T2. split; [|split; [congruence|split; [exact S1|split]]].
    + clear - S4. destruct y as [ty mi sz bd tm]. destruct bd; exact S4.
    + intros T. destruct (Tr T) as (a & A1 & A2). unfold with_trace. rewrite A1. exact A2.
    + exists (fe_raw fe). split; [exact Ds|exact K1].
  - unfold trace_of. rewrite T1. destruct (N.eqb_spec (xe_type y) R_AUXTRACE) as [T|T].
    + destruct (Tr T) as (a & A1 & _). unfold with_trace. now rewrite A1.
    + rewrite S2 in T. destruct (N.eqb_spec (ev_type (fe_raw fe)) R_AUXTRACE); [contradiction|now symmetry].
  - rewrite T2, S3. destruct (re_raw _ _ _ R) as (_ & G & _). rewrite <- (re_len _ _ _ R). lia.
Qed.

(** ** The rest of the data *)
Section Data.
Variable b : list N.
Hypothesis Lb : len b < 2 ^ 31.
Variable M : N.
Variable st : fstate.
Hypothesis Hd : held b M st.
Variable xs : list x_event.
Hypothesis Hx : Forall (fun x => xe_size x < two16 /\ WriteEventProofs.short_sample x) xs.
Definition data : wdata :=
  mkWData (fs_mask st) (map (fun a => XFAttr (ser_attr (fa_attr a)) (fa_ids a)) (fs_attrs st)) (fs_types st) xs
    (fs_builds st) (fs_meta st) (map (fun h => XHybrid (fst h) (Some (snd h)) []) (fm_hybrid (fs_meta st))).

Lemma tx_text t : tx b t -> text_ok t.
Proof. intros [H1 H2]. split; [exact H1|]. unfold short_text. change (2 ^ 31) with 2147483648 in Lb. unfold two32. lia. Qed.
Lemma tx_texts l : Forall (tx b) l -> Forall text_ok l.
Proof. intros F. eapply Forall_impl; [|exact F]. apply tx_text. Qed.
Lemma text_short' t : text_ok t -> short_text t.
Proof. now intros [_ H]. Qed.
Lemma part_or {A} ty (l : list A) (P : Prop) : part M 31 ty l P -> l = [] \/ P.
Proof. unfold part. destruct (_ && _); auto. Qed.
Lemma asked_is ty : ty <> 12 -> asked data ty = N.testbit M ty.
Proof. intros H. unfold asked. cbn [data wd_mask]. now apply (hd_mask b M st Hd). Qed.
Lemma part_asked {A} ty (l : list A) (P : Prop) : ty <> 12 -> ty <? 31 = true -> asked data ty = true -> part M 31 ty l P -> P.
Proof. intros D L A0. unfold part. rewrite asked_is in A0 by exact D. now rewrite A0, L. Qed.
Lemma part_if {A} ty (l : list A) (P : Prop) : ty <> 12 -> ty <? 31 = true -> part M 31 ty l P -> if_asked data ty l = l.
Proof.
  intros D L H. unfold if_asked. rewrite asked_is by exact D. unfold part in H. rewrite L in H. cbn [andb] in H.
  destruct (N.testbit M ty); [reflexivity|now symmetry].
Qed.
Lemma texts_or ty l : part M 31 ty l (texts b l) -> Forall text_ok l /\ len l < two32.
Proof. intros H. apply part_or in H as [->|[H1 H2]]; [split; [constructor|reflexivity]|split; [now apply tx_texts|exact H2]]. Qed.

Lemma hybrid_text h : hybrid_cpus (XHybrid (fst h) (Some (snd h)) []) = snd h.
Proof. destruct h as [n c]. unfold hybrid_cpus. cbn [xh_cpus xh_list text_or_empty fst snd]. destruct c; reflexivity. Qed.

Lemma data_metadata : metadata_ok data.
Proof.
  assert (I := hd_meta b M st Hd). destruct I as [I1 I2 I3 I4 I5 I6 I7 I8 I9 I10 I11 I12 I13].
  constructor; cbn [data wd_meta wd_hybrid wd_builds].
  - eapply Forall_impl; [|exact I1]. intros x. apply tx_text.
  - now apply (texts_or 11).
  - intros A0. exact (part_asked 7 _ _ ltac:(discriminate) eq_refl A0 I4).
  - intros A0. exact (part_asked 10 _ _ ltac:(discriminate) eq_refl A0 I5).
  - now apply (texts_or 13).
  - now apply (texts_or 13).
  - apply part_or in I8 as [->|[H _]]; [constructor|exact H].
  - intros A0. rewrite (asked_is 7) by discriminate. exact (proj2 (part_asked 13 _ _ ltac:(discriminate) eq_refl A0 I8)).
  - apply part_or in I9 as [->|[H1 H2]]; [split; [constructor|reflexivity]|]. split; [|exact H2].
    eapply Forall_impl; [|exact H1]. intros [[[id size] free] cpus] (B1 & B2 & B3 & B4). repeat (split; [assumption|]). now apply tx_text.
  - assert (X : asked data 16 = true -> fm_pmu (fs_meta st) <> []).
    { intros A0. exact (proj2 (proj2 (part_asked 16 _ _ ltac:(discriminate) eq_refl A0 I10))). }
    split; [|split; [|exact X]]; (apply part_or in I10 as [->|(H1 & H2 & _)]; [constructor|]); [|exact H2].
    eapply Forall_impl; [|exact H1]. intros x [B1 B2]. split; [exact B1|now apply tx_text].
  - apply part_or in I11 as [->|[H1 H2]]; [split; [constructor|reflexivity]|]. split; [|exact H2].
    eapply Forall_impl; [|exact H1]. intros [[n l] m] (B1 & B2 & B3). split; [now apply tx_text|auto].
  - apply part_or in I12 as [->|[H1 H2]]; [split; [constructor|reflexivity]|].
    split; [|unfold len in *; now rewrite map_length]. rewrite Forall_map. eapply Forall_impl; [|exact H1].
    intros h [B1 B2]. rewrite hybrid_text. split; now apply tx_text.
  - intros _. eapply Forall_impl; [|exact (hd_builds b M st Hd)]. now intros x [B _].
Qed.

Lemma data_attrs : attrs_ok data.
Proof.
  constructor; cbn [data wd_attrs wd_types].
  - rewrite Forall_map. eapply Forall_impl; [|exact (hd_attrs b M st Hd)]. intros a (_ & A1 & A2 & A3). cbn [fx_attr fx_ids].
    rewrite (ds_size _ _ (ser_describes (fa_attr a))). auto.
  - unfold len. rewrite map_length. apply (hd_count b M st Hd).
  - unfold asked. cbn [data wd_mask]. intros A0. destruct (hd_types b M st Hd) as [[T _]|[_ T]]; [congruence|].
    assert (L : length (fs_attrs st) = length (fs_types st)) by (clear - T; induction T as [|? ? ? ? _ _ IH]; cbn [length]; congruence). split; [now rewrite map_length|]. clear A0 L.
    assert (At := hd_attrs b M st Hd). revert At. induction T as [|a t l r H T IH]; intros At; [split; constructor|].
    inversion At as [|? ? A1 A2]; subst. destruct (IH A2) as [J1 J2]. destruct H as [H1 H2]. cbn [map combine]. split; constructor; auto.
    + now apply tx_text.
    + cbn [fst snd fx_attr]. rewrite (ds_config _ _ (ser_describes (fa_attr a))). rewrite H1. unfold w64. apply N.mod_small.
      change two64 with (256 ^ 8). unfold member. apply of_le_small; [apply bytes_ok_slice, A1|].
      apply len_slice. destruct A1 as ((A1 & _) & _). unfold len. lia.
Qed.

Lemma data_representable : representable data.
Proof.
  assert (K := data_metadata). destruct K as [K1 K2 K3 K4 K5 K6 K7 K8 K9 K10 K11 K12 K13].
  cbn [data wd_meta wd_hybrid wd_builds] in *.
  constructor; cbn [data wd_meta wd_hybrid wd_builds wd_types wd_attrs wd_events].
  - eapply Forall_impl; [|exact K1]. intros x. apply text_short'.
  - eapply Forall_impl; [|exact (proj1 K2)]. intros x. apply text_short'.
  - eapply Forall_impl; [|exact (proj1 K5)]. intros x. apply text_short'.
  - eapply Forall_impl; [|exact (proj1 K6)]. intros x. apply text_short'.
  - eapply Forall_impl; [|exact (proj1 K9)]. intros [[[id size] free] cpus] (_ & _ & _ & B). now apply text_short'.
  - eapply Forall_impl; [|exact (proj1 K10)]. intros x [_ B]. now apply text_short'.
  - eapply Forall_impl; [|exact (proj1 K11)]. intros [[n l] m] (B & _). now apply text_short'.
  - destruct K12 as [K12 _]. rewrite Forall_map in K12 |- *. eapply Forall_impl; [|exact K12]. intros h [B1 B2]. rewrite hybrid_text in B2.
    cbn [xh_name xh_cpus xh_list text_or_empty]. split; [apply B1|split; [apply B2|vm_compute; reflexivity]].
  - destruct (hd_types b M st Hd) as [[_ T]|[_ T]]; [rewrite T; constructor|].
    clear - T Lb. induction T as [|a t l r [_ H] T IH]; constructor; [|exact IH]. apply text_short', tx_text, H.
  - rewrite Forall_map. eapply Forall_impl; [|exact (hd_attrs b M st Hd)]. now intros a (_ & _ & A2 & _).
  - eapply Forall_impl; [|exact (hd_builds b M st Hd)]. intros x [[_ _ [B1 B2] (_ & B3 & _)] _]. split; [exact B3|]. split; [exact B1|].
    unfold room_of, two16. assert (len (rb_file x) / 8 <= 511) by (apply N.lt_succ_r; apply N.div_lt_upper_bound; lia). lia.
  - eapply Forall_impl; [|exact Hx]. intros x [B1 B2]. split; [exact B1|exact B2].
Qed.

Lemma data_meta_same m : same_metadata data m ->
  (forall ty, aget N.eqb ty (fm_strings m) = aget N.eqb ty (fm_strings (fs_meta st))) /\
  fm_cmdline m = fm_cmdline (fs_meta st) /\ fm_u32 m = fm_u32 (fs_meta st) /\ fm_u64 m = fm_u64 (fs_meta st) /\
  fm_cores m = fm_cores (fs_meta st) /\ fm_threads m = fm_threads (fs_meta st) /\ fm_cpus m = fm_cpus (fs_meta st) /\
  fm_numa m = fm_numa (fs_meta st) /\ fm_pmu m = fm_pmu (fs_meta st) /\ fm_group m = fm_group (fs_meta st) /\
  fm_hybrid m = fm_hybrid (fs_meta st) /\ fm_tracing m = fm_tracing (fs_meta st).
Proof.
  intros [S1 S2 S3 S4 S5 S6 S7 S8 S9 S10 S11 S12]. cbn [data wd_meta wd_hybrid] in *.
  assert (I := hd_meta b M st Hd). destruct I as [I1 I2 I3 I4 I5 I6 I7 I8 I9 I10 I11 I12 I13].
  rewrite (part_if 11 _ _ ltac:(discriminate) eq_refl I3) in S2. rewrite (part_if 7 _ _ ltac:(discriminate) eq_refl I4) in S3.
  rewrite (part_if 10 _ _ ltac:(discriminate) eq_refl I5) in S4. rewrite (part_if 13 _ _ ltac:(discriminate) eq_refl I6) in S5.
  rewrite (part_if 13 _ _ ltac:(discriminate) eq_refl I7) in S6. rewrite (part_if 13 _ _ ltac:(discriminate) eq_refl I8) in S7.
  rewrite (part_if 14 _ _ ltac:(discriminate) eq_refl I9) in S8. rewrite (part_if 16 _ _ ltac:(discriminate) eq_refl I10) in S9.
  rewrite (part_if 17 _ _ ltac:(discriminate) eq_refl I11) in S10. rewrite (part_if 1 _ _ ltac:(discriminate) eq_refl I13) in S12.
  rewrite map_map in S11. cbn [xh_name] in S11.
  rewrite (map_ext _ (fun h : list N * list N => h)) in S11 by (intros h; rewrite hybrid_text; now destruct h). rewrite map_id in S11.
  rewrite (part_if 30 _ _ ltac:(discriminate) eq_refl I12) in S11.
  split; [|repeat (split; [assumption|]); assumption].
  intros ty. rewrite S1. specialize (I2 ty).
  change [3; 4; 5; 6; 8; 9] with string_features.
  destruct (existsb (N.eqb ty) string_features) eqn:E; cbn [andb] in *; [|now destruct (aget N.eqb ty (fm_strings (fs_meta st)))].
  apply existsb_exists in E as (x & E1 & E2). apply N.eqb_eq in E2. subst x.
  assert (ty <> 12 /\ (ty <? 31) = true) as [D L] by (cbn in E1; repeat (destruct E1 as [<-|E1]; [split; [discriminate|reflexivity]|]); destruct E1).
  rewrite asked_is by exact D. rewrite L in I2. cbn [andb] in I2. destruct (N.testbit M ty).
  - destruct (aget N.eqb ty (fm_strings (fs_meta st))); [reflexivity|discriminate].
  - now destruct (aget N.eqb ty (fm_strings (fs_meta st))).
Qed.
Lemma data_types : if_asked data 12 (fs_types st) = fs_types st.
Proof.
  unfold if_asked, asked. cbn [data wd_mask]. destruct (hd_types b M st Hd) as [[-> T]|[-> _]]; [now symmetry|reflexivity].
Qed.
Lemma data_readers : create_readers (map RereadAttrProofs.reader_attr (wd_attrs data)) (new_serializer false) = Ok (serializer false st).
Proof.
  rewrite <- (hd_readers b M st Hd). f_equal. cbn [data wd_attrs]. rewrite map_map. apply map_ext_in. intros a I.
  unfold RereadAttrProofs.reader_attr. cbn [fx_attr fx_ids]. f_equal. apply kept_raw, back_kept.
  now destruct (proj1 (Forall_forall _ _) (hd_attrs b M st Hd) a I) as (A0 & _).
Qed.
Lemma data_kernel : no_kernel data = excludes st.
Proof.
  unfold no_kernel, excludes. cbn [data wd_attrs]. destruct (fs_attrs st) as [|a l] eqn:E; [reflexivity|]. cbn [map fx_attr].
  assert (D := ds_flags _ _ (ser_describes (fa_attr a)) 5 ltac:(discriminate) ltac:(discriminate)). unfold kept_bit in D.
  change (attr_exclude_kernel (fa_attr a)) with (bit_field (fa_attr a) 5).
  destruct (N.testbit (ea_flags (ser_attr (fa_attr a))) 5), (bit_field (fa_attr a) 5); try reflexivity.
  - destruct D as [D _]. specialize (D eq_refl). destruct D. discriminate.
  - destruct D as [_ D]. assert (false = true) by (apply D; split; [left; reflexivity|reflexivity]). discriminate.
Qed.
End Data.

(** ** Writing and reading again *)
Lemma each_messages s evs xs : each (message s) evs = Ok xs -> Forall2 (fun fe x => message s fe = Ok x) evs xs.
Proof.
  revert xs. induction evs as [|fe evs IH]; intros xs H; cbn [each] in H.
  - apply Ok_inj in H. subst. constructor.
  - apply obind_ok in H as (x & H1 & H). apply obind_ok in H as (l & H2 & H). apply Ok_inj in H. subst. constructor; auto.
Qed.
Lemma messages_made s nk evs : Forall (event_kept s nk) evs -> exists xs, each (message s) evs = Ok xs.
Proof.
  induction 1 as [|fe evs [H _] _ (xs & IH)]; cbn [each]; [eexists; reflexivity|].
  destruct (eo_message _ _ _ H) as (x & X). unfold message at 1. rewrite X. cbn [obind]. rewrite IH. eexists. reflexivity.
Qed.
Lemma new_takes_all : takes_all (new_reader false).
Proof.
  split; [reflexivity|]. intros st s e x H1 H2 H3 H4 H5. cbn [new_reader cf_accept]. unfold serializer.
  rewrite H1, H2, H3, <- H4. destruct s as [s1 s2 s3 s4]. cbn [ss_readers ss_sample_pos ss_other_pos ss_swap] in *. now rewrite H5.
Qed.
Lemma header_order b : file_header false b -> swapped b = false.
Proof. intros (_ & H & _). unfold swapped. rewrite H. vm_compute. reflexivity. Qed.

Lemma held_native b M st : held b M st -> one_id_each st ->
  native_serializer (map (fun a => (raw_attr (fa_attr a), fa_ids a)) (fs_attrs st)) (serializer false st).
Proof.
  intros H O. split; [apply (hd_readers _ _ _ H)|]. rewrite Forall_map. rewrite Forall_forall. intros a I. cbn [fst].
  split; [|exact (proj1 (Forall_forall _ _) O a I)].
  destruct (proj1 (Forall_forall _ _) (hd_attrs _ _ _ H) a I) as ((A1 & A2) & _).
  change two64 with (256 ^ 8). change (at_sample_type (raw_attr (fa_attr a))) with (of_le (slice (fa_attr a) 24 8)).
  apply of_le_small; [now apply bytes_ok_slice|]. apply len_slice. unfold len. lia.
Qed.
Lemma message_facts b M st ord xs : held b M st -> one_id_each st -> (forall m, Permutation m (ord m)) ->
  Forall (fun fe => plain_event ord (serializer false st) (fe_raw fe)) (fs_events st) ->
  each (message (serializer false st)) (fs_events st) = Ok xs ->
  Forall2 (fun fe x => event_read ord (serializer false st) (excludes st) x /\
     deserialize ord (serializer false st) x = Ok (fe_raw fe) /\ trace_of x = fe_trace fe /\ xe_size x <> 0) (fs_events st) xs.
Proof.
  intros H O Po P E. apply each_messages in E. assert (N0 := held_native b M st H O). assert (K := hd_events _ _ _ H).
  revert N0 K P E. generalize (serializer false st), (excludes st), (fs_events st). intros s nk evs N0 K P E. revert K P.
  induction E as [|fe x evs xs X E IH]; intros K P; constructor.
  - inversion K; inversion P; subst. eapply kept_message; eauto.
  - inversion K; inversion P; subst. auto.
Qed.
Lemma Forall2_right {A B} (P : A -> B -> Prop) (Q : B -> Prop) l r : Forall2 P l r -> (forall x y, P x y -> Q y) -> Forall Q r.
Proof. induction 1; intros H'; constructor; eauto. Qed.

Lemma rewritten b st ord room f : bytes_ok b = true -> len b < 2 ^ 31 -> file_header false b ->
  read_perf_data (new_reader false) b = Ok st -> one_id_each st -> (forall m, Permutation m (ord m)) ->
  Forall (fun fe => plain_event ord (serializer false st) (fe_raw fe)) (fs_events st) ->
  room < two63 -> rewrite_file ord room b = Ok f ->
  swapped f = false /\ exists st', read_perf_data (new_reader false) f = Ok st' /\ same_recording st st'.
Proof.
  intros Hb Lb Hh Rd O Po P Rm W. unfold rewrite_file in W. rewrite (header_order b Hh), Rd in W. cbn [obind] in W.
  apply obind_ok in W as (d & D & W). unfold data_of in D. cbv zeta in D. apply obind_ok in D as (xs & X & D). apply Ok_inj in D. subst d.
  cbn [fst snd] in W. destruct (read_held b st (read_inv b st Hb Lb Hh Rd)) as (M & Hd).
  change (mkWData _ _ _ _ _ _ _) with (data st xs) in W.
  assert (F := message_facts b M st ord xs Hd O Po P X). set (s := serializer false st) in *.
  assert (Fx : Forall (fun x => xe_size x < two16 /\ WriteEventProofs.short_sample x) xs).
  { eapply Forall2_right; [exact F|]. cbv beta. intros fe x ((E1 & _ & E2 & _) & _). auto. }
  assert (Fe : Forall (event_read ord s (no_kernel (data st xs))) (wd_events (data st xs))).
  { rewrite (data_kernel st xs). eapply Forall2_right; [exact F|]. cbv beta. now intros fe x (E1 & _). }
  assert (Rp := data_representable b Lb M st Hd xs Fx).
  destruct (WriteMainProofs.vector_sound ord room s (data st xs) f Rp Rm W) as (L & Fi & B & _ & E2 & _).
  destruct (WriteProps.C43_layout ord room s (data st xs) f Rp Rm W) as [_ Lo].
  destruct (RereadMainProofs.read_again f ltac:(clear - L B Rm; lia) ord s (data st xs) Lo ltac:(rewrite Fi; apply WriteMainProofs.at_start)
    (data_metadata b Lb M st Hd xs) (data_attrs b Lb M st Hd xs) (data_readers b M st Hd xs) eq_refl Fe E2 (new_reader false) new_takes_all)
    as (st' & Rd' & RR).
  split. { unfold swapped. assert (G := lo_magic _ _ _ _ Lo). unfold word_at in G. rewrite G. now rewrite N.eqb_refl. }
  exists st'. split; [exact Rd'|]. destruct RR as [R1 R2 R3 R4 R5 R6].
  assert (Ev : fs_events st' = fs_events st).
  { cbn [data wd_events] in R4. clear - F R4. revert R4. generalize (fs_events st'). induction F as [|fe x evs xs (_ & F1 & F2 & _) F IH];
      intros l R; inversion R as [|? e ? l' [R1 R2] R']; subst; [reflexivity|].
    f_equal; [|now apply IH]. rewrite F1 in R1. apply Ok_inj in R1. destruct e as [e1 e2], fe as [g1 g2]. cbn [fe_raw fe_trace] in *. congruence. }
  constructor; auto.
  - rewrite R2. cbn [data wd_attrs]. assert (At := hd_attrs _ _ _ Hd). clear - At. induction At as [|a l (A1 & _) _ IH]; constructor; [|exact IH].
    cbn [fx_attr fx_ids fa_attr fa_ids]. split; [reflexivity|]. split; [exact A1|]. split; [apply des_attr_is|now apply back_kept].
  - rewrite R3. apply (data_types b M st Hd).
  - destruct (data_meta_same b M st Hd xs _ R5) as (M1 & M2 & M3 & M4 & M5 & M6 & M7 & M8 & M9 & M10 & M11 & M12). constructor; assumption.
  - destruct R6 as (builds & extra & B1 & B2 & B3). exists builds, extra. split; [exact B1|].
    unfold if_asked, asked in B2. cbn [data wd_mask wd_builds] in B2. split; [|split].
    + intros T. rewrite T in B2. assert (Br := hd_builds _ _ _ Hd). clear - B2 Br. induction B2 as [|x y l r (Y1 & Y2 & Y3 & Y4 & Y5) _ IH]; constructor.
      * inversion Br as [|? ? [_ Z] _]; subst. repeat (split; [assumption|]). now rewrite Y5, <- Z.
      * apply IH. now inversion Br.
    + intros T. rewrite T in B2. now inversion B2.
    + rewrite Ev in B3. exact B3.
Qed.

Lemma data_consistent b M st xs : held b M st -> (N.testbit (fs_mask st) 11 = true -> fm_cmdline (fs_meta st) <> []) -> consistent (data st xs).
Proof.
  intros Hd C. assert (I := hd_meta b M st Hd). destruct I as [I1 I2 I3 I4 I5 I6 I7 I8 I9 I10 I11 I12 I13].
  unfold consistent. cbv zeta. cbn [data wd_meta wd_mask wd_hybrid]. split; [|split; [|split]].
  - intros ty I T. destruct (N.eq_dec ty 11) as [->|D].
    + cbn. specialize (C T). now destruct (fm_cmdline (fs_meta st)).
    + assert (S : existsb (N.eqb ty) [3; 4; 5; 6; 8; 9] = true /\ ty <? 31 = true /\ ty <> 12).
      { cbn [In] in I. repeat (destruct I as [<-|I]; [try contradiction; repeat split; discriminate|]). destruct I. }
      destruct S as (S1 & S2 & S3). unfold present. rewrite S1. cbn [data wd_meta]. rewrite (I2 ty).
      change string_features with [3; 4; 5; 6; 8; 9]. rewrite S1, S2. now rewrite <- (hd_mask _ _ _ Hd) by exact S3.
  - apply part_or in I4 as [->|(d & -> & _)]; eauto.
  - apply part_or in I5 as [->|(d & -> & _)]; eauto.
  - rewrite Forall_map. apply Forall_forall. intros h _ _. reflexivity.
Qed.

Lemma written_again b st ord room : bytes_ok b = true -> len b < 2 ^ 31 -> file_header false b ->
  read_perf_data (new_reader false) b = Ok st -> one_id_each st -> (forall m, Permutation m (ord m)) ->
  Forall (fun fe => plain_event ord (serializer false st) (fe_raw fe)) (fs_events st) ->
  (N.testbit (fs_mask st) 11 = true -> fm_cmdline (fs_meta st) <> []) ->
  exists p, data_of false st = Ok (serializer false st, p) /\
    (len (file_image ord (serializer false st) p) + left_out p < two63 -> len (file_image ord (serializer false st) p) + left_out p <= room ->
     exists f, rewrite_file ord room b = Ok f).
Proof.
  intros Hb Lb Hh Rd O Po P C. destruct (read_held b st (read_inv b st Hb Lb Hh Rd)) as (M & Hd).
  destruct (messages_made _ _ _ (hd_events _ _ _ Hd)) as (xs & X). exists (data st xs).
  assert (D : data_of false st = Ok (serializer false st, data st xs)) by (unfold data_of; cbv zeta; rewrite X; reflexivity).
  split; [exact D|]. intros Sz Rm. unfold rewrite_file. rewrite (header_order b Hh), Rd. cbn [obind]. rewrite D. cbn [obind fst snd].
  assert (F := message_facts b M st ord xs Hd O Po P X). set (s := serializer false st) in *.
  assert (Fx : Forall (fun x => xe_size x < two16 /\ WriteEventProofs.short_sample x) xs).
  { eapply Forall2_right; [exact F|]. cbv beta. intros fe x ((E1 & _ & E2 & _) & _). auto. }
  assert (Rp := data_representable b Lb M st Hd xs Fx). assert (I := hd_meta b M st Hd). assert (Ak := data_attrs b Lb M st Hd xs).
  assert (Mk := data_metadata b Lb M st Hd xs).
  assert (Wr : writable ord s (data st xs)).
  { unfold writable. cbv zeta. split; [exact Rp|]. split; [now apply (data_consistent b M)|]. split; [|split; [|split; [|split; [|split]]]].
    - eapply Forall2_right; [exact F|]. cbv beta. intros fe x ((_ & E2 & _ & E4 & _) & E5 & _ & E6). repeat split; eauto.
    - cbn [data wd_events]. destruct (hd_some _ _ _ Hd) as [Z|Z]; [left|right; exact Z]. rewrite Z in X. cbn [each] in X. apply Ok_inj in X. now symmetry.
    - intros T. destruct (mk_cpus _ Mk T) as (d & -> & _). discriminate.
    - intros T. destruct (mk_memory _ Mk T) as (d & -> & _). discriminate.
    - intros T. destruct (ak_types _ Ak T) as (T1 & _ & T3). split; [unfold len; rewrite T1; lia|exact T3].
    - exact Sz. }
  apply WriteProps.C43_total; [exact Wr|].
  rewrite (WriteMainProofs.writable_size ord s _ Wr). exact Rm.
Qed.
