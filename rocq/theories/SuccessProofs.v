(** C63: the stages of a conversion, each fed with what it needs to succeed. *)
From Coq Require Import String Permutation.
From Verif Require Import Base BytesModel TextModel Assoc PerfProto NormalizerModel NormalizerSpec NormalizerProofs
  NormalizerProps.
From Verif Require FileModel SerializerModel AttrModel HugePageModel HugePageSpec ParserModel ParserSpec ConverterModel
  ConverterSpec ConverterProps.
From Verif Require Import PipelineModel PipelineSpec PipelineHugeProofs PipelineCallProofs PipelineProofs
  PipelineParserProofs PipelineTotalProofs EventSizeProofs SuccessSpec SuccessHugeProofs.
From Verif Require SuccessParserProofs.
Import SerializerModel.
Local Open Scope N_scope.
Local Open Scope list_scope.

(** ** Build ids *)

Lemma hex_digit_text d : hex_digit d <> 0.
Proof. unfold hex_digit. destruct (d <? 10); lia. Qed.
Lemma hex_text t : ~ In 0 (raw_to_hex t).
Proof.
  unfold raw_to_hex. intros I. apply in_flat_map in I as (b & _ & I). cbn in I. pose proof (hex_digit_text (b / 16)).
  pose proof (hex_digit_text (b mod 16)). intuition.
Qed.
Ltac step Z :=
  match type of Z with obind ?x _ = Ok _ => destruct x; [cbn [obind] in Z|discriminate Z..] end.
Lemma mmap_build s e z : ser_mmap s e = Ok z -> text_id (xm_build_id z).
Proof. intros Z. unfold ser_mmap in Z. do 7 step Z. apply Ok_inj in Z. subst z. intros t Q. discriminate Q. Qed.
Lemma mmap2_build s e z : ser_mmap2 s e = Ok z -> text_id (xm_build_id z).
Proof.
  intros Z. unfold ser_mmap2 in Z. do 5 step Z.
  match type of Z with obind ?x _ = _ => destruct x as [((((maj, mi), ino), gen), bid)| | | |] eqn:E; [cbn [obind] in Z|discriminate Z..] end.
  do 4 step Z. apply Ok_inj in Z. subst z. cbn [xm_build_id]. destruct (N.testbit _ 14).
  - step E. destruct (20 <? _); [discriminate E|]. step E. injection E as _ _ _ _ <-. intros t Q. injection Q as <-. apply hex_text.
  - do 4 step E. injection E as _ _ _ _ <-. intros t Q. discriminate Q.
Qed.
Lemma message_build s ev x m : message s ev = Ok x -> xe_body x = XBMmap m -> text_id (xm_build_id m).
Proof.
  unfold message. intros H. ok_inv H. injection H0 as <-. unfold serialize in E. ok_inv E. injection H as <-.
  unfold with_trace. cbn [xe_body]. intros T.
  assert (T' : a0 = XBMmap m) by (destruct a0; try discriminate T; exact T). subst a0. clear T.
  set (e := FileModel.fe_raw ev) in *. clearbody e.
  assert (O : forall (A : Type) (f : A -> x_body) (o : outcome A), (forall q n, f q <> XBMmap n) -> omap f o <> Ok (XBMmap m)).
  { intros A f [q| | | |] D; cbn; try discriminate. intros Q. apply Ok_inj in Q. now apply (D q m). }
  destruct (64 <=? _).
  - unfold ser_user in E0.
    repeat match type of E0 with
    | (if ?b then _ else _) = _ => destruct b; [exfalso; revert E0; apply O; discriminate|]
    end. discriminate E0.
  - unfold ser_kernel in E0.
    destruct (_ =? EventSizeModel.R_SAMPLE); [exfalso; revert E0; apply O; discriminate|].
    destruct (_ =? EventSizeModel.R_MMAP).
    { destruct (ser_mmap s e) as [z| | | |] eqn:Z; try discriminate E0. injection E0 as <-. exact (mmap_build _ _ _ Z). }
    destruct (_ =? EventSizeModel.R_MMAP2).
    { destruct (ser_mmap2 s e) as [z| | | |] eqn:Z; try discriminate E0. injection E0 as <-. exact (mmap2_build _ _ _ Z). }
    repeat match type of E0 with
    | (if ?b then _ else _) = _ => destruct b; [exfalso; revert E0; apply O; discriminate|]
    end. discriminate E0.
Qed.
Lemma messages_build s evs xs m x : PipelineModel.each (message s) evs = Ok xs -> In x xs -> xe_body x = XBMmap m ->
  text_id (xm_build_id m).
Proof.
  intros M I B. apply each_nth in M. induction M as [|ev y l l' E M IH]; [contradiction|].
  destruct I as [->|I]; [|auto]. eapply message_build; eauto.
Qed.

(** ** Huge pages, combining, parsing *)

Section Digest.
Variable md5 : list N -> N.
Variable base : list N -> N.

Lemma huge_sound x m : sound_map m -> text_id (xm_build_id m) -> sound (huge_map md5 x m).
Proof. intros (A & B & C & D & E & F & G & _) T. unfold sound. cbn. repeat (split; [assumption|]). exact T. Qed.

Lemma views_sound xs : (forall m, In m (mappings xs) -> sound_map m) ->
  (forall x m, In x xs -> xe_body x = XBMmap m -> text_id (xm_build_id m)) ->
  Forall sound_ev (numbered (huge_view md5) xs).
Proof.
  intros S T. rewrite Forall_forall. intros e I m M. apply numbered_in in I as (i & x & X & ->). unfold huge_view in M.
  cbn [HugePageModel.e_map] in M. destruct (xe_body x) eqn:Bd; try discriminate M. injection M as <-.
  apply nth_error_In in X. apply huge_sound; [|now apply (T x)]. apply S. unfold mappings. apply in_flat_map. exists x. rewrite Bd. split; [exact X|now left].
Qed.
Lemma views_size xs : size_of (numbered (huge_view md5) xs) = mapped_size xs /\
  List.length (filter is_mapping (numbered (huge_view md5) xs)) = List.length (mappings xs).
Proof.
  unfold numbered, mapped_size, size_of, total_of, mappings. generalize O. induction xs as [|x xs IH]; intros n; [split; reflexivity|].
  cbn [List.length List.seq combine map flat_map fst snd fold_right filter]. destruct (IH (S n)) as (A & B). rewrite A.
  assert (M1 : map_len (huge_view md5 n x) = match xe_body x with XBMmap m => xm_len m | _ => 0 end)
    by (unfold map_len, huge_view; cbn [HugePageModel.e_map]; now destruct (xe_body x)).
  assert (M2 : is_mapping (huge_view md5 n x) = is_map x)
    by (unfold is_mapping, huge_view, is_map; cbn [HugePageModel.e_map]; now destruct (xe_body x)).
  rewrite M1, M2. unfold is_map. destruct (xe_body x); cbn [app map fold_right List.length]; rewrite ?B; split; reflexivity.
Qed.

Lemma huge_pages_sound order xs : NoDup order ->
  (forall m, In m (mappings xs) -> sound_map m) ->
  (forall x m, In x xs -> xe_body x = XBMmap m -> text_id (xm_build_id m)) ->
  exists evs, huge_pages md5 order xs = Ok evs /\
    (forall x m, In (x, Some m) evs -> sound m /\ HugePageModel.v_len m <= mapped_size xs) /\
    (List.length (filter (fun xm => negb (plain xm)) evs) <= List.length (mappings xs))%nat.
Proof.
  intros ND S T. destruct (both_sound order _ ND (views_sound xs S T)) as (mid & res & E1 & E2 & F & C & L & _).
  unfold huge_pages. rewrite E1. cbn [obind]. rewrite E2. cbn [obind]. eexists. split; [reflexivity|].
  destruct (views_size xs) as (V1 & V2). rewrite V1 in L. rewrite V2 in C. split.
  - intros x m I. apply in_map_iff in I as (e & X & I). injection X as _ X. rewrite Forall_forall in F. split; [exact (F e I m X)|exact (L e m I X)].
  - rewrite (map_filter_in _ is_mapping), map_length; [exact C|]. intros e _. unfold plain, is_mapping. cbn [snd]. now destruct (HugePageModel.e_map e).
Qed.

Lemma parser_sound options B evs : Forall has_its_map (map parser_view evs) ->
  (forall x m, In (x, Some m) evs -> sound m /\ HugePageModel.v_len m <= B) ->
  N.of_nat (List.length (filter (fun xm => negb (plain xm)) evs)) * (B + 6 * 4096) < 2 ^ 64 ->
  exists out, ParserModel.parse_raw_events (parser_options options) (map parser_view evs) = Ok out.
Proof.
  intros H S R. apply (SuccessParserProofs.sound_parsed (parser_options options) eq_refl B); [reflexivity| |].
  - rewrite Forall_forall in *. intros pe I Mm. pose proof (H pe I) as Hm. apply in_map_iff in I as ((x, m) & <- & I).
    destruct Hm as (pm & Bd); [unfold ParserSpec.is_mmap in Mm; apply orb_true_iff in Mm; now rewrite !N.eqb_eq in Mm|].
    rewrite Bd. cbn [ParserModel.the_map]. unfold parser_view in Bd. cbn [fst snd ParserModel.e_body] in Bd.
    destruct m as [m|]; [|destruct (xe_body x); discriminate Bd]. injection Bd as <-.
    destruct (S x m I) as ((A1 & A2 & A3 & A4 & A5 & A6 & A7 & _) & L). unfold SuccessParserProofs.sound_pmap. cbn.
    change two64 with (2 ^ 64). auto 8.
  - change two64 with (2 ^ 64). apply N.le_lt_trans with (2 := R). apply N.mul_le_mono_r.
    assert (G : (SuccessParserProofs.mmaps (map parser_view evs) <= List.length (filter (fun xm => negb (plain xm)) evs))%nat).
    { unfold SuccessParserProofs.mmaps. clear - H. induction evs as [|(x, m) evs IH]; [cbn; lia|]. cbn [map] in H. inversion H as [|? ? H1 H2]; subst.
      specialize (IH H2). cbn [map filter]. destruct (ParserSpec.is_mmap (parser_view (x, m))) eqn:Mm.
      - assert (P : plain (x, m) = false).
        { destruct H1 as (pm & Bd); [unfold ParserSpec.is_mmap in Mm; apply orb_true_iff in Mm; now rewrite !N.eqb_eq in Mm|].
          unfold parser_view in Bd. cbn [fst snd ParserModel.e_body] in Bd. destruct m; [reflexivity|]. destruct (xe_body x); discriminate Bd. }
        rewrite P. cbn [negb List.length]. lia.
      - destruct (negb (plain (x, m))); cbn [List.length]; lia. }
    lia.
Qed.

(** ** Events fit for the Normalizer *)

Lemma event_proper x m : (forall k, xe_body x = XBKsymbol k -> xk_addr k + xk_len k < 2 ^ 64) ->
  (forall v, m = Some v -> sound v) -> proper (proto_event md5 base (x, m)).
Proof.
  intros K S mm An Z. unfold announced, proto_event in An. cbn [fst snd ev_what] in An. destruct m as [v|].
  - injection An as <-. destruct (S v eq_refl) as (A1 & A2 & A3 & _). unfold start_of, limit_of. cbn [mm_start mm_len mm_pgoff] in *.
    rewrite (N.mod_small _ _ A2).
    match goal with |- (if ?b then _ else _) < _ => assert (b = false) as -> end; [|lia].
    destruct A3 as [A3|A3].
    + assert (2 ^ 63 <? HugePageModel.v_start v + HugePageModel.v_len v = false) as -> by (apply N.ltb_ge; lia). now rewrite andb_false_r.
    + assert (HugePageModel.v_start v <=? 2 ^ 63 = false) as -> by (apply N.leb_gt; lia). reflexivity.
  - destruct (xe_body x) as [|?|?|?|?|?|?|?|?|?|?|?|?|?|k|?|?|?|?|?|?|?|?|? ?|?] eqn:Bd; try discriminate An.
    cbn [ks_type ks_flags] in An. destruct ((xk_type k =? 1) && (xk_flags k =? 0)); [|discriminate An]. injection An as <-.
    cbn [mm_len ks_len] in Z. unfold start_of, limit_of. cbn [mm_start mm_len mm_pgoff ks_addr ks_len] in *.
    rewrite (N.mod_small _ _ (K k eq_refl)). change (2 ^ 63 <? 0) with false. rewrite andb_false_r. cbn [andb]. lia.
Qed.
Lemma event_text x m : (forall v, m = Some v -> sound v) -> text_build_id (proto_event md5 base (x, m)).
Proof.
  intros S mm b An Bu. unfold announced, proto_event in An. cbn [fst snd ev_what] in An. destruct m as [v|].
  - injection An as <-. cbn [mm_build] in Bu. destruct (S v eq_refl) as (_ & _ & _ & _ & _ & _ & _ & T). now apply T.
  - destruct (xe_body x); try discriminate An. destruct (_ && _); [|discriminate An]. injection An as <-. discriminate Bu.
Qed.
Lemma event_not_lost x m : (forall c, xe_body x = XBComm c -> xc_comm c <> str "[lost]") ->
  not_named_lost (proto_event md5 base (x, m)).
Proof.
  intros H c Bd (L & _). unfold proto_event in Bd. cbn [fst snd ev_what] in Bd. destruct m; [discriminate Bd|].
  destruct (xe_body x) as [|?|?|cm|?|?|?|?|?|?|?|?|?|?|?|?|?|?|?|?|?|?|?|? ?|?] eqn:X; try discriminate Bd.
  injection Bd as <-. exact (H cm eq_refl L).
Qed.

(** Names given by calls are names given by events. *)
Lemma deliver_no_comm e s l s' cs h : deliver_lost e s l = Ok (s', cs) -> In h cs -> exists cx, h = HSample cx.
Proof.
  unfold deliver_lost. destruct (event_index _ _ =? -1)%Z; intros H I; [injection H as _ <-; contradiction|].
  destruct (fake_mapping _ _ _ _ _) as (s1, p). ok_inv H. injection H0 as _ <-. apply repeat_spec in I. eauto.
Qed.
Lemma sample_no_comm e s misc sm s' cs h : on_sample e s misc sm None = Ok (s', cs) -> In h cs -> exists cx, h = HSample cx.
Proof.
  unfold on_sample. destruct (event_index _ _ =? -1)%Z; intros H I; [injection H as _ <-; contradiction|].
  ok_inv H. ok_inv H0. ok_inv H. destruct a1 as (s1, main). ok_inv H0. ok_inv H. ok_inv H0. ok_inv H.
  injection H0 as _ <-. destruct I as [<-|[]]. eauto.
Qed.
Lemma mmap_no_comm e s m s' cs cm ex : on_mmap e s m = Ok (s', cs) -> ~ In (HComm cm ex) cs.
Proof.
  unfold on_mmap. destruct (mm_len m =? 0); intros H; [injection H as _ <-; auto|].
  ok_inv H. ok_inv H0. ok_inv H. injection H0 as _ <-. intros [Q|[]]. discriminate Q.
Qed.
Lemma event_comm e s ev s' cs cm ex : ne_spe e = false -> on_event e s ev = Ok (s', cs) -> In (HComm cm ex) cs ->
  ev_what ev = EvComm cm.
Proof.
  intros Sp. unfold on_event. destruct ev as [misc what]. cbn [ev_what ev_misc].
  destruct what as [m|c|f|id path|l|l|sm|ty|tr bs|k|]; intros H I;
    try (injection H as _ <-; contradiction).
  - ok_inv H. destruct a as (s1, c1). injection H0 as _ <-. exfalso. eapply mmap_no_comm; eauto.
  - unfold on_comm in H. destruct (cm_pid c =? cm_tid c); injection H as _ <-; destruct I as [I|[]]; now injection I as <- _.
  - destruct (ne_lost_samples e); [|injection H as _ <-; contradiction].
    destruct (deliver_no_comm _ _ _ _ _ _ H I). discriminate.
  - destruct (ne_lost_samples e); [injection H as _ <-; contradiction|].
    destruct (deliver_no_comm _ _ _ _ _ _ H I). discriminate.
  - destruct (sample_no_comm _ _ _ _ _ _ _ H I). discriminate.
  - rewrite Sp in H. destruct tr; injection H as _ <-; contradiction.
  - destruct ((ks_type k =? 1) && (ks_flags k =? 0)); [exfalso; eapply mmap_no_comm; eauto|injection H as _ <-; contradiction].
Qed.
Lemma run_comm e evs : ne_spe e = false -> forall s s' cs cm ex, run_events e s evs = Ok (s', cs) -> In (HComm cm ex) cs ->
  exists ev, In ev evs /\ ev_what ev = EvComm cm.
Proof.
  intros Sp. induction evs as [|ev evs IH]; intros s s' cs cm ex H I; cbn [run_events] in H; [injection H as _ <-; contradiction|].
  ok_inv H. destruct a as (s1, c1). ok_inv H0. destruct a as (s2, c2). injection H as _ <-. apply in_app_or in I as [I|I].
  - exists ev. split; [now left|]. eapply event_comm; eauto.
  - destruct (IH _ _ _ _ _ E0 I) as (v & Iv & Q). exists v. split; [now right|exact Q].
Qed.
Lemma process_comm p cs cm ex : process p = Ok cs -> has_spe (pp_events p) = false -> In (HComm cm ex) cs ->
  exists ev, In ev (pp_events p) /\ ev_what ev = EvComm cm.
Proof.
  unfold process. intros H Sp. ok_inv H. ok_inv H0. destruct a0 as (s, cs'). injection H as <-.
  refine (run_comm a (pp_events p) _ _ _ _ _ _ E0).
  unfold normalizer_env in E. destruct (fold_left add_build_id _ _). ok_inv E. injection H as <-. exact Sp.
Qed.

End Digest.

(** ** Loads *)

Section Loads.
Variable c : ConverterModel.cfg.
Definition brief_load (b : brief) : Z :=
  let '(z, l, p) := b in
  if (0 <=? z)%Z && (z <? Z.of_nat (ConverterSpec.events c))%Z && negb (l && ConverterSpec.drops_lost c)
  then Z.max 1 (Z.abs (brief_weight c (Z.to_nat z) b)) else 0%Z.
Lemma load_briefs cs : ConverterSpec.sum (map (ConverterSpec.load c) cs) = ConverterSpec.sum (map brief_load (briefs cs)).
Proof.
  induction cs as [|h cs IH]; [reflexivity|]. unfold ConverterSpec.sum in *.
  destruct h as [cx|cm ex|pid m]; cbn [map fold_right briefs flat_map app]; [|exact IH..].
  fold (briefs cs). rewrite IH. reflexivity.
Qed.

Variable e : nenv.
Hypothesis He : normalizer_env (ConverterModel.cf_data c) = Ok e.
Let ids := map fa_ids (pp_attrs (ConverterModel.cf_data c)).
Let periods := map fa_period (pp_attrs (ConverterModel.cf_data c)).

Lemma nth_period j : match nth_error (pp_attrs (ConverterModel.cf_data c)) j with Some a => fa_period a | None => 0 end = nth j periods 0.
Proof.
  unfold periods. destruct (nth_error (pp_attrs (ConverterModel.cf_data c)) j) as [a|] eqn:E.
  - symmetry. apply nth_error_nth. now rewrite nth_error_map, E.
  - apply nth_error_None in E. symmetry. apply nth_overflow. now rewrite map_length.
Qed.
Lemma index_load id l p : id_index e id <> (-1)%Z ->
  brief_load (id_index e id, l, p) = if l && ConverterSpec.drops_lost c then 0%Z else sample_load ids periods id p.
Proof using He.
  rewrite (index_event _ _ id He). fold ids. unfold brief_load, sample_load.
  destruct (event_of ids id) as [j|] eqn:E; [|congruence]. intros _.
  apply event_of_bound in E. unfold ids in E. rewrite map_length in E.
  assert ((0 <=? Z.of_nat j)%Z = true) as -> by (apply Z.leb_le; lia).
  assert ((Z.of_nat j <? Z.of_nat (ConverterSpec.events c))%Z = true) as -> by (apply Z.ltb_lt; unfold ConverterSpec.events; lia).
  cbn [andb]. destruct (l && ConverterSpec.drops_lost c); cbn [negb]; [reflexivity|].
  rewrite Nat2Z.id. unfold brief_weight. rewrite nth_period. reflexivity.
Qed.
Lemma index_none id p : id_index e id = (-1)%Z -> sample_load ids periods id p = 0%Z.
Proof using He.
  rewrite (index_event _ _ id He). fold ids. unfold sample_load. destruct (event_of ids id); [lia|reflexivity].
Qed.
Lemma lost_load l : ConverterSpec.sum (map brief_load (lost_briefs e l)) =
  if ConverterSpec.drops_lost c then 0%Z else (Z.of_N (lo_lost l) * sample_load ids periods (Some (lo_id l)) 0)%Z.
Proof using He.
  unfold lost_briefs. destruct (Z.eqb_spec (id_index e (Some (lo_id l))) (-1)) as [Z|Z].
  - rewrite (index_none _ 0 Z). cbn. destruct (ConverterSpec.drops_lost c); lia.
  - rewrite map_repeat, sum_repeat, (index_load _ true 0 Z). cbn [andb]. rewrite N_nat_Z.
    destruct (ConverterSpec.drops_lost c); lia.
Qed.
Variables md5 base : list N -> N.
Lemma msg_load x : ConverterSpec.sum (map brief_load (msg_briefs md5 base e x)) =
  record_load ids periods (ne_lost_samples e) (ConverterSpec.drops_lost c) x.
Proof using He.
  unfold msg_briefs, event_briefs, proto_event, record_load. cbn [fst snd ev_what].
  destruct (xe_body x) as [|m|sm|cm|f|f|l|th|au|it|ls|sw|ns|cg|ks|bp|ai|at_|ae|ix|tm|sc|sv|t1 t2|tc];
    try reflexivity; try (destruct (ne_lost_samples e); reflexivity).
  - cbn [proto_sample s_id s_period]. destruct (Z.eqb_spec (id_index e (xsa_id sm)) (-1)) as [Z|Z].
    + now rewrite (index_none _ _ Z).
    + cbn [map ConverterSpec.sum fold_right]. rewrite (index_load _ false _ Z). cbn [andb]. lia.
  - destruct (ne_lost_samples e); [reflexivity|]. apply lost_load.
  - destruct (ne_lost_samples e); [|reflexivity]. apply lost_load.
Qed.
Lemma messages_load xs : ConverterSpec.sum (map brief_load (flat_map (msg_briefs md5 base e) xs)) =
  total_load ids periods (ne_lost_samples e) (ConverterSpec.drops_lost c) xs.
Proof using He.
  unfold total_load, total_z. induction xs as [|x xs IH]; [reflexivity|]. cbn [flat_map map fold_right].
  now rewrite map_app, sum_app, IH, msg_load.
Qed.
End Loads.
