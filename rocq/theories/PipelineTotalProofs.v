(** C62: totals of the profiles, and where addresses are mapped. *)
From Coq Require Import String Permutation.
From Verif Require Import Base BytesModel TextModel Assoc PerfProto NormalizerModel NormalizerProofs NormalizerProps.
From Verif Require EventSizeModel FileModel SerializerModel AttrModel ReaderOpsModel HugePageModel HugePageSpec HugePageProps
  ParserModel ConverterModel ConverterSpec ConverterProps.
From Verif Require Import PipelineModel PipelineSpec PipelineHugeProofs PipelineCallProofs PipelineProofs PipelineParserProofs.
Import SerializerModel.
Local Open Scope N_scope.
Local Open Scope list_scope.

Lemma map_repeat {A B} (f : A -> B) a n : map f (repeat a n) = repeat (f a) n.
Proof. induction n; cbn; congruence. Qed.

Lemma filter_flat {A B} (p : B -> bool) (f : A -> list B) l : filter p (flat_map f l) = flat_map (fun a => filter p (f a)) l.
Proof. induction l; [reflexivity|]. cbn [flat_map]. rewrite filter_app. now rewrite IHl. Qed.
Lemma filter_repeat {A} (p : A -> bool) a n : filter p (repeat a n) = if p a then repeat a n else [].
Proof. induction n as [|n IH]; cbn [repeat filter]; [now destruct (p a)|]. rewrite IH. now destruct (p a). Qed.
Lemma sum_repeat w n : ConverterSpec.sum (repeat w n) = (Z.of_nat n * w)%Z.
Proof. induction n as [|n IH]; [reflexivity|]. cbn [repeat ConverterSpec.sum fold_right]. unfold ConverterSpec.sum in IH. rewrite IH, Nat2Z.inj_succ, Z.mul_succ_l. lia. Qed.
Lemma sum_app a b : ConverterSpec.sum (a ++ b) = (ConverterSpec.sum a + ConverterSpec.sum b)%Z.
Proof. induction a as [|x a IH]; [reflexivity|]. unfold ConverterSpec.sum in *. cbn [app fold_right] in *. rewrite IH. lia. Qed.
Lemma total_z_app a b : total_z (a ++ b) = (total_z a + total_z b)%Z.
Proof. induction a as [|x a IH]; [reflexivity|]. unfold total_z in *. cbn [app fold_right] in *. rewrite IH. lia. Qed.

Section Total.
Variable md5 : list N -> N.
Variable base : list N -> N.
Variable c : ConverterModel.cfg.
Variable e : nenv.
Hypothesis He : normalizer_env (ConverterModel.cf_data c) = Ok e.
Variable i : nat.
Hypothesis Hi : (i < ConverterSpec.events c)%nat.

Let ids := map fa_ids (pp_attrs (ConverterModel.cf_data c)).
Let period := match nth_error (pp_attrs (ConverterModel.cf_data c)) i with Some a => fa_period a | None => 0 end.

(** The part of one message in the totals. *)
Definition msg_count (x : x_event) : Z :=
  Z.of_nat (List.length (samples_of ids i [x])) +
  (if ConverterSpec.drops_lost c then 0 else Z.of_N (total_of (lost_of ids i (ne_lost_samples e) [x]))).
Definition msg_weight (x : x_event) : Z :=
  total_z (map (fun s => weighs period (dflt (xsa_period s))) (samples_of ids i [x])) +
  (if ConverterSpec.drops_lost c then 0 else Z.of_N (total_of (lost_of ids i (ne_lost_samples e) [x])) * weighs period 0).

Lemma brief_index z l p id : z = match event_of ids id with Some j => Z.of_nat j | None => (-1)%Z end ->
  brief_of c i (z, l, p) = is_event i (event_of ids id) && negb (l && ConverterSpec.drops_lost c).
Proof using Hi.
  intros ->. unfold brief_of, is_event. destruct (event_of ids id) as [j|] eqn:E.
  - apply event_of_bound in E. unfold ids in E. rewrite map_length in E. unfold ConverterSpec.events in *.
    assert ((0 <=? Z.of_nat j)%Z = true) as -> by (apply Z.leb_le; lia).
    assert ((Z.of_nat j <? Z.of_nat (List.length (pp_attrs (ConverterModel.cf_data c))))%Z = true) as ->
      by (apply Z.ltb_lt; lia).
    cbn [andb]. destruct (i =? j)%nat eqn:B.
    + apply Nat.eqb_eq in B. subst. rewrite Z.eqb_refl. now rewrite andb_true_r.
    + apply Nat.eqb_neq in B. assert ((Z.of_nat j =? Z.of_nat i)%Z = false) as -> by (apply Z.eqb_neq; lia).
      now rewrite andb_false_r.
  - reflexivity.
Qed.
Lemma none_minus_one id : match event_of ids id with Some j => Z.of_nat j | None => (-1)%Z end = (-1)%Z ->
  event_of ids id = None.
Proof. destruct (event_of ids id); [lia|reflexivity]. Qed.

Lemma lost_part l :
  let b := filter (brief_of c i) (lost_briefs e l) in
  let here := is_event i (event_of ids (Some (lo_id l))) && negb (ConverterSpec.drops_lost c) in
  b = if here then repeat (id_index e (Some (lo_id l)), true, 0) (N.to_nat (lo_lost l)) else [].
Proof using He Hi.
  cbn zeta. unfold lost_briefs. rewrite (index_event _ _ (Some (lo_id l)) He). fold ids.
  destruct (Z.eqb_spec (match event_of ids (Some (lo_id l)) with Some j => Z.of_nat j | None => (-1)%Z end) (-1)%Z) as [Z|Z].
  - apply none_minus_one in Z. now rewrite Z.
  - rewrite filter_repeat, (brief_index _ true 0 (Some (lo_id l)) eq_refl). reflexivity.
Qed.
Lemma msg_part x :
  Z.of_nat (List.length (filter (brief_of c i) (msg_briefs md5 base e x))) = msg_count x /\
  ConverterSpec.sum (map (brief_weight c i) (filter (brief_of c i) (msg_briefs md5 base e x))) = msg_weight x.
Proof using He Hi.
  unfold msg_briefs, event_briefs, proto_event, msg_count, msg_weight, samples_of, lost_of. cbn [fst snd ev_what flat_map].
  assert (Z0 : forall (b : bool), (if b then 0 else Z.of_N (total_of []))%Z = 0%Z) by (intros []; reflexivity).
  assert (Z1 : forall (b : bool) w, (if b then 0 else Z.of_N (total_of []) * w)%Z = 0%Z) by (intros []; reflexivity).
  assert (L : forall l : lost_ev, 
     Z.of_nat (List.length (filter (brief_of c i) (lost_briefs e l))) =
       (if ConverterSpec.drops_lost c then 0
        else Z.of_N (total_of ((if is_event i (event_of ids (Some (lo_id l))) then [lo_lost l] else []) ++ [])))%Z /\
     ConverterSpec.sum (map (brief_weight c i) (filter (brief_of c i) (lost_briefs e l))) =
       (if ConverterSpec.drops_lost c then 0
        else Z.of_N (total_of ((if is_event i (event_of ids (Some (lo_id l))) then [lo_lost l] else []) ++ [])) * weighs period 0)%Z).
  { intros l. pose proof (lost_part l) as H. cbn zeta in H. rewrite H. clear H.
    destruct (is_event i (event_of ids (Some (lo_id l)))); destruct (ConverterSpec.drops_lost c); cbn [negb andb]; try (split; reflexivity).
    rewrite repeat_length, map_repeat, sum_repeat. cbn [app total_of fold_right]. rewrite N.add_0_r.
    rewrite N_nat_Z. split; [reflexivity|]. f_equal. }
  destruct (xe_body x) as [|m|sm|cm|f|f|l|th|au|it|ls|sw|ns|cg|ks|bp|ai|at_|ae|ix|tm|sc|sv|t1 t2|tc]; cbn [app];
    try (rewrite ?Z0, ?Z1; split; reflexivity);
    try (destruct (ne_lost_samples e); cbn [app]; rewrite ?Z0, ?Z1; split; reflexivity).
  - cbn [proto_sample s_id s_period]. rewrite (index_event _ _ (xsa_id sm) He). fold ids.
    assert (Z0' : (if ConverterSpec.drops_lost c then 0 else Z.of_N (total_of (if ne_lost_samples e then [] else [])))%Z = 0%Z)
      by (destruct (ne_lost_samples e); apply Z0).
    assert (Z1' : forall w, (if ConverterSpec.drops_lost c then 0 else Z.of_N (total_of (if ne_lost_samples e then [] else [])) * w)%Z = 0%Z)
      by (intros w; destruct (ne_lost_samples e); apply Z1).
    rewrite ?app_nil_r.
    destruct (Z.eqb_spec (match event_of ids (xsa_id sm) with Some j => Z.of_nat j | None => (-1)%Z end) (-1)%Z) as [Z|Z].
    + apply none_minus_one in Z. rewrite Z. cbn [is_event filter map]. destruct (ne_lost_samples e); cbn [app]; rewrite Z0, Z1; split; reflexivity.
    + cbn [filter]. rewrite (brief_index _ false (dflt (xsa_period sm)) (xsa_id sm) eq_refl). cbn [andb negb]. rewrite andb_true_r.
      destruct (is_event i (event_of ids (xsa_id sm))); destruct (ne_lost_samples e); cbn [app map total_z fold_right List.length ConverterSpec.sum];
        rewrite Z0, Z1; split; try reflexivity; cbn [brief_weight]; unfold weighs; fold period;
        unfold signed, ConverterSpec.int64_of; lia.
  - specialize (L {| lo_id := xl_id l; lo_lost := xl_lost l; lo_pid := dflt (xi_pid (xl_info l)); lo_tid := dflt (xi_tid (xl_info l)) |}).
    cbn [lo_id lo_lost] in L. destruct (ne_lost_samples e); [rewrite Z0, Z1; split; reflexivity|]. destruct L as (-> & ->).
    split; cbn [List.length map total_z fold_right]; lia.
  - specialize (L {| lo_id := dflt (xi_id (xls_info ls)); lo_lost := xls_lost ls; lo_pid := dflt (xi_pid (xls_info ls)); lo_tid := dflt (xi_tid (xls_info ls)) |}).
    cbn [lo_id lo_lost] in L. destruct (ne_lost_samples e); [|rewrite Z0, Z1; split; reflexivity]. destruct L as (-> & ->).
    split; cbn [List.length map total_z fold_right]; lia.
Qed.

Lemma samples_cons x xs : samples_of ids i (x :: xs) = samples_of ids i [x] ++ samples_of ids i xs.
Proof. unfold samples_of. cbn [flat_map]. now rewrite app_nil_r. Qed.
Lemma lost_cons new x xs : lost_of ids i new (x :: xs) = lost_of ids i new [x] ++ lost_of ids i new xs.
Proof. unfold lost_of. cbn [flat_map]. now rewrite app_nil_r. Qed.
Lemma total_of_app a b : total_of (a ++ b) = total_of a + total_of b.
Proof. induction a as [|x a IH]; [reflexivity|]. unfold total_of in *. cbn [app fold_right] in *. rewrite IH. lia. Qed.

Lemma messages_part xs :
  Z.of_nat (List.length (filter (brief_of c i) (flat_map (msg_briefs md5 base e) xs))) =
    (Z.of_nat (List.length (samples_of ids i xs)) +
     (if ConverterSpec.drops_lost c then 0 else Z.of_N (total_of (lost_of ids i (ne_lost_samples e) xs))))%Z /\
  ConverterSpec.sum (map (brief_weight c i) (filter (brief_of c i) (flat_map (msg_briefs md5 base e) xs))) =
    (total_z (map (fun s => weighs period (dflt (xsa_period s))) (samples_of ids i xs)) +
     (if ConverterSpec.drops_lost c then 0 else Z.of_N (total_of (lost_of ids i (ne_lost_samples e) xs)) * weighs period 0))%Z.
Proof using He Hi.
  induction xs as [|x xs (IH1 & IH2)]; [destruct (ConverterSpec.drops_lost c); split; reflexivity|].
  cbn [flat_map]. rewrite filter_app, app_length, map_app, sum_app, Nat2Z.inj_add, IH1, IH2.
  destruct (msg_part x) as (-> & ->). unfold msg_count, msg_weight.
  rewrite (samples_cons x xs), (lost_cons _ x xs), app_length, map_app, total_z_app, total_of_app, Nat2Z.inj_add, N2Z.inj_add.
  destruct (ConverterSpec.drops_lost c); split; try lia.
Qed.
End Total.

(** ** Parts of a run *)

Section Runs.
Variable md5 : list N -> N.
Variable base : list N -> N.

Lemma to_proto_parts order options ids sw st p : to_proto md5 base order options ids sw st = Ok p ->
  exists xs ys bs evs out,
    PipelineModel.each (message (serializer sw st)) (FileModel.fs_events st) = Ok xs /\
    arrange st ids xs = (ys, bs) /\ huge_pages md5 order ys = Ok evs /\
    ParserModel.parse_raw_events (parser_options options) (map parser_view evs) = Ok out /\
    pp_attrs p = map proto_attr (FileModel.fs_attrs st) /\ pp_events p = map (proto_event md5 base) evs /\
    pp_version p = aget N.eqb 5 (FileModel.fm_strings (FileModel.fs_meta st)).
Proof.
  unfold to_proto. intros H. ok_inv H. rename a into xs. destruct (arrange st ids xs) as (ys, bs) eqn:A.
  ok_inv H0. ok_inv H. injection H0 as <-. exists xs, ys, bs, a, a0. repeat split; auto.
Qed.

Lemma each_nth {A B} (f : A -> outcome B) l : forall out, PipelineModel.each f l = Ok out -> Forall2 (fun a b => f a = Ok b) l out.
Proof.
  induction l as [|a l IH]; intros out H; cbn [PipelineModel.each] in H; [injection H as <-; constructor|].
  ok_inv H. ok_inv H0. injection H as <-. constructor; auto.
Qed.
Lemma message_type s ev x : message s ev = Ok x ->
  xe_type x = 1 \/ xe_type x = 10 -> is_map x = true.
Proof.
  unfold message. intros H. ok_inv H. injection H0 as <-. unfold serialize in E. ok_inv E. injection H as <-.
  unfold with_trace. cbn [xe_body].
  intros T. assert (T' : EventSizeModel.ev_type (FileModel.fe_raw ev) = 1 \/ EventSizeModel.ev_type (FileModel.fe_raw ev) = 10)
    by (destruct a0; exact T). clear T.
  assert (K : exists m, a0 = XBMmap m).
  { destruct (64 <=? _) eqn:G in E0; [apply N.leb_le in G; lia|].
    unfold ser_kernel in E0. destruct T' as [T|T]; rewrite T in E0.
    - change (1 =? EventSizeModel.R_SAMPLE) with false in E0. change (1 =? EventSizeModel.R_MMAP) with true in E0. cbv beta iota in E0.
      unfold omap in E0. destruct (ser_mmap s (FileModel.fe_raw ev)); try discriminate. injection E0 as <-. eauto.
    - change (10 =? EventSizeModel.R_SAMPLE) with false in E0. change (10 =? EventSizeModel.R_MMAP) with false in E0.
      change (10 =? EventSizeModel.R_MMAP2) with true in E0. cbv beta iota in E0.
      unfold omap in E0. destruct (ser_mmap2 s (FileModel.fe_raw ev)); try discriminate. injection E0 as <-. eauto. }
  destruct K as (m & ->). reflexivity.
Qed.

(** The events the parser sees have their mappings. *)
Lemma views_have_maps order sw st ids xs ys bs evs :
  PipelineModel.each (message (serializer sw st)) (FileModel.fs_events st) = Ok xs -> arrange st ids xs = (ys, bs) ->
  huge_pages md5 order ys = Ok evs -> Forall has_its_map (map parser_view evs).
Proof.
  intros M A Hg. apply arrange_ok, arranged_perm in A. destruct (huge_pages_ok _ _ _ _ Hg) as (_ & Im).
  rewrite Forall_forall. intros pe I. apply in_map_iff in I as ((x, m) & <- & I).
  destruct (Im x m I) as (Ix & Mx). apply (Permutation_in _ (Permutation_sym A)) in Ix.
  intros T. cbn [parser_view fst ParserModel.e_type] in T.
  assert (X : is_map x = true).
  { apply each_nth in M. clear - M Ix T. induction M as [|ev y l l' E M IH]; [contradiction|].
    destruct Ix as [->|Ix]; [|now apply IH]. eapply message_type; eauto. }
  rewrite X in Mx. destruct m as [m|]; [|discriminate]. cbn [parser_view snd ParserModel.e_body]. eauto.
Qed.
End Runs.

(** ** Mappings *)

Section Maps.
Variable md5 : list N -> N.
Variable base : list N -> N.
Import HugePageModel HugePageSpec.

Lemma coversb_eq m a : coversb m a = (v_start m <=? a) && (a <? v_start m + v_len m).
Proof. reflexivity. Qed.

(** The last mapping over an address, among the mappings with their processes. *)
Definition over (k a : N) (m : vmap) : bool := (key_of m =? k) && coversb m a.
Definition all_maps (evs : list pevent) : list vmap := flat_map (fun e => match e_map e with Some m => [m] | None => [] end) evs.
Lemma maps_filter k evs : maps_of k evs = filter (fun m => key_of m =? k) (all_maps evs).
Proof.
  induction evs as [|e evs IH]; [reflexivity|]. cbn [maps_of all_maps flat_map]. fold (all_maps evs). fold (maps_of k evs).
  rewrite filter_app, <- IH. f_equal. destruct (e_map e); [|reflexivity]. cbn [filter]. now destruct (_ =? _).
Qed.
Lemma find_filter {A} (p q : A -> bool) l : find p (filter q l) = find (fun a => q a && p a) l.
Proof.
  induction l as [|a l IH]; [reflexivity|]. cbn [filter find]. destruct (q a); cbn [find andb]; [|exact IH].
  destruct (p a); [reflexivity|exact IH].
Qed.
Lemma filter_rev' {A} (p : A -> bool) l : filter p (rev l) = rev (filter p l).
Proof.
  induction l as [|a l IH]; [reflexivity|]. cbn [rev filter]. rewrite filter_app, IH. cbn [filter].
  destruct (p a); [reflexivity|]. now rewrite app_nil_r.
Qed.
Lemma owner_over k a evs : owner k a evs = find (over k a) (rev (all_maps evs)).
Proof. unfold owner. now rewrite maps_filter, <- filter_rev', find_filter. Qed.

Lemma find_map {A B} (f : A -> B) (p : B -> bool) l : find p (map f l) = option_map f (find (fun a => p (f a)) l).
Proof. induction l as [|a l IH]; [reflexivity|]. cbn [map find]. now destruct (p (f a)). Qed.
Lemma find_ext_in {A} (p q : A -> bool) l : (forall a, In a l -> p a = q a) -> find p l = find q l.
Proof.
  induction l as [|a l IH]; intros H; [reflexivity|]. cbn [find]. rewrite (H a) by now left.
  rewrite IH by (intros b I; apply H; now right). reflexivity.
Qed.

(** Messages as they are seen. *)
Lemma numbered_flat {A B C} (f : nat -> A -> B) (g : B -> list C) (h : A -> list C) l :
  (forall i x, In x l -> g (f i x) = h x) -> flat_map g (numbered f l) = flat_map h l.
Proof.
  unfold numbered. generalize O. induction l as [|x l IH]; intros n H; [reflexivity|].
  cbn [List.length List.seq combine map flat_map fst snd]. rewrite (H n x) by now left. f_equal. apply IH.
  intros j y I. apply H. now right.
Qed.
Definition seen (x : x_event) : list (x_event * x_mmap) := match xe_body x with XBMmap m => [(x, m)] | _ => [] end.
Lemma all_maps_view xs : all_maps (numbered (huge_view md5) xs) = map (fun xm => huge_map md5 (fst xm) (snd xm)) (flat_map seen xs).
Proof.
  unfold all_maps. rewrite (numbered_flat _ _ (fun x => map (fun xm => huge_map md5 (fst xm) (snd xm)) (seen x))).
  - induction xs as [|x xs IH]; [reflexivity|]. cbn [flat_map]. now rewrite map_app, IH.
  - intros j x _. unfold huge_view, seen. cbn [e_map]. now destruct (xe_body x).
Qed.
Lemma mappings_seen xs : mappings xs = map snd (flat_map seen xs).
Proof. unfold mappings. induction xs as [|x xs IH]; [reflexivity|]. cbn [flat_map]. rewrite map_app, <- IH. f_equal. unfold seen. now destruct (xe_body x). Qed.

Lemma message_owner k a xs : (forall m, In m (mappings xs) -> xm_pid m < 2 ^ 32) ->
  match message_map k a xs with
  | None => owner k a (numbered (huge_view md5) xs) = None
  | Some m => exists x, owner k a (numbered (huge_view md5) xs) = Some (huge_map md5 x m)
  end.
Proof.
  intros P. rewrite owner_over, all_maps_view. unfold message_map. rewrite mappings_seen, <- !map_rev, !find_map.
  set (l := rev (flat_map seen xs)).
  assert (E : find (fun x : x_event * x_mmap => over k a (huge_map md5 (fst x) (snd x))) l =
              find (fun x => (xm_pid (snd x) =? k) && (xm_start (snd x) <=? a) && (a <? xm_start (snd x) + xm_len (snd x))) l).
  { apply find_ext_in. intros (x, m) I. unfold over, coversb, key_of, huge_map. cbn [fst snd v_start v_len v_pid].
    unfold w32, two32. rewrite N.mod_small; [now rewrite andb_assoc|]. apply P. rewrite mappings_seen. apply in_map_iff.
    exists (x, m). split; [reflexivity|]. unfold l in I. now apply in_rev in I. }
  cbv beta. rewrite E. match goal with |- context [find ?f l] => destruct (find f l) as [y|] end;
    cbn [option_map]; [exists (fst y); reflexivity|reflexivity].
Qed.

Lemma event_owner order xs evs res k a :
  deduce order (numbered (huge_view md5) xs) = Ok evs -> combine_mappings evs = Ok res ->
  let fin := map (fun e => (nth (N.to_nat (e_other e)) xs nothing, e_map e)) res in
  (forall m, In m (all_maps res) -> exists p, v_pid m = Some p /\ p < 2 ^ 32) ->
  match owner k a res with
  | None => event_map k a (map (proto_event md5 base) fin) = None
  | Some m => exists m', event_map k a (map (proto_event md5 base) fin) = Some m' /\
                mm_file m' = v_file m /\ mm_pgoff m' = v_pgoff m /\ mm_start m' = v_start m /\ mm_len m' = v_len m /\
                mm_build m' = v_build m
  end.
Proof.
  intros D C fin P. rewrite owner_over.
  assert (E : event_maps (map (proto_event md5 base) fin) =
              map (fun m => {| mm_pid := dflt (v_pid m); mm_start := v_start m; mm_len := v_len m; mm_pgoff := v_pgoff m;
                     mm_file := v_file m; mm_md5 := v_md5 m; mm_build := v_build m |}) (all_maps res)).
  { unfold fin, event_maps, all_maps. clear. induction res as [|e res IH]; [reflexivity|]. cbn [map flat_map]. rewrite map_app, <- IH.
    f_equal. unfold proto_event. cbn [fst snd ev_what]. destruct (e_map e); [reflexivity|].
    now destruct (xe_body (nth (N.to_nat (e_other e)) xs nothing)). }
  unfold event_map. rewrite E, <- map_rev, find_map. cbn [mm_pid mm_start mm_len].
  set (l := rev (all_maps res)) in *.
  assert (E2 : find (fun m => (dflt (v_pid m) =? k) && (v_start m <=? a) && (a <? v_start m + v_len m)) l = find (over k a) l).
  { apply find_ext_in. intros m Im. unfold over, coversb, key_of. rewrite andb_assoc.
    destruct (P m) as (p & -> & B); [unfold l in Im; now apply in_rev in Im|].
    unfold dflt, w32, two32. now rewrite N.mod_small. }
  rewrite E2. destruct (find (over k a) l) as [m|]; cbn [option_map]; [|reflexivity].
  eexists. split; [reflexivity|]. cbn. auto.
Qed.

Lemma deduced_maps evs evs' :
  List.length evs' = List.length evs ->
  (forall i e, nth_error evs i = Some e -> exists e', nth_error evs' i = Some e' /\ deduced evs evs' i e e') ->
  Forall2 (fun e e' => e' = e \/ exists m m', e_map e = Some m /\ e_map e' = Some m' /\ huge_name (v_file m) /\
             v_pid m' = v_pid m /\ v_start m' = v_start m /\ v_len m' = v_len m) evs evs'.
Proof.
  intros L H.
  assert (G : forall i e e', nth_error evs i = Some e -> nth_error evs' i = Some e' ->
     e' = e \/ exists m m', e_map e = Some m /\ e_map e' = Some m' /\ huge_name (v_file m) /\
             v_pid m' = v_pid m /\ v_start m' = v_start m /\ v_len m' = v_len m).
  { intros i e e' E E'. destruct (H i e E) as (e2 & E2 & [->|(m & j & en & next & Hm & Hn & _ & _ & _ & _ & _ & _ & m' & R)]).
    - left. congruence.
    - right. exists m, m'. rewrite E' in E2. injection E2 as <-. destruct R as (R1 & _ & _ & _ & R2 & R3 & R4 & _). auto 10. }
  clear H. revert evs' L G. induction evs as [|e evs IH]; intros [|e' evs'] L G; try discriminate; constructor.
  - exact (G O e e' eq_refl eq_refl).
  - apply IH; [cbn in L; lia|]. intros i x x'. exact (G (S i) x x').
Qed.
Definition like (m m' : vmap) : Prop :=
  m' = m \/ (huge_name (v_file m) /\ v_pid m' = v_pid m /\ v_start m' = v_start m /\ v_len m' = v_len m).
Lemma like_maps evs evs' :
  Forall2 (fun e e' => e' = e \/ exists m m', e_map e = Some m /\ e_map e' = Some m' /\ huge_name (v_file m) /\
             v_pid m' = v_pid m /\ v_start m' = v_start m /\ v_len m' = v_len m) evs evs' ->
  Forall2 like (all_maps evs) (all_maps evs').
Proof.
  induction 1 as [|e e' l l' R F IH]; [constructor|]. cbn [all_maps flat_map]. apply Forall2_app; [|exact IH].
  destruct R as [->|(m & m' & -> & -> & R)].
  - destruct (e_map e); constructor; [now left|constructor].
  - constructor; [|constructor]. right. exact R.
Qed.
Lemma like_find k a l l' : Forall2 like l l' ->
  match find (over k a) l with
  | None => find (over k a) l' = None
  | Some m => exists m', find (over k a) l' = Some m' /\ like m m'
  end.
Proof.
  induction 1 as [|m m' l l' R F IH]; [reflexivity|]. cbn [find].
  assert (O : over k a m' = over k a m).
  { destruct R as [->|(_ & R1 & R2 & R3)]; [reflexivity|]. unfold over, coversb, key_of. now rewrite R1, R2, R3. }
  rewrite O. destruct (over k a m); [exists m'; auto|exact IH].
Qed.
Lemma Forall2_rev' {A B} (R : A -> B -> Prop) l l' : Forall2 R l l' -> Forall2 R (rev l) (rev l').
Proof. induction 1; cbn [rev]; [constructor|]. apply Forall2_app; auto. Qed.
End Maps.

Section MapsAll.
Variable md5 : list N -> N.
Variable base : list N -> N.
Import HugePageModel HugePageSpec.

Lemma in_all_maps m xs : In m (all_maps (numbered (huge_view md5) xs)) ->
  exists x xm, In xm (mappings xs) /\ m = huge_map md5 x xm.
Proof.
  rewrite all_maps_view. intros I. apply in_map_iff in I as ((x, xm) & <- & I). exists x, xm. split; [|reflexivity].
  rewrite mappings_seen. apply in_map_iff. exists (x, xm). auto.
Qed.
Lemma in_maps_event m evs : In m (all_maps evs) <-> exists e, In e evs /\ e_map e = Some m.
Proof.
  unfold all_maps. rewrite in_flat_map. split; intros (e & I & H); exists e; (split; [exact I|]).
  - destruct (e_map e); [destruct H as [->|[]]; reflexivity|contradiction].
  - rewrite H. now left.
Qed.
Lemma thinned_maps evs res : thinned evs res -> forall m', In m' (all_maps res) ->
  exists m, In m (all_maps evs) /\ v_pid m' = v_pid m.
Proof.
  induction 1 as [|e l l' T IH|e e' m m1 l l' E1 E2 _ _ _ S T IH|e m l l' E T IH]; intros m' I; cbn [all_maps flat_map] in *.
  - contradiction.
  - apply in_app_iff in I as [I|I]; [exists m'; split; [apply in_app_iff; now left|reflexivity]|].
    destruct (IH m' I) as (m & Im & P). exists m. split; [apply in_app_iff; now right|exact P].
  - apply in_app_iff in I as [I|I].
    + rewrite E2 in I. destruct I as [<-|[]]. exists m. rewrite E1. split; [now left|]. apply S.
    + destruct (IH m' I) as (m2 & Im & P). exists m2. split; [apply in_app_iff; now right|exact P].
  - destruct (IH m' I) as (m2 & Im & P). exists m2. split; [apply in_app_iff; now right|exact P].
Qed.

Theorem maps_kept order xs : NoDup order -> maps_end_in_memory xs ->
  exists evs, huge_pages md5 order xs = Ok evs /\
  forall pid a,
    match message_map pid a xs with
    | None => event_map pid a (map (proto_event md5 base) evs) = None
    | Some m => exists m', event_map pid a (map (proto_event md5 base) evs) = Some m' /\
        (~ huge_name (xm_filename m) ->
           mm_file m' = xm_filename m /\
           (mm_pgoff m' + (a - mm_start m')) mod 2 ^ 64 = (xm_pgoff m + (a - xm_start m)) mod 2 ^ 64)
    end.
Proof.
  intros ND EM. set (v := numbered (huge_view md5) xs).
  assert (Ty : Forall typed v).
  { rewrite Forall_forall. intros e I. unfold typed. destruct (e_map e) as [m|] eqn:M; [|exact Logic.I].
    destruct (in_all_maps m xs) as (x & xm & Ix & ->); [apply in_maps_event; eauto|].
    destruct (EM xm Ix). unfold huge_map. cbn [v_start v_len v_pgoff]. lia. }
  destruct (HugePageProps.C31_only_huge_pages_renamed order v ND Ty) as (evs & D & L & H).
  pose proof (deduced_maps _ _ L H) as F2. pose proof (like_maps _ _ F2) as LM.
  assert (EM' : Forall ends_in_memory evs).
  { rewrite Forall_forall. intros e' I. unfold ends_in_memory. destruct (e_map e') as [m'|] eqn:M; [|exact Logic.I].
    assert (In m' (all_maps evs)) as Im by (apply in_maps_event; eauto).
    assert (exists m, In m (all_maps v) /\ like m m') as (m & Iv & Lk).
    { clear - LM Im. induction LM as [|y z l l' R F IH]; [contradiction|]. destruct Im as [->|Im]; [exists y; split; [now left|exact R]|].
      destruct (IH Im) as (w & Iw & Rw). exists w. split; [now right|exact Rw]. }
    destruct (in_all_maps m xs Iv) as (x & xm & Ix & ->). destruct (EM xm Ix) as (B & _).
    destruct Lk as [->|(_ & _ & -> & ->)]; exact B. }
  destruct (HugePageProps.C30_translation_preserved evs EM') as (res & C & T & O).
  eexists. split.
  { unfold huge_pages. fold v. rewrite D. cbn [obind]. rewrite C. cbn [obind]. reflexivity. }
  intros pid a.
  assert (P : forall m, In m (all_maps res) -> exists p, v_pid m = Some p /\ p < 2 ^ 32).
  { intros m' I. destruct (thinned_maps _ _ T m' I) as (m1 & I1 & ->).
    assert (exists m, In m (all_maps v) /\ like m m1) as (m & Iv & Lk).
    { clear - LM I1. induction LM as [|y z l l' R F IH]; [contradiction|]. destruct I1 as [->|I1]; [exists y; split; [now left|exact R]|].
      destruct (IH I1) as (w & Iw & Rw). exists w. split; [now right|exact Rw]. }
    destruct (in_all_maps m xs Iv) as (x & xm & Ix & ->). destruct (EM xm Ix) as (_ & _ & B).
    exists (xm_pid xm). split; [|exact B]. destruct Lk as [->|(_ & -> & _)]; reflexivity. }
  pose proof (event_owner md5 base order xs evs res pid a D C P) as EO. cbn zeta in EO.
  pose proof (message_owner md5 pid a xs (fun m I => proj2 (proj2 (EM m I)))) as MO. fold v in MO.
  pose proof (like_find pid a _ _ (Forall2_rev' _ _ _ LM)) as LF. rewrite <- !owner_over in LF.
  specialize (O pid a).
  destruct (message_map pid a xs) as [xm|].
  - destruct MO as (x & MO). rewrite MO in LF. destruct LF as (m1 & O1 & Lk). rewrite O1 in O.
    destruct O as (m2 & O2 & K). rewrite O2 in EO. destruct EO as (m' & Em & F1 & F2' & F3 & F4 & _).
    exists m'. split; [exact Em|]. intros NH.
    assert (m1 = huge_map md5 x xm) as -> by (destruct Lk as [->|(HN & _)]; [reflexivity|contradiction]).
    destruct (K NH) as (K1 & K2). unfold offset in K2. cbn [huge_map v_file v_pgoff v_start] in K1, K2.
    rewrite F1, F2', F3. auto.
  - rewrite MO in LF. rewrite LF in O. rewrite O in EO. exact EO.
Qed.
End MapsAll.
