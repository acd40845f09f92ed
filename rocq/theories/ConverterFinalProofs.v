(** The whole conversion: from the callbacks to the profiles. *)
From Coq Require Import String.
From Verif Require Import Base BytesModel TextModel Assoc ProfileModel BuilderModel BuilderSpec BuilderProofs
  SpeModel PerfProto NormalizerModel NormalizerSpec NormalizerProofs NormalizerProps NormalizerRangeProofs
  ConverterModel ConverterSpec ConverterProofs
  ConverterOpenProofs ConverterInvProofs ConverterKeyProofs ConverterStateProofs ConverterRunProofs ConverterTrackProofs
  ConverterMainProofs ConverterTotalProofs.
Local Open Scope N_scope.
Local Open Scope list_scope.

Lemma convert_run c hs ps :
  process (cf_data c) = Ok hs -> convert c = Ok ps ->
  exists s os, run_calls c cstate0 hs = Ok (s, os) /\ ps = profiles s /\
    List.length (cs_metas s) = List.length (cs_builders s).
Proof.
  intros P C. destruct (convert_inv _ _ C) as (hs' & s & os & P' & X). rewrite P in P'. injection P' as <-. eauto.
Qed.

Lemma convert_builder s p :
  List.length (cs_metas s) = List.length (cs_builders s) -> In p (profiles s) ->
  exists k b m, nth_error (cs_builders s) k = Some b /\ nth_error (cs_metas s) k = Some m /\ p = make_profile s b m.
Proof.
  intros L Hp. apply In_nth_error in Hp. destruct Hp as (k & Hp). pose proof (profiles_nth s L k) as X.
  destruct (nth_error (cs_builders s) k) as [b|] eqn:EB; [|congruence].
  destruct X as (m & A & B). exists k, b, m. split; [exact EB|]. split; [exact A|]. congruence.
Qed.

Lemma final_core c hs s os :
  never_reset c hs -> run_calls c cstate0 hs = Ok (s, os) ->
  Inv c (pointed hs) (rev hs ++ []) s /\
  forall k b, nth_error (cs_builders s) k = Some b -> b_profile (fst (finalize b)) = b_profile b.
Proof.
  intros NR H. destruct (run_inv _ _ _ _ _ _ _ (inv0 c (pointed hs)) (pointed_known hs) (never_reset_spec _ _ NR) H) as (I & _).
  split; [exact I|]. intros k b Hb. apply finalize_core. exact (proj1 (iv_core _ _ _ _ I k b Hb)).
Qed.

Lemma convert_totals c hs ps i :
  process (cf_data c) = Ok hs -> convert c = Ok ps ->
  total ps (2 * i) = Z.of_nat (List.length (filter (sample_of c i) hs)) /\
  total ps (2 * i + 1) = sum (map (weight c i) (filter (sample_of c i) hs)).
Proof.
  intros P C. destruct (convert_run _ _ _ P C) as (s & os & H & -> & L).
  destruct (run_column _ _ _ _ _ i H) as (A & B). rewrite !profiles_total by exact L. split; [exact A|exact B].
Qed.

Lemma convert_counted c hs ps :
  process (cf_data c) = Ok hs -> convert c = Ok ps -> exists os, counted c hs ps os.
Proof.
  intros P C. destruct (convert_run _ _ _ P C) as (s & os & H & -> & L). exists os. now apply run_counted.
Qed.

Lemma convert_inside c hs ps p :
  process (cf_data c) = Ok hs -> Forall addresses_ok hs -> never_reset c hs -> convert c = Ok ps -> In p ps ->
  locations_inside (pr_data p).
Proof.
  intros P A NR C Hp. destruct (convert_run _ _ _ P C) as (s & os & H & -> & L).
  destruct (convert_builder _ _ L Hp) as (k & b & m & EB & _ & ->). cbn [make_profile pr_data].
  destruct (final_core _ _ _ _ NR H) as (_ & F). rewrite (F k b EB).
  destruct (run_inv _ _ _ _ _ _ _ (inv0 c (pointed hs)) (pointed_known hs) (never_reset_spec _ _ NR) H) as (_ & _ & X).
  exact (X all_inside0 (pointed_within _ _ _ P A) k b EB).
Qed.

Lemma convert_sound c hs ps p :
  process (cf_data c) = Ok hs -> never_reset c hs -> convert c = Ok ps -> In p ps -> sound c (pr_data p).
Proof.
  intros P NR C Hp. destruct (convert_run _ _ _ P C) as (s & os & H & -> & L).
  destruct (convert_builder _ _ L Hp) as (k & b & m & EB & _ & ->). cbn [make_profile pr_data].
  destruct (final_core _ _ _ _ NR H) as (I & F). rewrite (F k b EB).
  destruct (iv_core _ _ _ _ I k b EB) as (X & Y & Z). now apply core_sound.
Qed.

Lemma convert_samples c hs ps :
  process (cf_data c) = Ok hs -> never_reset c hs -> convert c = Ok ps ->
  exists os, counted c hs ps os /\ map (option_map fst) os = assigned c hs /\
    (forall i j cx cy r r', (i < j)%nat -> placed_at hs os i cx r -> placed_at hs os j cy r' ->
       (r = r' <-> alike c hs i j cx cy)) /\
    (forall i cx r, placed_at hs os i cx r -> exists p s,
       nth_error ps (fst r) = Some p /\ nth_error (pf_sample (pr_data p)) (snd r) = Some s /\
       Forall2 (fun a id => location_at (pr_data p) id a) (map fst (stack_frames c cx)) (ps_loc s)) /\
    (forall i cx r, placed_at hs os i cx r -> (forall j, (j < i)%nat -> nth_error os j <> Some (Some r)) ->
       exists p s, nth_error ps (fst r) = Some p /\ nth_error (pf_sample (pr_data p)) (snd r) = Some s /\
         Forall2 (reads (pr_data p)) (ps_label s) (expected_labels c (before i hs) cx)).
Proof.
  intros P NR C. destruct (convert_run _ _ _ P C) as (s & os & H & -> & L). exists os.
  pose proof (never_reset_spec _ _ NR) as NR'. destruct (final_core _ _ _ _ NR H) as (_ & F).
  assert (PN : forall k b, nth_error (cs_builders s) k = Some b ->
            exists p, nth_error (profiles s) k = Some p /\ pr_data p = b_profile b).
  { intros k b EB. pose proof (profiles_nth s L k) as X. rewrite EB in X. destruct X as (m & _ & X).
    eexists. split; [exact X|]. cbn [make_profile pr_data]. exact (F k b EB). }
  split; [now apply run_counted|]. split; [|split; [|split]].
  - exact (run_assigned _ _ _ _ _ _ _ _ (inv0 c (pointed hs)) (pointed_known hs) NR' open0 H).
  - intros i j cx cy r r' Hij. exact (merge_iff _ _ _ _ _ _ _ _ _ _ _ (pointed_known hs) NR' H Hij).
  - intros i cx r Hi. destruct (stack_final _ _ _ _ _ _ _ _ (pointed_known hs) NR' H Hi) as (b & p & EB & EP & X).
    destruct (PN _ _ EB) as (q & E1 & E2). exists q, p. rewrite E2. auto.
  - intros i cx r Hi Hf. destruct (labels_final _ _ _ _ _ _ _ _ (pointed_known hs) NR' H Hi Hf) as (b & p & EB & EP & X).
    destruct (PN _ _ EB) as (q & E1 & E2). exists q, p. rewrite E2. auto.
Qed.

Lemma stamped_times l : forall m,
  fold_left (fun m cx => stamped (dflt (s_time (cx_sample cx))) m) l m =
  fold_left (fun m t => update_times t m) (times l) m.
Proof.
  unfold times. induction l as [|cx l IH]; intros m; cbn [fold_left map filter]; [reflexivity|].
  rewrite IH. unfold stamped.
  destruct (int64_of (dflt (s_time (cx_sample cx))) =? 0)%Z; reflexivity.
Qed.

Lemma convert_times c hs ps k p :
  process (cf_data c) = Ok hs -> convert c = Ok ps -> nth_error ps k = Some p ->
  let l := filed k hs (assigned c hs) in
  l <> [] /\ (forall cx, In cx l -> filed_under c cx = pr_pid p) /\
  (times l = [] -> pr_min p = 0 /\ pr_max p = 0)%Z /\
  (times l <> [] -> In (pr_min p) (times l) /\ In (pr_max p) (times l) /\
     forall t, In t (times l) -> (pr_min p <= t <= pr_max p)%Z).
Proof.
  intros P C Hp l. destruct (convert_run _ _ _ P C) as (s & os & H & -> & L).
  pose proof (profiles_nth s L k) as X. destruct (nth_error (cs_builders s) k) as [b|] eqn:EB; [|congruence].
  destruct X as (m & A & B). assert (p = make_profile s b m) by congruence. subst p.
  destruct (run_open _ _ _ _ _ _ open0 H) as (_ & Y). destruct (Y k) as (Y1 & Y2).
  change (filed k hs (assign c (List.length (cs_builders cstate0)) (fun _ => None) hs)) with l in *.
  cbn [make_profile pr_pid pr_min pr_max]. rewrite A in Y1. unfold meta_after in Y1.
  replace (nth_error (cs_metas cstate0) k) with (@None pmeta) in Y1 by (now destruct k).
  destruct l as [|cx0 l0] eqn:EL; [discriminate Y1|]. rewrite stamped_times in Y1.
  apply (f_equal (fun o => match o with Some x => x | None => m end)) in Y1. cbv beta iota in Y1.
  split; [discriminate|]. split; [intros cx Hc; exact (Y2 m cx A Hc)|].
  assert (NZ : forall t, In t (times (cx0 :: l0)) -> t <> 0%Z).
  { intros t Ht. unfold times in Ht. apply filter_In in Ht. destruct Ht as (_ & Ht). intros ->. discriminate Ht. }
  destruct (span (times (cx0 :: l0)) (filed_under c cx0) NZ) as (_ & S1 & S2). rewrite <- Y1 in S1, S2.
  split; [exact S1|exact S2].
Qed.

Lemma convert_profile_count c hs ps k :
  process (cf_data c) = Ok hs -> convert c = Ok ps -> filed k hs (assigned c hs) <> [] -> (k < List.length ps)%nat.
Proof.
  intros P C Hl. destruct (convert_run _ _ _ P C) as (s & os & H & -> & L).
  destruct (run_open _ _ _ _ _ _ open0 H) as (_ & Y). destruct (Y k) as (Y1 & _). unfold meta_after in Y1.
  replace (nth_error (cs_metas cstate0) k) with (@None pmeta) in Y1 by (now destruct k).
  change (assign c (List.length (cs_builders cstate0)) (fun _ => None) hs) with (assigned c hs) in Y1.
  destruct (filed k hs (assigned c hs)) as [|cx l]; [now contradiction Hl|].
  apply nth_error_len_some in Y1. unfold profiles. rewrite map_length, combine_length, L. rewrite L in Y1. lia.
Qed.

Lemma convert_stats c hs ps p :
  process (cf_data c) = Ok hs -> convert c = Ok ps -> In p ps ->
  pr_stats p = flat_map (sources c (pr_pid p)) hs.
Proof.
  intros P C Hp. destruct (convert_run _ _ _ P C) as (s & os & H & -> & L).
  destruct (convert_builder _ _ L Hp) as (k & b & m & _ & _ & ->). cbn [make_profile pr_stats pr_pid].
  rewrite (run_stats _ _ _ _ _ H). cbn [cs_stats cstate0 app]. clear. induction hs as [|h hs IH]; [reflexivity|].
  cbn [flat_map]. rewrite filter_app, map_app, IH. f_equal. destruct h as [cx| |]; try reflexivity.
  cbn [counted_sources sources]. destruct (kept c cx); [|reflexivity]. cbn [andb].
  generalize (code_frames cx). intros fs. destruct (dflt (s_pid (cx_sample cx)) =? pm_pid m) eqn:E.
  - induction fs as [|f fs IHf]; [reflexivity|]. cbn [map filter fst]. rewrite E. cbn [map snd]. rewrite IHf.
    destruct f as [a [[q x]|]]; reflexivity.
  - induction fs as [|f fs IHf]; [reflexivity|]. cbn [map filter fst]. now rewrite E.
Qed.

Lemma convert_total c hs :
  process (cf_data c) = Ok hs -> Forall addresses_ok hs -> never_reset c hs -> option_on c 2 = false -> fits c hs ->
  exists ps, convert c = Ok ps.
Proof.
  intros P A NR F FT. unfold convert. rewrite P. cbn [obind].
  destruct (run_total c (pointed hs) hs [] cstate0 0%Z (inv0 c _) (pointed_known hs) (never_reset_spec _ _ NR) A F) as (s & os & E).
  - intros x q m Hx Hm. pose proof (process_ranges _ _ _ _ _ P Hx Hm). lia.
  - intros x j. rewrite cell0. cbn. lia.
  - exact FT.
  - rewrite E. cbn [obind]. eauto.
Qed.
