(** C63: a sound recording is converted. *)
From Coq Require Import String Permutation.
From Verif Require Import Base BytesModel TextModel Assoc PerfProto NormalizerModel NormalizerSpec NormalizerProofs
  NormalizerProps.
From Verif Require ProfileModel FileModel FileSpec FileExamples SerializerModel AttrModel HugePageModel ParserModel ConverterModel
  ConverterSpec ConverterProps.
From Verif Require Import PipelineModel PipelineSpec PipelineCallProofs PipelineProofs PipelineTotalProofs PipelineProps
  SuccessSpec SuccessHugeProofs SuccessProofs JitProofs.
Import SerializerModel.
Local Open Scope N_scope.
Local Open Scope list_scope.

(** C63. A perf.data file that can be read gives profiles: no stage aborts and none has
    undefined behaviour, if its mappings are sound and leave room, no kernel symbol
    wraps around, the version of perf is a version, there is no Arm SPE trace, no
    process is called "[lost]", failing on a main mapping mismatch (option 2) was not
    asked for, and the weights fit 63 bits. *)
Theorem C63_profiles (md5 base : list N -> N) (order bytes : list N) (build_ids : list (list N * list N))
    (labels options : N) (types : list (N * list N)) (st : FileModel.fstate) (new : bool) (xs : list x_event) :
  FileModel.read_perf_data (new_reader (swapped bytes)) bytes = Ok st ->
  PipelineModel.each (message (serializer (swapped bytes) st)) (FileModel.fs_events st) = Ok xs ->
  perf_version_61 (match aget N.eqb 5 (FileModel.fm_strings (FileModel.fs_meta st)) with Some v => v | None => [] end) = Ok new ->
  NoDup order ->
  (forall m, In m (mappings xs) -> sound_map m) -> roomy_maps xs -> sound_symbols xs ->
  no_spe xs -> none_named_lost xs -> no_reset options xs -> N.land options 2 = 0 ->
  (total_load (map FileModel.fa_ids (FileModel.fs_attrs st))
     (map (fun a => AttrModel.ea_sample_period (AttrModel.ser_attr (FileModel.fa_attr a))) (FileModel.fs_attrs st))
     new (negb (N.land options 16 =? 0)%N) xs < 2 ^ 63)%Z ->
  exists ps, raw_to_profiles md5 base order bytes build_ids labels options types = Ok ps.
Proof.
  intros R M V ND Sm Rm Sy NS NL NR O2 Fit. unfold raw_to_profiles. rewrite R.
  destruct (arrange st build_ids xs) as (ys, bs) eqn:Ar. pose proof (arrange_ok _ _ _ _ _ Ar) as AO. apply arranged_perm in AO.
  assert (Iy : forall x, In x ys -> In x xs) by (intros x; apply (Permutation_in _ (Permutation_sym AO))).
  assert (Pm : Permutation (mappings xs) (mappings ys)) by (apply flat_map_perm; exact AO).
  assert (Sy' : forall m, In m (mappings ys) -> sound_map m) by (intros m I; apply Sm, (Permutation_in _ (Permutation_sym Pm)), I).
  assert (Tx : forall x m, In x ys -> xe_body x = XBMmap m -> text_id (xm_build_id m)).
  { intros x m I. exact (messages_build _ _ _ m x M (Iy x I)). }
  destruct (huge_pages_sound md5 order ys ND Sy' Tx) as (evs & Hg & Snd & Cnt).
  assert (Size : mapped_size ys = mapped_size xs).
  { unfold mapped_size, total_of. clear - Pm. induction (Permutation_map xm_len Pm); cbn [fold_right]; lia. }
  assert (Parse : exists out, ParserModel.parse_raw_events (parser_options options) (map parser_view evs) = Ok out).
  { apply (parser_sound options (mapped_size xs)).
    - eapply views_have_maps; eauto.
    - intros x m I. rewrite <- Size. now apply Snd with x.
    - apply N.le_lt_trans with (2 := Rm). apply N.mul_le_mono_r. rewrite <- (Permutation_length Pm) in Cnt. lia. }
  destruct Parse as (out & Pa).
  unfold to_proto. rewrite M. cbn [obind]. rewrite Ar. cbv beta iota. rewrite Hg. cbn [obind]. rewrite Pa. cbn [obind].
  set (p := Build_perf_proto _ _ _ _ _ _). set (c := ConverterModel.Build_cfg p labels options types).
  destruct (huge_pages_ok _ _ _ _ Hg) as (Pl & Im).
  assert (Ev : forall pe, In pe (pp_events p) -> exists x m, pe = proto_event md5 base (x, m) /\ In x xs /\ (forall v, m = Some v -> sound v)).
  { intros pe I. cbn [pp_events p] in I. apply in_map_iff in I as ((x, m) & <- & I). exists x, m. split; [reflexivity|].
    destruct (Im x m I) as (Ix & _). split; [auto|]. intros v ->. now destruct (Snd x v I). }
  assert (P1 : Forall proper (pp_events p)).
  { rewrite Forall_forall. intros pe I. destruct (Ev pe I) as (x & m & -> & Ix & S). apply event_proper; auto. intros k. exact (Sy x k Ix). }
  assert (P2 : Forall text_build_id (pp_events p)).
  { rewrite Forall_forall. intros pe I. destruct (Ev pe I) as (x & m & -> & Ix & S). now apply event_text. }
  assert (P3 : Forall not_named_lost (pp_events p)).
  { rewrite Forall_forall. intros pe I. destruct (Ev pe I) as (x & m & -> & Ix & S). apply event_not_lost. intros k. exact (NL x k Ix). }
  destruct (C18_never_aborts p new V P1 P2) as (hs & Ph).
  assert (SP : has_spe (pp_events p) = false).
  { apply (has_spe_none md5 base xs); [exact NS|]. intros x m I. destruct (Im x m I). auto. }
  apply (ConverterProps.C52_conversion_succeeds c hs P3 Ph).
  - destruct NR as [G|G]; [left|right].
    + unfold ConverterSpec.grouped, ConverterSpec.option_on. cbn. destruct (N.land options 1 =? 0) eqn:Q; [apply N.eqb_eq in Q; congruence|reflexivity].
    + rewrite Forall_forall. intros h Ih. destruct h as [cx|cm ex|pid m]; cbn [ConverterSpec.execs]; auto.
      destruct ex; auto. destruct (process_comm p hs cm true Ph SP Ih) as (pe & Ip & W).
      destruct (Ev pe Ip) as (x & m & -> & Ix & _). unfold proto_event in W. cbn [fst snd ev_what] in W.
      destruct m; [discriminate|]. destruct (xe_body x) as [|?|?|k|?|?|?|?|?|?|?|?|?|?|?|?|?|?|?|?|?|?|?|? ?|?] eqn:Bd; try discriminate W.
      injection W as <-. cbn [cm_pid]. exact (G x k Ix Bd).
  - unfold ConverterSpec.option_on. change (ConverterModel.cf_options c) with options. now rewrite O2.
  - unfold ConverterSpec.fits. rewrite load_briefs. destruct (process_briefs p hs Ph) as (e & He & Br). specialize (Br SP).
    rewrite Br. cbn [pp_events p]. rewrite events_briefs, Pl.
    assert (F : flat_map (fun xm : x_event * option HugePageModel.vmap => msg_briefs md5 base e (fst xm)) (map (fun x => (x, None)) (others ys)) =
                flat_map (msg_briefs md5 base e) ys).
    { rewrite <- (others_briefs md5 base e ys). clear. induction (others ys) as [|x l IH]; [reflexivity|]. cbn [map flat_map fst]. now rewrite IH. }
    rewrite F. pose proof (flat_map_perm (msg_briefs md5 base e) _ _ AO) as FP.
    rewrite <- (sum_perm _ _ (Permutation_map (brief_load c) FP)), (messages_load c e He md5 base xs).
    assert (N1 : ne_lost_samples e = new).
    { unfold normalizer_env in He. destruct (fold_left add_build_id _ _). cbn [pp_version p] in He. rewrite V in He. cbn [obind] in He. injection He as <-. reflexivity. }
    rewrite N1. change (ConverterSpec.drops_lost c) with (negb (N.land options 16 =? 0)).
    change (ConverterModel.cf_data c) with p. cbn [pp_attrs p]. rewrite !map_map. exact Fit.
Qed.
Print Assumptions C63_profiles.

Example C63_example :
  exists st xs, FileModel.read_perf_data (new_reader (swapped (ex_bytes ex_records))) (ex_bytes ex_records) = Ok st /\
    PipelineModel.each (message (serializer (swapped (ex_bytes ex_records)) st)) (FileModel.fs_events st) = Ok xs /\
    perf_version_61 (match aget N.eqb 5 (FileModel.fm_strings (FileModel.fs_meta st)) with Some v => v | None => [] end) = Ok false /\
    NoDup ex_order /\
    (forall m, In m (mappings xs) -> sound_map m) /\ roomy_maps xs /\ sound_symbols xs /\
    no_spe xs /\ none_named_lost xs /\ no_reset 0 xs /\ no_reset 1 xs /\
    List.length (mappings xs) = 2%nat /\ mapped_size xs = 8192 /\
    total_load (map FileModel.fa_ids (FileModel.fs_attrs st))
      (map (fun a => AttrModel.ea_sample_period (AttrModel.ser_attr (FileModel.fa_attr a))) (FileModel.fs_attrs st))
      false false xs = 8009%Z.
Proof.
  eexists _, _. split; [vm_compute; reflexivity|]. split; [vm_compute; reflexivity|]. split; [vm_compute; reflexivity|].
  split. { repeat constructor. auto. }
  split. { intros m I. vm_compute in I. repeat (destruct I as [<-|I]; [vm_compute; repeat split; auto; left; discriminate|]). destruct I. }
  split; [vm_compute; reflexivity|].
  split. { intros x k I B. vm_compute in I. repeat (destruct I as [<-|I]; [discriminate B|]). destruct I. }
  split. { intros x a I B. vm_compute in I. repeat (destruct I as [<-|I]; [discriminate B|]). destruct I. }
  split. { intros x k I B. vm_compute in I. repeat (destruct I as [<-|I]; [discriminate B|]). destruct I. }
  split. { right. intros x k I B. vm_compute in I. repeat (destruct I as [<-|I]; [discriminate B|]). destruct I. }
  split. { left. discriminate. }
  repeat split; vm_compute; reflexivity.
Qed.

(* What the conditions are for.  Each of these files is read without complaint. *)

(* A map that cuts another off the page grid: the conversion stops the
   program. *)
Theorem C63_unaligned_overlap_aborts_refuted :
  exists bytes st, FileModel.read_perf_data (new_reader (swapped bytes)) bytes = Ok st /\
    raw_to_profiles (fun _ => 0) (fun _ => 0) ex_order bytes [] 0 1 [] = Abort.
Proof.
  exists (ex_bytes (ex_mmap 10 4194304 12288 0 ++ ex_mmap 11 4196352 2048 0 ++ ex_sample 12 4194305 20 0)).
  eexists. split; vm_compute; reflexivity.
Qed.

Print Assumptions C63_unaligned_overlap_aborts_refuted.

(* C63. Allowing this for mappings of jitted code (option 4) never makes a conversion
   fail, nor changes what it gives. *)
Theorem C63_jit_option_harmless (md5 base : list N -> N) (order bytes : list N) (build_ids : list (list N * list N))
    (labels options : N) (types : list (N * list N)) (ps : list ConverterModel.process_profile) :
  raw_to_profiles md5 base order bytes build_ids labels options types = Ok ps ->
  raw_to_profiles md5 base order bytes build_ids labels (N.lor options 4) types = Ok ps.
Proof.
  intros H. destruct (N.testbit options 2) eqn:B.
  - replace (N.lor options 4) with options; [exact H|]. symmetry. change 4 with (2 ^ 2). apply N.bits_inj. intros b. rewrite N.lor_spec.
    destruct (N.eq_dec b 2) as [->|Nb]; [now rewrite B|]. rewrite N.pow2_bits_false by congruence. apply orb_false_r.
  - apply (raw_jit md5 base order bytes build_ids labels options); auto. intros b Nb. rewrite N.lor_spec. change 4 with (2 ^ 2).
    rewrite N.pow2_bits_false by congruence. now rewrite orb_false_r.
Qed.
Print Assumptions C63_jit_option_harmless.

(* And it does make some succeed; the other options do not. *)
Definition ex_jitted (time start size : N) : list N :=
  FileExamples.ex_record false 1 2 (le_bytes 4 7 ++ le_bytes 4 7 ++ le_bytes 8 start ++ le_bytes 8 size ++ le_bytes 8 0 ++
    str "/tmp/jitted-7-1.so" ++ repeat 0 6 ++ ex_tail time 11).
Definition ex_unaligned : list N :=
  ex_bytes (ex_mmap 10 4194304 12288 0 ++ ex_jitted 11 4196352 2048 ++ ex_sample 12 4196353 20 0).
Theorem C63_jit_option_helps :
  exists st ps, FileModel.read_perf_data (new_reader (swapped ex_unaligned)) ex_unaligned = Ok st /\
    raw_to_profiles (fun _ => 0) (fun _ => 0) ex_order ex_unaligned [] 0 (2 ^ 32 - 1 - 4) [] = Abort /\
    raw_to_profiles (fun _ => 0) (fun _ => 0) ex_order ex_unaligned [] 0 (1 + 4) [] = Ok ps /\
    map (fun p => map ProfileModel.lc_addr (ProfileModel.pf_location (ConverterModel.pr_data p))) ps = [[4196353]].
Proof. eexists _, _. split; [vm_compute; reflexivity|]. split; [vm_compute; reflexivity|]. split; vm_compute; reflexivity. Qed.
Print Assumptions C63_jit_option_helps.

(* A map across the middle of the address space, with an offset that wraps
   around: the same. *)
Theorem C63_straddling_map_aborts_refuted :
  exists bytes st, FileModel.read_perf_data (new_reader (swapped bytes)) bytes = Ok st /\
    raw_to_profiles (fun _ => 0) (fun _ => 0) ex_order bytes [] 0 1 [] = Abort.
Proof.
  exists (ex_bytes (ex_mmap 10 (two63 - 4096) 8192 (two64 - 4096) ++ ex_sample 12 4194305 20 0)).
  eexists. split; vm_compute; reflexivity.
Qed.

Print Assumptions C63_straddling_map_aborts_refuted.

(* Two samples of the same address whose periods add up to 2^63 or more: the
   signed sum of the profile overflows. *)
Theorem C63_heavy_samples_overflow_refuted :
  exists bytes st, FileModel.read_perf_data (new_reader (swapped bytes)) bytes = Ok st /\
    raw_to_profiles (fun _ => 0) (fun _ => 0) ex_order bytes [] 0 1 [] = UB.
Proof.
  exists (ex_bytes (ex_sample 11 4194305 20 (two63 - 1) ++ ex_sample 11 4194305 20 (two63 - 1))).
  eexists. split; vm_compute; reflexivity.
Qed.

Print Assumptions C63_heavy_samples_overflow_refuted.
