(** C66: the header, the build ids and the mapping table of the profiles of a file. *)
From Coq Require Import String Permutation.
From Verif Require Import Base BytesModel TextModel Assoc ProfileModel PerfProto NormalizerModel NormalizerSpec NormalizerProofs
  SerializerModel.
From Verif Require FileModel FileSpec AttrModel ReaderOpsSpec HugePageModel ConverterModel ConverterSpec ConverterHeadSpec ConverterHeadProofs
  ConverterStateProofs OriginProofs.
From Verif Require Import PipelineModel PipelineSpec PipelineProofs PipelineTotalProofs PipelineProps SuccessSpec RecordSpec RecordFileProofs
  ShownSpec ShownProofs.
Local Open Scope N_scope.
Local Open Scope list_scope.

(** C66. The header of every profile of a file: two sample types for each event of the
    file, named as the file names it; the last one is the default; and the comments. *)
Definition header_of (st : FileModel.fstate) (p : profile) : Prop :=
  Forall2 (fun t v => ConverterSpec.string_of p (vt_type v) = Some t /\ ConverterSpec.string_of p (vt_unit v) = Some (str "count"))
    (ConverterHeadSpec.titles 0 (file_names st)) (pf_sample_type p) /\
  ConverterSpec.string_of p (pf_default_type p) = Some (last (ConverterHeadSpec.titles 0 (file_names st)) []) /\
  Forall2 (fun t i => ConverterSpec.string_of p i = Some t) (file_remarks st) (pf_comment p).

(** C66. The header; the table of build ids; where the mappings of the events come
    from; and, of every profile, the mapping table: at least one, of the four kinds. *)
Theorem C66_header_and_mappings (md5 base : list N -> N) (order bytes : list N) (build_ids : list (list N * list N))
    (labels options : N) (types : list (N * list N)) (ps : list ConverterModel.process_profile) (st : FileModel.fstate) :
  raw_to_profiles md5 base order bytes build_ids labels options types = Ok ps ->
  FileModel.read_perf_data (new_reader (swapped bytes)) bytes = Ok st ->
  exists xs ys evs maps bs,
    PipelineModel.each (message (serializer (swapped bytes) st)) (FileModel.fs_events st) = Ok xs /\ arranged st xs ys /\
    Forall2 says evs maps /\ (forall x v, In (x, Some v) evs -> mapping_of md5 xs x v) /\
    (ReaderOpsSpec.injectable build_ids -> build_table md5 st build_ids xs bs) /\
    (no_reset options xs -> forall p, In p ps ->
       header_of st (ConverterModel.pr_data p) /\
       pf_mapping (ConverterModel.pr_data p) <> [] /\
       Forall (shown_mapping md5 bs evs maps (ConverterModel.pr_data p)) (pf_mapping (ConverterModel.pr_data p))).
Proof.
  intros H R. unfold raw_to_profiles in H. rewrite R in H. ok_inv H. rename a into p0.
  destruct (to_proto_all _ _ _ _ _ _ _ _ E) as (xs & ys & bs & evs & M & Ar & Hg & P1 & P2 & P3 & P4 & P5 & P6).
  pose proof (arrange_ok _ _ _ _ _ Ar) as AO. destruct (huge_pages_ok _ _ _ _ Hg) as (Pl & Im).
  assert (Pm : Permutation xs ys) by (exact (arranged_perm _ _ _ AO)).
  assert (Ix : forall x m, In (x, m) evs -> In x xs).
  { intros x m I. destruct (Im x m I) as (Iy & _). apply (Permutation_in _ (Permutation_sym Pm)), Iy. }
  exists xs, ys, evs, (pp_events p0), (pp_build_ids p0). split; [exact M|]. split; [exact AO|]. split; [rewrite P2; apply says_events|].
  split. { intros x v I. apply (mapping_perm _ _ _ _ _ Pm). exact (huge_origin _ _ _ _ _ _ Hg I). }
  split. { intros J. rewrite P6. exact (arrange_builds _ _ _ _ _ _ J Ar). }
  intros NR p Ip. set (c := ConverterModel.Build_cfg p0 labels options types) in *.
  assert (Ph : exists hs, process p0 = Ok hs).
  { unfold ConverterModel.convert in H0. ok_inv H0. eauto. }
  destruct Ph as (hs & Ph).
  assert (NR' : ConverterSpec.never_reset c hs).
  { destruct NR as [G|G]; [left|right].
    - unfold ConverterSpec.grouped, ConverterSpec.option_on. cbn. destruct (N.land options 1 =? 0) eqn:Q; [apply N.eqb_eq in Q; congruence|reflexivity].
    - rewrite Forall_forall. intros k Ik. destruct k as [cx|cm ex|pid m]; cbn [ConverterSpec.execs]; auto.
      destruct ex; auto. destruct (OriginProofs.process_any_comm p0 hs cm true Ph Ik) as (pe & Ie & Wh).
      rewrite P2 in Ie. apply in_map_iff in Ie as ((y, m) & <- & Iy). unfold proto_event in Wh. cbn [fst snd ev_what] in Wh.
      destruct m; [discriminate|]. destruct (xe_body y) as [|?|?|k|?|?|?|?|?|?|?|?|?|?|?|?|?|?|?|?|?|?|?|? ?|?] eqn:Bd; try discriminate Wh.
      injection Wh as <-. cbn [cm_pid]. exact (G y k (Ix _ _ Iy) Bd). }
  assert (He : exists e, normalizer_env p0 = Ok e) by (unfold process in Ph; ok_inv Ph; eauto).
  destruct He as (e & He).
  destruct (In_nth_error _ _ Ip) as (k & Hk).
  pose proof (ConverterHeadProofs.convert_headed c hs ps k p Ph NR' H0 Hk) as [T D C (m & r & Mp & Ma & Fr)].
  assert (Nm : ConverterHeadSpec.names (ConverterModel.cf_data c) = file_names st).
  { unfold ConverterHeadSpec.names, file_names. change (ConverterModel.cf_data c) with p0. rewrite P5, P1, !map_length. reflexivity. }
  assert (Rm : ConverterHeadSpec.remarks (ConverterModel.cf_data c) = file_remarks st).
  { unfold ConverterHeadSpec.remarks, file_remarks. change (ConverterModel.cf_data c) with p0. now rewrite P3, P4. }
  rewrite Nm in T, D. rewrite Rm in C. split; [split; [exact T|split; [exact D|exact C]]|].
  assert (Org : forall cx q h, In cx (ConverterSpec.filed k hs (ConverterSpec.assigned c hs)) -> In (q, h) (refs_of (HSample cx)) ->
            OriginProofs.origin e (pp_events p0) h).
  { intros cx q h I J. exact (OriginProofs.process_origin p0 hs e _ q h Ph He (filed_in _ _ _ _ I) J). }
  rewrite Mp. split; [discriminate|]. constructor.
  - unfold ConverterHeadSpec.main_of in Ma. destruct (ConverterSpec.filed k hs (ConverterSpec.assigned c hs)) as [|cx l] eqn:Fl; [contradiction|].
    destruct (cx_main cx) as [(q, h)|] eqn:Mn.
    + refine (shows_origin md5 base p0 e evs _ h m He P2 (Org cx q h (or_introl eq_refl) _) Ma).
      unfold refs_of. rewrite Mn. now left.
    + right. right. right. destruct Ma as (A1 & A2 & A3 & A4 & A5). repeat split; assumption.
  - eapply Forall_impl; [|exact Fr]. intros m' (cx & a & q & h & I & J & S).
    refine (shows_origin md5 base p0 e evs _ h m' He P2 (Org cx q h I _) S). eapply ConverterStateProofs.frames_refs; exact J.
Qed.
Print Assumptions C66_header_and_mappings.

(** ** Examples *)

(** The file of C62_example with the version of perf, its command line and names for
    the two events; the caller gives an id for the mapped file. *)
Definition ex_text (s : list N) : list N := le_bytes 4 (len s + 1) ++ s ++ [0].
Definition ex_features : list (list N) :=
  [ex_text (str "5.4"); le_bytes 4 2 ++ ex_text (str "perf") ++ ex_text (str "record");
   le_bytes 4 2 ++ le_bytes 4 96 ++ ex_attr2 0 1000 ++ le_bytes 4 1 ++ ex_text (str "cycles") ++ le_bytes 8 11 ++
     ex_attr2 1 2000 ++ le_bytes 4 1 ++ ex_text (str "misses") ++ le_bytes 8 12].
Fixpoint ex_table (place : N) (fs : list (list N)) : list N :=
  match fs with [] => [] | f :: r => le_bytes 8 place ++ le_bytes 8 (len f) ++ ex_table (place + len f) r end.
Definition ex_named (records : list N) : list N :=
  FileSpec.magic_bytes false ++ le_bytes 8 104 ++ le_bytes 8 112 ++
  le_bytes 8 120 ++ le_bytes 8 224 ++ le_bytes 8 344 ++ le_bytes 8 (len records) ++ le_bytes 8 0 ++ le_bytes 8 0 ++
  le_bytes 8 (2 ^ 5 + 2 ^ 11 + 2 ^ 12) ++ repeat 0 24 ++ le_bytes 8 11 ++ le_bytes 8 12 ++
  ex_attr2 0 1000 ++ le_bytes 8 104 ++ le_bytes 8 8 ++ ex_attr2 1 2000 ++ le_bytes 8 112 ++ le_bytes 8 8 ++ records ++
  ex_table (344 + len records + 48) ex_features ++ concat ex_features.
Definition ex_given : list (list N * list N) := [(str "/x", str "00ff1234")].
Definition table_of (p : profile) : list (N * N * N * option (list N) * option (list N)) :=
  map (fun m => (mp_start m, mp_limit m, mp_off m, ConverterSpec.string_of p (mp_file m), ConverterSpec.string_of p (mp_build m)))
    (pf_mapping p).
Example C66_example :
  exists st xs ps, FileModel.read_perf_data (new_reader (swapped (ex_named ex_records))) (ex_named ex_records) = Ok st /\
    PipelineModel.each (message (serializer (swapped (ex_named ex_records)) st)) (FileModel.fs_events st) = Ok xs /\
    raw_to_profiles (fun _ => 0) (fun _ => 0) ex_order (ex_named ex_records) ex_given 0 1 [] = Ok ps /\
    no_reset 1 xs /\ ReaderOpsSpec.injectable ex_given /\
    file_names st = [Some (str "cycles"); Some (str "misses")] /\
    file_remarks st = [str "perf-version:5.4"; str "perf-command:perf record"] /\
    map (fun p => table_of (ConverterModel.pr_data p)) ps =
      [[(4194304, 4202496, 0, Some (str "/x"), Some (str "00ff1234"));
        (9 * 2 ^ 60, 9 * 2 ^ 60 + 1, 0, Some (str "[lost]"), Some [])]].
Proof.
  eexists _, _, _. split; [vm_compute; reflexivity|]. split; [vm_compute; reflexivity|]. split; [vm_compute; reflexivity|].
  split; [left; discriminate|]. split.
  { split; [repeat constructor; intros []|]. intros f id [Q|[]]. injection Q as <- <-. split; [cbn; intuition discriminate|].
    exists [0; 255; 18; 52]. split; reflexivity. }
  repeat split; vm_compute; reflexivity.
Qed.

(** Finding: an id that is no multiple of four bytes is shown with zeros after it. *)
Theorem C66_given_id_padded_refuted :
  exists ps, raw_to_profiles (fun _ => 0) (fun _ => 0) ex_order (ex_named ex_records) [(str "/x", str "00ff")] 0 1 [] = Ok ps /\
    map (fun p => map snd (table_of (ConverterModel.pr_data p))) ps = [[Some (str "00ff0000"); Some []]].
Proof. eexists. split; vm_compute; reflexivity. Qed.
Print Assumptions C66_given_id_padded_refuted.
