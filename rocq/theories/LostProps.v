(** C67: the samples a recording lost are shown. *)
From Coq Require Import String Permutation.
From Verif Require Import Base BytesModel TextModel Assoc ProfileModel PerfProto NormalizerModel NormalizerSpec NormalizerProofs
  SerializerModel.
From Verif Require FileModel FileExamples AttrModel HugePageModel ConverterModel ConverterSpec ConverterProps OriginProofs.
From Verif Require Import PipelineModel PipelineSpec PipelineProofs PipelineTotalProofs PipelineProps SuccessSpec SuccessProofs
  RecordSpec RecordNameProofs RecordProofs RecordFileProofs RecordProps ShownProofs LostSpec LostProofs.
Local Open Scope N_scope.
Local Open Scope list_scope.

(** ** Of a stored proto *)

(** C67. A report of [lo_lost l] lost samples of a known event, if lost samples are not
    dropped by option 16: one sample of the profile of its process counts at least so
    many of the event, at the reserved address; and it has the labels of the process and
    thread, if there is no real sample at that address. [new]: perf
    6.1 or later made the recording; then reports of the other kind count. *)
Theorem C67_lost_samples (c : ConverterModel.cfg) (hs : list hcall) (ps : list ConverterModel.process_profile)
    (h t : list perf_event) (misc : option N) (l : lost_ev) (new : bool) (i : nat) :
  process (ConverterModel.cf_data c) = Ok hs -> ConverterSpec.never_reset c hs -> ConverterModel.convert c = Ok ps ->
  ConverterSpec.drops_lost c = false ->
  perf_version_61 (match pp_version (ConverterModel.cf_data c) with Some v => v | None => [] end) = Ok new ->
  pp_events (ConverterModel.cf_data c) = h ++ {| ev_misc := misc; ev_what := if new then EvLostSamples l else EvLost l |} :: t ->
  event_of (map fa_ids (pp_attrs (ConverterModel.cf_data c))) (Some (lo_id l)) = Some i -> lo_lost l <> 0 ->
  exists p s, In p ps /\
    shows_lost p s i (if ConverterSpec.grouped c then lo_pid l else 0) (lo_lost l) (lost_stack (ConverterSpec.data_frames c)) /\
    ((forall ev sm, In ev (pp_events (ConverterModel.cf_data c)) -> ev_what ev = EvSample sm -> s_ip sm <> 9 * 2 ^ 60) ->
     Forall2 (ConverterSpec.reads (ConverterModel.pr_data p)) (ps_label s)
       (shown_labels (ConverterModel.cf_labels c) (ConverterModel.cf_types c)
          (name_at (existsb fa_comm_exec (pp_attrs (ConverterModel.cf_data c))) (rev h)) (fun _ => None) None
          (lost_facts (lo_pid l) (lo_tid l)))).
Proof.
  intros P NR C Dr Vn Hp Ei Nz. assert (He : exists e, normalizer_env (ConverterModel.cf_data c) = Ok e /\ ne_lost_samples e = new).
  { clear - P Vn. unfold process in P. ok_inv P. exists a. split; [exact E|]. unfold normalizer_env in E. destruct (fold_left add_build_id _ _).
    rewrite Vn in E. cbn [obind] in E. injection E as <-. reflexivity. }
  destruct He as (e & He & Hk).
  destruct (lost_shown c hs ps e h misc l t new i P NR C He Dr Hp Hk Ei Nz) as (p & s & Ip & S & L).
  exists p, s. split; [exact Ip|]. split; [exact S|exact L].
Qed.
Print Assumptions C67_lost_samples.

(** ** Of a file *)

(** C67. The same of every report among the records of a file. *)
Theorem C67_lost_records (md5 base : list N -> N) (order bytes : list N) (build_ids : list (list N * list N))
    (labels options : N) (types : list (N * list N)) (ps : list ConverterModel.process_profile) (st : FileModel.fstate) (new : bool) :
  raw_to_profiles md5 base order bytes build_ids labels options types = Ok ps ->
  FileModel.read_perf_data (new_reader (swapped bytes)) bytes = Ok st ->
  perf_version_61 (match aget N.eqb 5 (FileModel.fm_strings (FileModel.fs_meta st)) with Some v => v | None => [] end) = Ok new ->
  N.land options 16 = 0 ->
  exists xs ys evs,
    PipelineModel.each (message (serializer (swapped bytes) st)) (FileModel.fs_events st) = Ok xs /\ arranged st xs ys /\
    map fst (filter (fun xm => negb (is_map (fst xm))) evs) = others ys /\
    (no_reset options xs ->
     forall x id n pid tid i, In x xs -> lost_report new (xe_body x) = Some (id, n, pid, tid) -> n <> 0 ->
     event_of (map FileModel.fa_ids (FileModel.fs_attrs st)) (Some id) = Some i ->
     exists h t p s, evs = h ++ (x, None) :: t /\ In p ps /\
       shows_lost p s i (if N.land options 1 =? 0 then 0 else pid) n (lost_stack (negb (N.land options 8 =? 0))) /\
       ((forall y sm, In y xs -> xe_body y = XBSample sm -> dflt (xsa_ip sm) <> 9 * 2 ^ 60) ->
        let marked := existsb (fun a => N.testbit (AttrModel.ea_flags (AttrModel.ser_attr (FileModel.fa_attr a))) 24)
                        (FileModel.fs_attrs st) in
        Forall2 (ConverterSpec.reads (ConverterModel.pr_data p)) (ps_label s)
          (shown_labels labels types (name_told md5 marked (rev h)) (fun _ => None) None (lost_facts pid tid)))).
Proof.
  intros H R Vn Od. unfold raw_to_profiles in H. rewrite R in H. ok_inv H. rename a into p0.
  destruct (to_proto_all _ _ _ _ _ _ _ _ E) as (xs & ys & bs & evs & M & Ar & Hg & P1 & P2 & P3 & _).
  pose proof (arrange_ok _ _ _ _ _ Ar) as AO. destruct (huge_pages_ok _ _ _ _ Hg) as (Pl & Im).
  assert (Pm : Permutation xs ys) by (exact (arranged_perm _ _ _ AO)).
  assert (Ix : forall x m, In (x, m) evs -> In x xs).
  { intros x m I. destruct (Im x m I) as (Iy & _). apply (Permutation_in _ (Permutation_sym Pm)), Iy. }
  exists xs, ys, evs. split; [exact M|]. split; [exact AO|]. split.
  { assert (G : filter (fun xm => negb (is_map (fst xm))) evs = filter plain evs).
    { apply filter_ext_in. intros (x, m) I. cbn [fst]. destruct (Im x m I) as (_ & ->). now rewrite negb_involutive. }
    rewrite G, Pl, map_map. cbn [fst]. apply map_id. }
  intros NR x id n pid tid i Ixx Bx Nz Ei. set (c := ConverterModel.Build_cfg p0 labels options types) in *.
  assert (Ph : exists hs, process p0 = Ok hs).
  { unfold ConverterModel.convert in H0. ok_inv H0. eauto. }
  destruct Ph as (hs & Ph).
  assert (Ie : In (x, None) evs).
  { assert (J : In (x, None) (filter plain evs)).
    { rewrite Pl. apply (in_map (fun x => (x, None))). unfold others. apply filter_In. split; [apply (Permutation_in _ Pm), Ixx|]. unfold is_map.
      destruct (xe_body x), new; try discriminate Bx; reflexivity. }
    now apply filter_In in J as (J & _). }
  destruct (in_split _ _ Ie) as (h & t & Eh).
  set (l := {| lo_id := id; lo_lost := n; lo_pid := pid; lo_tid := tid |}).
  assert (Pe : pp_events p0 = map (proto_event md5 base) h ++
                {| ev_misc := Some (xe_misc x); ev_what := if new then EvLostSamples l else EvLost l |} :: map (proto_event md5 base) t).
  { rewrite P2, Eh, map_app. cbn [map]. f_equal. f_equal. unfold proto_event. cbn [fst snd].
    destruct (xe_body x), new; try discriminate Bx; injection Bx as <- <- <- <-; reflexivity. }
  assert (NR' : ConverterSpec.never_reset c hs).
  { destruct NR as [G|G]; [left|right].
    - unfold ConverterSpec.grouped, ConverterSpec.option_on. cbn. destruct (N.land options 1 =? 0) eqn:Q; [apply N.eqb_eq in Q; congruence|reflexivity].
    - rewrite Forall_forall. intros k Ik. destruct k as [cx|cm ex|pid' m]; cbn [ConverterSpec.execs]; auto.
      destruct ex; auto. destruct (OriginProofs.process_any_comm p0 hs cm true Ph Ik) as (pe & Ip & Wh).
      rewrite P2 in Ip. apply in_map_iff in Ip as ((y, m) & <- & Iy). unfold proto_event in Wh. cbn [fst snd ev_what] in Wh.
      destruct m; [discriminate|]. destruct (xe_body y) as [|?|?|k|?|?|?|?|?|?|?|?|?|?|?|?|?|?|?|?|?|?|?|? ?|?] eqn:Bd; try discriminate Wh.
      injection Wh as <-. cbn [cm_pid]. exact (G y k (Ix _ _ Iy) Bd). }
  assert (I1 : map fa_ids (pp_attrs p0) = map FileModel.fa_ids (FileModel.fs_attrs st)).
  { rewrite P1, map_map. reflexivity. }
  assert (Dr : ConverterSpec.drops_lost c = false).
  { unfold ConverterSpec.drops_lost, ConverterSpec.option_on. cbn. now rewrite Od. }
  destruct (C67_lost_samples c hs ps (map (proto_event md5 base) h) (map (proto_event md5 base) t) (Some (xe_misc x)) l new i
              Ph NR' H0 Dr) as (p & sm & Ip & S & L); [now rewrite <- P3 in Vn|exact Pe|change (ConverterModel.cf_data c) with p0; now rewrite I1|exact Nz|].
  exists h, t, p, sm. split; [exact Eh|]. split; [exact Ip|]. split.
  { unfold ConverterSpec.grouped, ConverterSpec.data_frames, ConverterSpec.option_on in S.
    change (ConverterModel.cf_options c) with options in S. destruct (N.land options 1 =? 0); exact S. }
  intros Ni. cbn zeta. change (ConverterModel.cf_data c) with p0 in L. rewrite P2 in L.
  assert (L2 : forall ev sm, In ev (map (proto_event md5 base) evs) -> ev_what ev = EvSample sm -> s_ip sm <> 9 * 2 ^ 60).
  { intros v s Iv W. apply in_map_iff in Iv as ((y, m) & <- & Iy). unfold proto_event in W. cbn [fst snd ev_what] in W.
    destruct m; [discriminate|]. destruct (xe_body y) as [|?|k|?|?|?|?|?|?|?|?|?|?|?|?|?|?|?|?|?|?|?|?|? ?|?] eqn:Bd; try discriminate W.
    injection W as <-. exact (Ni y k (Ix _ _ Iy) Bd). }
  specialize (L L2). rewrite P1, <- map_rev in L.
  change (ConverterModel.cf_labels c) with labels in L. change (ConverterModel.cf_types c) with types in L.
  assert (Ex : existsb fa_comm_exec (map proto_attr (FileModel.fs_attrs st)) =
               existsb (fun a => N.testbit (AttrModel.ea_flags (AttrModel.ser_attr (FileModel.fa_attr a))) 24) (FileModel.fs_attrs st)).
  { clear. induction (FileModel.fs_attrs st) as [|a m IH]; [reflexivity|]. cbn [map existsb]. now rewrite IH. }
  rewrite Ex in L. unfold shown_labels in *. rewrite !name_same in L. exact L.
Qed.
Print Assumptions C67_lost_records.

(** ** Examples *)
Import ConverterModel ConverterSpec.

(** The two lost samples of the history of C23_example. *)
Example C67_example :
  exists hs ps h t, process (cf_data ConverterProps.example) = Ok hs /\ never_reset ConverterProps.example hs /\
    convert ConverterProps.example = Ok ps /\ drops_lost ConverterProps.example = false /\
    perf_version_61 (match pp_version (cf_data ConverterProps.example) with Some v => v | None => [] end) = Ok false /\
    pp_events (cf_data ConverterProps.example) =
      h ++ {| ev_misc := Some 2; ev_what := EvLost {| lo_id := 7; lo_lost := 2; lo_pid := 10; lo_tid := 10 |} |} :: t /\
    event_of (map fa_ids (pp_attrs (cf_data ConverterProps.example))) (Some 7) = Some 0%nat.
Proof.
  eexists _, _, (firstn (List.length ConverterProps.history - 1) ConverterProps.history), [].
  split; [vm_compute; reflexivity|]. split; [left; reflexivity|]. split; [vm_compute; reflexivity|].
  split; [reflexivity|]. split; [vm_compute; reflexivity|]. split; [vm_compute; reflexivity|vm_compute; reflexivity].
Qed.

(** The report of the file of C62_example: three samples of the second event. *)
Example C67_example_file :
  exists st xs ps x, FileModel.read_perf_data (new_reader (swapped (ex_bytes ex_records))) (ex_bytes ex_records) = Ok st /\
    PipelineModel.each (message (serializer (swapped (ex_bytes ex_records)) st)) (FileModel.fs_events st) = Ok xs /\
    raw_to_profiles (fun _ => 0) (fun _ => 0) ex_order (ex_bytes ex_records) [] 3 1 [] = Ok ps /\
    perf_version_61 (match aget N.eqb 5 (FileModel.fm_strings (FileModel.fs_meta st)) with Some v => v | None => [] end) = Ok false /\
    no_reset 1 xs /\ In x xs /\ lost_report false (xe_body x) = Some (12, 3, 7, 7) /\
    event_of (map FileModel.fa_ids (FileModel.fs_attrs st)) (Some 12) = Some 1%nat /\
    (forall y sm, In y xs -> xe_body y = XBSample sm -> dflt (xsa_ip sm) <> 9 * 2 ^ 60) /\
    shown_labels 3 [] (fun _ _ => []) (fun _ => None) None (lost_facts 7 7) =
      [RecordProps.labelled (str "pid") [] 7 []; RecordProps.labelled (str "tid") [] 7 []] /\
    map (fun p => map (fun s => (ps_loc s, ps_val s)) (pf_sample (pr_data p))) ps =
      [[([1], [0; 0; 1; 2000]%Z); ([2], [1; 5; 0; 0]%Z); ([3], [0; 0; 3; 6000]%Z); ([4], [1; 4; 0; 0]%Z)]].
Proof.
  eexists _, _, _, _. split; [vm_compute; reflexivity|]. split; [vm_compute; reflexivity|]. split; [vm_compute; reflexivity|].
  split; [vm_compute; reflexivity|].
  split; [left; discriminate|]. split; [do 4 right; left; reflexivity|].
  split; [vm_compute; reflexivity|]. split; [vm_compute; reflexivity|].
  split. { intros y b I W. vm_compute in I. repeat (destruct I as [<-|I]; [try discriminate W; injection W as <-; vm_compute; discriminate|]). destruct I. }
  split; vm_compute; reflexivity.
Qed.
