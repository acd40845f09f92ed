(** C65: every sample record is shown. *)
From Coq Require Import String Permutation.
From Verif Require Import Base BytesModel TextModel Assoc ProfileModel PerfProto NormalizerModel NormalizerSpec NormalizerProofs
  SerializerModel.
From Verif Require FileModel FileExamples AttrModel HugePageModel ConverterModel ConverterSpec ConverterProps OriginProofs.
From Verif Require Import PipelineModel PipelineSpec PipelineProofs PipelineTotalProofs PipelineProps SuccessSpec SuccessProofs
  RecordSpec RecordNameProofs RecordProofs RecordFileProofs.
Local Open Scope N_scope.
Local Open Scope list_scope.

(** ** Of a stored proto *)

(** C65. Every sample of a known event is counted by a sample of one of the profiles:
    that of its process, whose time span has its time; with the addresses it was taken
    at, as they were mapped then; and, if the samples are of one shape, with its labels:
    also those of later samples that share the entry. *)
Theorem C65_every_sample (c : ConverterModel.cfg) (hs : list hcall) (ps : list ConverterModel.process_profile)
    (h t : list perf_event) (misc : option N) (sm : sample_ev) (i : nat) :
  process (ConverterModel.cf_data c) = Ok hs -> ConverterSpec.never_reset c hs -> ConverterModel.convert c = Ok ps ->
  pp_events (ConverterModel.cf_data c) = h ++ {| ev_misc := misc; ev_what := EvSample sm |} :: t ->
  event_of (map fa_ids (pp_attrs (ConverterModel.cf_data c))) (s_id sm) = Some i ->
  exists p s, In p ps /\
    shows p s i (if ConverterSpec.grouped c then dflt (s_pid sm) else 0) (dflt (s_time sm))
      (shown_stack (ConverterSpec.data_frames c) (rev h) misc (sample_facts sm)) /\
    ((forall ev, In ev (pp_events (ConverterModel.cf_data c)) -> ev_what ev = EvAuxInfo 4 -> thread_only (sample_facts sm)) ->
     same_fields (pp_events (ConverterModel.cf_data c)) (sample_facts sm) -> s_ip sm <> 9 * 2 ^ 60 ->
     Forall2 (ConverterSpec.reads (ConverterModel.pr_data p)) (ps_label s)
       (shown_labels (ConverterModel.cf_labels c) (ConverterModel.cf_types c)
          (name_at (existsb fa_comm_exec (pp_attrs (ConverterModel.cf_data c))) (rev h)) (path_at (rev h)) misc
          (sample_facts sm))).
Proof.
  intros P NR C Hp Ei. assert (He : exists e, normalizer_env (ConverterModel.cf_data c) = Ok e).
  { unfold process in P. ok_inv P. eauto. }
  destruct He as (e & He). destruct (sample_shown c hs ps e h misc sm t i P NR C He Hp Ei) as (p & s & Ip & S & L).
  exists p, s. split; [exact Ip|]. split; [exact S|]. intros NS. apply L.
  intros X. apply existsb_exists in X as (v & Iv & W). apply (NS v Iv).
  destruct (ev_what v); try discriminate W. apply N.eqb_eq in W. congruence.
Qed.
Print Assumptions C65_every_sample.

(** ** Of a file *)

(** C65. The same of every sample record of a file; names, cgroups and mappings are
    those of the records before it, in order of time if all events record it. *)
Theorem C65_every_record (md5 base : list N -> N) (order bytes : list N) (build_ids : list (list N * list N))
    (labels options : N) (types : list (N * list N)) (ps : list ConverterModel.process_profile) (st : FileModel.fstate) :
  raw_to_profiles md5 base order bytes build_ids labels options types = Ok ps ->
  FileModel.read_perf_data (new_reader (swapped bytes)) bytes = Ok st ->
  exists xs ys evs,
    PipelineModel.each (message (serializer (swapped bytes) st)) (FileModel.fs_events st) = Ok xs /\ arranged st xs ys /\
    map fst (filter (fun xm => negb (is_map (fst xm))) evs) = others ys /\
    (no_reset options xs ->
     forall x s i, In x xs -> xe_body x = XBSample s ->
     event_of (map FileModel.fa_ids (FileModel.fs_attrs st)) (xsa_id s) = Some i ->
     exists h t maps p sm, evs = h ++ (x, None) :: t /\ Forall2 says h maps /\ In p ps /\
       shows p sm i (if N.land options 1 =? 0 then 0 else dflt (xsa_pid s)) (dflt (xsa_time s))
         (shown_stack (negb (N.land options 8 =? 0)) (rev maps) (Some (xe_misc x)) (record_facts s)) /\
       ((no_spe xs \/ thread_only (record_facts s)) -> same_shape xs (record_facts s) -> dflt (xsa_ip s) <> 9 * 2 ^ 60 ->
        let marked := existsb (fun a => N.testbit (AttrModel.ea_flags (AttrModel.ser_attr (FileModel.fa_attr a))) 24)
                        (FileModel.fs_attrs st) in
        Forall2 (ConverterSpec.reads (ConverterModel.pr_data p)) (ps_label sm)
          (shown_labels labels types (name_told md5 marked (rev h)) (path_told (rev h)) (Some (xe_misc x)) (record_facts s)))).
Proof.
  intros H R. unfold raw_to_profiles in H. rewrite R in H. ok_inv H. rename a into p0.
  destruct (to_proto_parts _ _ _ _ _ _ _ _ E) as (xs & ys & bs & evs & out & M & Ar & Hg & Pa & P1 & P2 & P3).
  pose proof (arrange_ok _ _ _ _ _ Ar) as AO. destruct (huge_pages_ok _ _ _ _ Hg) as (Pl & Im).
  assert (Pm : Permutation xs ys) by (exact (arranged_perm _ _ _ AO)).
  assert (Ix : forall x m, In (x, m) evs -> In x xs).
  { intros x m I. destruct (Im x m I) as (Iy & _). apply (Permutation_in _ (Permutation_sym Pm)), Iy. }
  exists xs, ys, evs. split; [exact M|]. split; [exact AO|]. split.
  { assert (G : filter (fun xm => negb (is_map (fst xm))) evs = filter plain evs).
    { apply filter_ext_in. intros (x, m) I. cbn [fst]. destruct (Im x m I) as (_ & ->). now rewrite negb_involutive. }
    rewrite G, Pl, map_map. cbn [fst]. apply map_id. }
  intros NR x s i Ixx Bx Ei. set (c := ConverterModel.Build_cfg p0 labels options types) in *.
  assert (Ph : exists hs, process p0 = Ok hs).
  { unfold ConverterModel.convert in H0. ok_inv H0. eauto. }
  destruct Ph as (hs & Ph).
  assert (Ie : In (x, None) evs).
  { assert (J : In (x, None) (filter plain evs)).
    { rewrite Pl. apply (in_map (fun x => (x, None))). unfold others. apply filter_In. split; [apply (Permutation_in _ Pm), Ixx|]. unfold is_map. now rewrite Bx. }
    now apply filter_In in J as (J & _). }
  destruct (in_split _ _ Ie) as (h & t & Eh).
  assert (Pe : pp_events p0 = map (proto_event md5 base) h ++
                {| ev_misc := Some (xe_misc x); ev_what := EvSample (proto_sample s) |} :: map (proto_event md5 base) t).
  { rewrite P2, Eh, map_app. cbn [map]. f_equal. f_equal. unfold proto_event. cbn [fst snd]. now rewrite Bx. }
  assert (NR' : ConverterSpec.never_reset c hs).
  { destruct NR as [G|G]; [left|right].
    - unfold ConverterSpec.grouped, ConverterSpec.option_on. cbn. destruct (N.land options 1 =? 0) eqn:Q; [apply N.eqb_eq in Q; congruence|reflexivity].
    - rewrite Forall_forall. intros k Ik. destruct k as [cx|cm ex|pid m]; cbn [ConverterSpec.execs]; auto.
      destruct ex; auto. destruct (OriginProofs.process_any_comm p0 hs cm true Ph Ik) as (pe & Ip & W).
      rewrite P2 in Ip. apply in_map_iff in Ip as ((y, m) & <- & Iy). unfold proto_event in W. cbn [fst snd ev_what] in W.
      destruct m; [discriminate|]. destruct (xe_body y) as [|?|?|k|?|?|?|?|?|?|?|?|?|?|?|?|?|?|?|?|?|?|?|? ?|?] eqn:Bd; try discriminate W.
      injection W as <-. cbn [cm_pid]. exact (G y k (Ix _ _ Iy) Bd). }
  assert (I1 : map fa_ids (pp_attrs p0) = map FileModel.fa_ids (FileModel.fs_attrs st)).
  { rewrite P1, map_map. reflexivity. }
  assert (He : exists e, normalizer_env p0 = Ok e) by (unfold process in Ph; ok_inv Ph; eauto).
  destruct He as (e & He).
  destruct (sample_shown c hs ps e (map (proto_event md5 base) h) (Some (xe_misc x)) (proto_sample s) (map (proto_event md5 base) t) i
              Ph NR' H0 He Pe) as (p & sm & Ip & S & L).
  { change (ConverterModel.cf_data c) with p0. rewrite I1. exact Ei. }
  exists h, t, (map (proto_event md5 base) h), p, sm. split; [exact Eh|]. split; [apply says_events|]. split; [exact Ip|].
  rewrite facts_same in S. rewrite facts_same in L.
  split.
  { unfold ConverterSpec.grouped, ConverterSpec.data_frames, ConverterSpec.option_on in S.
    change (ConverterModel.cf_options c) with options in S. destruct (N.land options 1 =? 0); exact S. }
  intros NS Sh Ni. cbn zeta.
  assert (SP : has_spe (pp_events p0) = true -> thread_only (record_facts s)).
  { destruct NS as [NS|NS]; [|auto]. rewrite P2, (has_spe_none md5 base xs evs NS Ix). discriminate. }
  specialize (L SP). change (ConverterModel.cf_data c) with p0 in L. rewrite P2 in L at 1.
  specialize (L (shape_same md5 base xs evs _ Ix Sh) Ni).
  rewrite P1 in L. change (ConverterModel.cf_labels c) with labels in L. change (ConverterModel.cf_types c) with types in L.
  rewrite <- map_rev in L.
  assert (Ex : existsb fa_comm_exec (map proto_attr (FileModel.fs_attrs st)) =
               existsb (fun a => N.testbit (AttrModel.ea_flags (AttrModel.ser_attr (FileModel.fa_attr a))) 24) (FileModel.fs_attrs st)).
  { clear. induction (FileModel.fs_attrs st) as [|a l IH]; [reflexivity|]. cbn [map existsb]. now rewrite IH. }
  rewrite Ex in L.
  assert (Q : forall n1 n2 g1 g2 f, (forall a b, n1 a b = n2 a b) -> (forall a, g1 a = g2 a) ->
    shown_labels labels types n1 g1 (Some (xe_misc x)) f = shown_labels labels types n2 g2 (Some (xe_misc x)) f).
  { intros n1 n2 g1 g2 f A B. unfold shown_labels. rewrite !A. destruct (f_cgroup f); [now rewrite B|reflexivity]. }
  rewrite (Q _ (name_told md5 (existsb (fun a => N.testbit (AttrModel.ea_flags (AttrModel.ser_attr (FileModel.fa_attr a))) 24)
    (FileModel.fs_attrs st)) (rev h)) _ (path_told (rev h))) in L; [exact L| |].
  - intros a b. apply name_same.
  - intros a. apply path_same.
Qed.
Print Assumptions C65_every_record.

(** ** Examples *)

(** The second sample of process 10 in the history of C23_example, which shares its
    entry with the first. *)
Import ConverterModel ConverterSpec.
Definition third : sample_ev := ConverterProps.at_time 10 12 0x1800 90 [0x1800; 0x2800] 3.
Definition labelled (key s : list N) (n : Z) (u : list N) : read_label := {| rl_key := key; rl_str := s; rl_num := n; rl_unit := u |}.
Example C65_example :
  exists hs ps h t, process (cf_data ConverterProps.example) = Ok hs /\ never_reset ConverterProps.example hs /\
    convert ConverterProps.example = Ok ps /\
    pp_events (cf_data ConverterProps.example) = h ++ {| ev_misc := Some 2; ev_what := EvSample third |} :: t /\
    List.length h = 5%nat /\
    event_of (map fa_ids (pp_attrs (cf_data ConverterProps.example))) (s_id third) = Some 0%nat /\
    (forall ev, In ev (pp_events (cf_data ConverterProps.example)) -> ev_what ev <> EvAuxInfo 4) /\
    same_fields (pp_events (cf_data ConverterProps.example)) (sample_facts third) /\ s_ip third <> 9 * 2 ^ 60 /\
    shown_stack false (rev h) (Some 2) (sample_facts third) = [0x1800; 0x27FF] /\
    shown_labels 66 [] (name_at false (rev h)) (path_at (rev h)) (Some 2) (sample_facts third) =
      [labelled (str "tid") [] 12 []; labelled (str "thread_comm") (str "worker") 0 []].
Proof.
  eexists _, _, (firstn 5 ConverterProps.history), (skipn 6 ConverterProps.history).
  split; [vm_compute; reflexivity|]. split; [left; reflexivity|]. split; [vm_compute; reflexivity|].
  split; [reflexivity|]. split; [reflexivity|]. split; [vm_compute; reflexivity|].
  split. { intros v I. vm_compute in I. repeat (destruct I as [<-|I]; [discriminate|]). destruct I. }
  split. { intros v s I W. vm_compute in I. repeat (destruct I as [<-|I]; [try discriminate W; injection W as <-; repeat split; reflexivity|]). destruct I. }
  split; [discriminate|]. split; vm_compute; reflexivity.
Qed.

(** The first sample record of the file of C62_example, taken after the mappings by
    its time. *)
Example C65_example_file :
  exists st xs ps x s, FileModel.read_perf_data (new_reader (swapped (ex_bytes ex_records))) (ex_bytes ex_records) = Ok st /\
    PipelineModel.each (message (serializer (swapped (ex_bytes ex_records)) st)) (FileModel.fs_events st) = Ok xs /\
    raw_to_profiles (fun _ => 0) (fun _ => 0) ex_order (ex_bytes ex_records) [] 15 1 [] = Ok ps /\
    no_spe xs /\ no_reset 1 xs /\ nth_error xs 0 = Some x /\ xe_body x = XBSample s /\
    event_of (map FileModel.fa_ids (FileModel.fs_attrs st)) (xsa_id s) = Some 0%nat /\
    same_shape xs (record_facts s) /\ dflt (xsa_ip s) = 4198400 /\ dflt (xsa_pid s) = 7 /\ dflt (xsa_time s) = 30 /\
    shown_labels 15 [] (fun _ _ => []) (fun _ => None) (Some (xe_misc x)) (record_facts s) =
      [labelled (str "pid") [] 7 []; labelled (str "tid") [] 7 []; labelled (str "timestamp_ns") [] 30 [];
       labelled (str "execution_mode") (str "Host User") 0 []] /\
    map (fun p => (pr_pid p, pr_min p, pr_max p, map lc_addr (pf_location (pr_data p)))) ps =
      [(7, 20%Z, 60%Z, [4194305; 4198400; 9 * 2 ^ 60; 4194304])].
Proof.
  eexists _, _, _, _, _. split; [vm_compute; reflexivity|]. split; [vm_compute; reflexivity|]. split; [vm_compute; reflexivity|].
  split. { intros x a I B. vm_compute in I. repeat (destruct I as [<-|I]; [discriminate B|]). destruct I. }
  split; [left; discriminate|]. split; [vm_compute; reflexivity|]. split; [vm_compute; reflexivity|]. split; [vm_compute; reflexivity|].
  split. { intros y b I W. vm_compute in I. repeat (destruct I as [<-|I]; [try discriminate W; injection W as <-; repeat split; reflexivity|]). destruct I. }
  repeat split; vm_compute; reflexivity.
Qed.

(** Finding: samples with and without a field are one entry if the field is 0, so a
    sample can be shown with a label it does not have, or without one it has. *)
Definition tidless (tid : option N) : sample_ev :=
  {| s_ip := 0x1800; s_pid := Some 10; s_tid := tid; s_time := None; s_addr := None; s_id := None; s_period := 0;
     s_cpu := None; s_callchain := []; s_branch := []; s_weight := None; s_wstruct := None; s_data_src := None;
     s_cgroup := None; s_data_page := None; s_code_page := None |}.
Definition keys_of (evs : list perf_event) : list (list (list N * Z)) :=
  match convert (ConverterProps.conf 2 1 evs) with
  | Ok ps => flat_map (fun p => map (fun s => map (fun l =>
      (match string_of (pr_data p) (lb_key l) with Some k => k | None => [] end, lb_num l)) (ps_label s)) (pf_sample (pr_data p))) ps
  | _ => []
  end.
Theorem C65_mixed_shapes_refuted :
  keys_of [{| ev_misc := None; ev_what := EvSample (tidless (Some 0)) |}; {| ev_misc := None; ev_what := EvSample (tidless None) |}] =
    [[(str "tid", 0%Z)]] /\
  keys_of [{| ev_misc := None; ev_what := EvSample (tidless None) |}; {| ev_misc := None; ev_what := EvSample (tidless (Some 0)) |}] = [[]] /\
  shown_labels 2 [] (name_at false []) (path_at []) None (sample_facts (tidless None)) = [] /\
  shown_labels 2 [] (name_at false []) (path_at []) None (sample_facts (tidless (Some 0))) = [labelled (str "tid") [] 0 []].
Proof. repeat split; vm_compute; reflexivity. Qed.
Print Assumptions C65_mixed_shapes_refuted.
