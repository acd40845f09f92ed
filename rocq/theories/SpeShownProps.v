(** C69: the records of the SPE traces are shown. *)
From Coq Require Import String Permutation.
From Verif Require Import Base BytesModel TextModel Assoc ProfileModel SpeModel SpeSpec SpeProps PerfProto NormalizerModel NormalizerSpec
  NormalizerProofs SerializerModel.
From Verif Require FileModel FileExamples AttrModel EventSizeModel HugePageModel ConverterModel ConverterSpec ConverterProps OriginProofs.
From Verif Require Import PipelineModel PipelineSpec PipelineProofs PipelineTotalProofs PipelineProps SuccessSpec SuccessProofs
  RecordSpec RecordNameProofs RecordProofs RecordFileProofs RecordProps ShownProofs SpeShownSpec SpeShownProofs.
Local Open Scope N_scope.
Local Open Scope list_scope.

(** ** Of a stored proto *)

(** C69. If the recording says it has SPE traces: every record [r] of the records [rs] a
    trace is decoded to is shown by a sample of the profile of its process, which counts
    it as often as it occurs as a sample of the first event, at the address of its
    instruction as it was mapped then; and with its labels, if the sample records have
    process and thread but no time and CPU. *)
Theorem C69_every_record (c : ConverterModel.cfg) (hs : list hcall) (ps : list ConverterModel.process_profile)
    (h t : list perf_event) (misc : option N) (buf : list N) (base : N) (rs : list spe_rec) (r : spe_rec) :
  process (ConverterModel.cf_data c) = Ok hs -> ConverterSpec.never_reset c hs -> ConverterModel.convert c = Ok ps ->
  (exists ev, In ev (pp_events (ConverterModel.cf_data c)) /\ ev_what ev = EvAuxInfo 4) ->
  pp_events (ConverterModel.cf_data c) = h ++ {| ev_misc := misc; ev_what := EvAuxtrace (Some buf) base |} :: t ->
  decode_trace {| st_buf := buf; st_base := base; st_swap := false |} = Ok rs -> In r rs ->
  pp_attrs (ConverterModel.cf_data c) <> [] ->
  let pid := trace_pid (pp_events (ConverterModel.cf_data c)) r in
  exists p s, In p ps /\
    shows_trace p s (if ConverterSpec.grouped c then pid else 0) r rs (trace_stack (ConverterSpec.data_frames c) (rev h) pid r) /\
    (same_fields (pp_events (ConverterModel.cf_data c)) (trace_facts pid r) ->
     Forall2 (ConverterSpec.reads (ConverterModel.pr_data p)) (ps_label s)
       (trace_labels (ConverterModel.cf_labels c) (ConverterModel.cf_types c)
          (name_at (existsb fa_comm_exec (pp_attrs (ConverterModel.cf_data c))) (rev h)) pid r)).
Proof.
  intros P NR C (ev & Ie & We) Hp Dc Ir Na. apply (trace_shown c hs ps h misc buf base t rs r P NR C); auto.
  apply existsb_exists. exists ev. split; [exact Ie|]. now rewrite We.
Qed.
Print Assumptions C69_every_record.

(** C69. So of a trace that is well formed every block is shown. *)
Theorem C69_every_block (c : ConverterModel.cfg) (hs : list hcall) (ps : list ConverterModel.process_profile)
    (h t : list perf_event) (misc : option N) (base : N) (bs : list spe_block) (b : spe_block) :
  process (ConverterModel.cf_data c) = Ok hs -> ConverterSpec.never_reset c hs -> ConverterModel.convert c = Ok ps ->
  (exists ev, In ev (pp_events (ConverterModel.cf_data c)) /\ ev_what ev = EvAuxInfo 4) ->
  pp_events (ConverterModel.cf_data c) =
    h ++ {| ev_misc := misc; ev_what := EvAuxtrace (Some (flat_map (encode_block false) bs)) base |} :: t ->
  Forall block_ok bs -> In b bs -> pp_attrs (ConverterModel.cf_data c) <> [] ->
  let r := block_record b in
  let pid := trace_pid (pp_events (ConverterModel.cf_data c)) r in
  exists p s, In p ps /\
    shows_trace p s (if ConverterSpec.grouped c then pid else 0) r (map block_record bs)
      (trace_stack (ConverterSpec.data_frames c) (rev h) pid r).
Proof.
  intros P NR C Ie Hp Ok Ib Na r pid.
  destruct (C69_every_record c hs ps h t misc _ base (map block_record bs) r P NR C Ie Hp (C40_decodes_what_was_encoded base false bs Ok)
              (in_map _ _ _ Ib) Na) as (p & s & Ip & S & _). eauto.
Qed.
Print Assumptions C69_every_block.

(** ** Of a file *)
Lemma last_pid_same md5 base tid h : last_pid (map (proto_event md5 base) h) tid = last_pid_told h tid.
Proof.
  induction h as [|(x, m) h IH]; [reflexivity|]. cbn [map last_pid last_pid_told]. unfold gives_pid at 1, proto_event at 1.
  cbn [fst snd ev_what]. destruct m; [exact IH|]. destruct (xe_body x); try exact IH; cbn [fk_tid fk_pid cm_tid cm_pid]; now rewrite IH.
Qed.
Lemma trace_message s ev x : message s ev = Ok x -> EventSizeModel.ev_type (FileModel.fe_raw ev) = 71 ->
  exists a, xe_body x = XBAuxtrace a /\ xat_trace a = FileModel.fe_trace ev.
Proof.
  unfold message. intros H T. ok_inv H. injection H0 as <-. unfold serialize in E. ok_inv E. injection H as <-. rewrite T in E0.
  change (64 <=? 71) with true in E0. cbv beta iota in E0. unfold ser_user in E0. rewrite T in E0.
  cbn [N.eqb Pos.eqb EventSizeModel.R_AUXTRACE_INFO EventSizeModel.R_AUXTRACE] in E0.
  unfold omap in E0. destruct (ser_auxtrace _) as [z| | | |]; try discriminate E0. injection E0 as <-.
  unfold with_trace. cbn [xe_body]. eexists. split; reflexivity.
Qed.

(** C69. The same of every trace in a file: [ev] is the record that announces it, of type
    71, and [x] its message. *)
Theorem C69_every_trace (md5 base : list N -> N) (order bytes : list N) (build_ids : list (list N * list N))
    (labels options : N) (types : list (N * list N)) (ps : list ConverterModel.process_profile) (st : FileModel.fstate) :
  raw_to_profiles md5 base order bytes build_ids labels options types = Ok ps ->
  FileModel.read_perf_data (new_reader (swapped bytes)) bytes = Ok st ->
  FileModel.fs_attrs st <> [] ->
  exists xs ys evs,
    PipelineModel.each (message (serializer (swapped bytes) st)) (FileModel.fs_events st) = Ok xs /\ arranged st xs ys /\
    map fst (filter (fun xm => negb (is_map (fst xm))) evs) = others ys /\
    (no_reset options xs -> (exists x a, In x xs /\ xe_body x = XBAuxInfo a /\ xai_type a = 4) ->
     forall ev rs r, In ev (FileModel.fs_events st) -> EventSizeModel.ev_type (FileModel.fe_raw ev) = 71 ->
     FileModel.fe_trace ev <> [] ->
     decode_trace {| st_buf := FileModel.fe_trace ev; st_base := base (FileModel.fe_trace ev); st_swap := false |} = Ok rs -> In r rs ->
     exists x h t maps p s, message (serializer (swapped bytes) st) ev = Ok x /\ evs = h ++ (x, None) :: t /\ Forall2 says h maps /\
       In p ps /\
       let pid := trace_pid_told evs r in
       shows_trace p s (if N.land options 1 =? 0 then 0 else pid) r rs
         (trace_stack (negb (N.land options 8 =? 0)) (rev maps) pid r) /\
       (same_shape xs (trace_facts pid r) ->
        let marked := existsb (fun a => N.testbit (AttrModel.ea_flags (AttrModel.ser_attr (FileModel.fa_attr a))) 24)
                        (FileModel.fs_attrs st) in
        Forall2 (ConverterSpec.reads (ConverterModel.pr_data p)) (ps_label s)
          (trace_labels labels types (name_told md5 marked (rev h)) pid r))).
Proof.
  intros H R Na. unfold raw_to_profiles in H. rewrite R in H. ok_inv H. rename a into p0.
  destruct (to_proto_all _ _ _ _ _ _ _ _ E) as (xs & ys & bs & evs & M & Ar & Hg & P1 & P2 & P3 & _).
  pose proof (arrange_ok _ _ _ _ _ Ar) as AO. destruct (huge_pages_ok _ _ _ _ Hg) as (Pl & Im).
  assert (Pm : Permutation xs ys) by (exact (arranged_perm _ _ _ AO)).
  assert (Ix : forall x m, In (x, m) evs -> In x xs).
  { intros x m I. destruct (Im x m I) as (Iy & _). apply (Permutation_in _ (Permutation_sym Pm)), Iy. }
  exists xs, ys, evs. split; [exact M|]. split; [exact AO|]. split.
  { assert (G : filter (fun xm => negb (is_map (fst xm))) evs = filter plain evs).
    { apply filter_ext_in. intros (x, m) I. cbn [fst]. destruct (Im x m I) as (_ & ->). now rewrite negb_involutive. }
    rewrite G, Pl, map_map. cbn [fst]. apply map_id. }
  intros NR (xi & ai & Ixi & Bxi & Ti) ev rs r Iev Tev Nt Dc Ir. set (c := ConverterModel.Build_cfg p0 labels options types) in *.
  assert (Ph : exists hs, process p0 = Ok hs).
  { unfold ConverterModel.convert in H0. ok_inv H0. eauto. }
  destruct Ph as (hs & Ph).
  assert (In_evs : forall x, In x xs -> is_map x = false -> In (x, None) evs).
  { intros x Ixx Nm. assert (J : In (x, None) (filter plain evs)).
    { rewrite Pl. apply (in_map (fun x => (x, None))). unfold others. apply filter_In. split; [apply (Permutation_in _ Pm), Ixx|]. now rewrite Nm. }
    now apply filter_In in J as (J & _). }
  assert (Mx : exists x, message (serializer (swapped bytes) st) ev = Ok x /\ In x xs).
  { pose proof (each_nth _ _ _ M) as F. clear - F Iev. induction F as [|a y l k A F IH]; [contradiction|].
    destruct Iev as [->|I]; [exists y; split; [exact A|now left]|]. destruct (IH I) as (x & X & Y). exists x. split; [exact X|now right]. }
  destruct Mx as (x & Mx & Ixx). destruct (trace_message _ _ _ Mx Tev) as (a & Bx & Tx).
  assert (Ie : In (x, None) evs) by (apply In_evs; [exact Ixx|]; unfold is_map; now rewrite Bx).
  destruct (in_split _ _ Ie) as (h & t & Eh).
  assert (Pe : pp_events p0 = map (proto_event md5 base) h ++
                {| ev_misc := Some (xe_misc x); ev_what := EvAuxtrace (Some (FileModel.fe_trace ev)) (base (FileModel.fe_trace ev)) |} ::
                map (proto_event md5 base) t).
  { rewrite P2, Eh, map_app. cbn [map]. f_equal. f_equal. unfold proto_event. cbn [fst snd]. rewrite Bx, Tx.
    destruct (FileModel.fe_trace ev); [contradiction|reflexivity]. }
  assert (NR' : ConverterSpec.never_reset c hs).
  { destruct NR as [G|G]; [left|right].
    - unfold ConverterSpec.grouped, ConverterSpec.option_on. cbn. destruct (N.land options 1 =? 0) eqn:Q; [apply N.eqb_eq in Q; congruence|reflexivity].
    - rewrite Forall_forall. intros k Ik. destruct k as [cx|cm ex|pid' m]; cbn [ConverterSpec.execs]; auto.
      destruct ex; auto. destruct (OriginProofs.process_any_comm p0 hs cm true Ph Ik) as (pe & Ip & Wh).
      rewrite P2 in Ip. apply in_map_iff in Ip as ((y, m) & <- & Iy). unfold proto_event in Wh. cbn [fst snd ev_what] in Wh.
      destruct m; [discriminate|]. destruct (xe_body y) as [|?|?|k|?|?|?|?|?|?|?|?|?|?|?|?|?|?|?|?|?|?|?|? ?|?] eqn:Bd; try discriminate Wh.
      injection Wh as <-. cbn [cm_pid]. exact (G y k (Ix _ _ Iy) Bd). }
  destruct (C69_every_record c hs ps (map (proto_event md5 base) h) (map (proto_event md5 base) t) (Some (xe_misc x)) (FileModel.fe_trace ev)
              (base (FileModel.fe_trace ev)) rs r Ph NR' H0) as (p & s & Ip & S & L); [|exact Pe|exact Dc|exact Ir| |].
  { exists (proto_event md5 base (xi, None)). change (ConverterModel.cf_data c) with p0. rewrite P2. split.
    - apply in_map, In_evs; [exact Ixi|]. unfold is_map. now rewrite Bxi.
    - unfold proto_event. cbn [fst snd ev_what]. now rewrite Bxi, Ti. }
  { change (ConverterModel.cf_data c) with p0. rewrite P1. now destruct (FileModel.fs_attrs st). }
  assert (Pid : trace_pid (pp_events p0) r = trace_pid_told evs r).
  { unfold trace_pid, trace_pid_told. rewrite P2, <- map_rev, last_pid_same. reflexivity. }
  exists x, h, t, (map (proto_event md5 base) h), p, s. split; [exact Mx|]. split; [exact Eh|]. split; [apply says_events|]. split; [exact Ip|].
  cbn zeta. rewrite <- Pid. split.
  { unfold ConverterSpec.grouped, ConverterSpec.data_frames, ConverterSpec.option_on in S.
    change (ConverterModel.cf_options c) with options in S. destruct (N.land options 1 =? 0); exact S. }
  intros Sh. change (ConverterModel.cf_data c) with p0 in L. rewrite P2 in L at 1.
  specialize (L (shape_same md5 base xs evs _ Ix Sh)).
  rewrite P1, <- map_rev in L. change (ConverterModel.cf_labels c) with labels in L. change (ConverterModel.cf_types c) with types in L.
  assert (Ex : existsb fa_comm_exec (map proto_attr (FileModel.fs_attrs st)) =
               existsb (fun a => N.testbit (AttrModel.ea_flags (AttrModel.ser_attr (FileModel.fa_attr a))) 24) (FileModel.fs_attrs st)).
  { clear. induction (FileModel.fs_attrs st) as [|a m IH]; [reflexivity|]. cbn [map existsb]. now rewrite IH. }
  rewrite Ex in L. unfold trace_labels, shown_labels in *. rewrite !name_same in L. exact L.
Qed.
Print Assumptions C69_every_trace.

(** ** Examples *)
Import ConverterModel ConverterSpec.
Definition at_insn (a ctx total : N) : spe_block :=
  {| bk_body := [PkAddr 0 a; PkContext 1 ctx; PkCounter 0 total; PkCounter 1 9; PkOp 1 0]; bk_end := PkEnd |}.
Definition ex_blocks : list spe_block := [at_insn 0x400100 77 30; at_insn 0x400200 77 30; at_insn 0x400100 77 30].
Definition ex_comm77 (time : N) : list N :=
  FileExamples.ex_record false 3 0 (le_bytes 4 7 ++ le_bytes 4 77 ++ str "work" ++ repeat 0 4 ++ ex_tail time 11).
Definition ex_trace (bs : list spe_block) : list N :=
  let t := flat_map (encode_block false) bs in
  FileExamples.ex_record false 71 0 (le_bytes 8 (len t) ++ repeat 0 32) ++ t.
Definition ex_info : list N := FileExamples.ex_record false 70 0 (le_bytes 8 4).
(** The mapping has time [time]. *)
Definition ex_spe (time : N) : list N := ex_info ++ ex_comm77 0 ++ ex_mmap time 4194304 4096 0 ++ ex_trace ex_blocks.

Example C69_example :
  exists st xs ps ev rs r, FileModel.read_perf_data (new_reader (swapped (ex_bytes (ex_spe 0)))) (ex_bytes (ex_spe 0)) = Ok st /\
    PipelineModel.each (message (serializer (swapped (ex_bytes (ex_spe 0))) st)) (FileModel.fs_events st) = Ok xs /\
    raw_to_profiles (fun _ => 0) (fun _ => 0) ex_order (ex_bytes (ex_spe 0)) [] (2 + 64 + 8192 + 16384) 1 [] = Ok ps /\
    FileModel.fs_attrs st <> [] /\ no_reset 1 xs /\ (exists x a, In x xs /\ xe_body x = XBAuxInfo a /\ xai_type a = 4) /\
    nth_error (FileModel.fs_events st) 3 = Some ev /\ EventSizeModel.ev_type (FileModel.fe_raw ev) = 71 /\
    FileModel.fe_trace ev = flat_map (encode_block false) ex_blocks /\ FileModel.fe_trace ev <> [] /\
    decode_trace {| st_buf := FileModel.fe_trace ev; st_base := 0; st_swap := false |} = Ok rs /\ In r rs /\
    occurs 2 r rs /\ same_shape xs (trace_facts 7 r) /\
    trace_labels (2 + 64 + 8192 + 16384) [] (fun _ _ => str "work") 7 r =
      [RecordProps.labelled (str "tid") [] 77 []; RecordProps.labelled (str "thread_comm") (str "work") 0 [];
       RecordProps.labelled (str "total_latency") [] 30 (str "cycles"); RecordProps.labelled (str "issue_latency") [] 9 (str "cycles")] /\
    map (fun p => (pr_pid p, map (fun s => (ps_loc s, ps_val s)) (pf_sample (pr_data p)), map lc_addr (pf_location (pr_data p)))) ps =
      [(7, [([1], [2; 2000; 0; 0]%Z); ([2], [1; 1000; 0; 0]%Z)], [0x400100; 0x400200])].
Proof.
  eexists _, _, _, _, _, _. split; [vm_compute; reflexivity|]. split; [vm_compute; reflexivity|]. split; [vm_compute; reflexivity|].
  split; [discriminate|]. split; [left; discriminate|].
  split; [eexists _, _; split; [left; reflexivity|split; reflexivity]|].
  split; [vm_compute; reflexivity|]. split; [vm_compute; reflexivity|]. split; [vm_compute; reflexivity|]. split; [discriminate|].
  split; [vm_compute; reflexivity|]. split; [left; reflexivity|].
  split.
  { exists [0; 2]%nat. split; [repeat constructor; cbn; intuition discriminate|]. split; [reflexivity|].
    intros j [<-|[<-|[]]]; reflexivity. }
  split. { intros y b I W. vm_compute in I. repeat (destruct I as [<-|I]; [discriminate W|]). destruct I. }
  split; vm_compute; reflexivity.
Qed.

(** Finding: a trace has no time, so if all events record theirs it is taken before all
    records with a time, and none of its addresses is in a mapping made by then. *)
Theorem C69_later_mappings_refuted :
  exists ps, raw_to_profiles (fun _ => 0) (fun _ => 0) ex_order (ex_bytes (ex_spe 1)) [] 0 1 [] = Ok ps /\
    map (fun p => (map (fun s => (ps_loc s, ps_val s)) (pf_sample (pr_data p)), map lc_addr (pf_location (pr_data p)))) ps =
      [([([1], [3; 3000; 0; 0]%Z)], [0])].
Proof. eexists. split; vm_compute; reflexivity. Qed.
Print Assumptions C69_later_mappings_refuted.
