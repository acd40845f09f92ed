(** C62: from the bytes of a perf.data file to profiles. *)
From Coq Require Import String Permutation.
From Verif Require Import Base BytesModel TextModel Assoc PerfProto NormalizerModel NormalizerProofs.
From Verif Require FileModel FileSpec FileExamples SerializerModel AttrModel HugePageModel HugePageSpec ParserModel
  ConverterModel ConverterSpec ConverterProps.
From Verif Require Import PipelineModel PipelineSpec PipelineHugeProofs PipelineCallProofs PipelineProofs
  PipelineParserProofs PipelineTotalProofs.
Import SerializerModel.
Local Open Scope N_scope.
Local Open Scope list_scope.

(** ** Totals *)

(** C62. The counts and weights of event [i] in all profiles together are those of the
    file: one for each sample record of the event, and one for each lost sample the
    records report, unless these are to be dropped (option 16). Sorting, huge pages,
    combining, parsing and conversion lose and invent none. *)
Theorem C62_totals (md5 base : list N -> N) (order bytes : list N) (build_ids : list (list N * list N))
    (labels options : N) (types : list (N * list N)) (ps : list ConverterModel.process_profile) (st : FileModel.fstate)
    (new : bool) (i : nat) (a : FileModel.fattr) :
  raw_to_profiles md5 base order bytes build_ids labels options types = Ok ps ->
  FileModel.read_perf_data (new_reader (swapped bytes)) bytes = Ok st ->
  perf_version_61 (match aget N.eqb 5 (FileModel.fm_strings (FileModel.fs_meta st)) with Some v => v | None => [] end) = Ok new ->
  nth_error (FileModel.fs_attrs st) i = Some a ->
  exists xs,
    PipelineModel.each (message (serializer (swapped bytes) st)) (FileModel.fs_events st) = Ok xs /\
    (no_spe xs ->
     let ids := map FileModel.fa_ids (FileModel.fs_attrs st) in
     let period := AttrModel.ea_sample_period (AttrModel.ser_attr (FileModel.fa_attr a)) in
     let lost := if N.land options 16 =? 0 then total_of (lost_of ids i new xs) else 0 in
     ConverterSpec.total ps (2 * i) = (Z.of_nat (List.length (samples_of ids i xs)) + Z.of_N lost)%Z /\
     ConverterSpec.total ps (2 * i + 1) =
       (total_z (map (fun s => weighs period (dflt (xsa_period s))) (samples_of ids i xs)) + Z.of_N lost * weighs period 0)%Z).
Proof.
  intros H R V A. unfold raw_to_profiles in H. rewrite R in H. ok_inv H. rename a0 into p.
  destruct (to_proto_parts _ _ _ _ _ _ _ _ E) as (xs & ys & bs & evs & out & M & Ar & Hg & Pa & P1 & P2 & P3).
  exists xs. split; [exact M|]. intros NS. cbn zeta.
  set (c := ConverterModel.Build_cfg p labels options types) in *.
  unfold ConverterModel.convert in H0. pose proof H0 as C. ok_inv H0. rename a0 into hs. clear H.
  change (ConverterModel.cf_data c) with p in E0.
  assert (Hi : (i < ConverterSpec.events c)%nat).
  { unfold ConverterSpec.events. change (ConverterModel.cf_data c) with p. rewrite P1, map_length. apply nth_error_Some. congruence. }
  destruct (process_briefs p hs E0) as (e & He & Br).
  destruct (huge_pages_ok _ _ _ _ Hg) as (Pl & Im). pose proof (arrange_ok _ _ _ _ _ Ar) as AO. apply arranged_perm in AO.
  assert (SP : has_spe (pp_events p) = false).
  { rewrite P2. apply has_spe_none with xs; [exact NS|]. intros x m I. apply (Permutation_in _ (Permutation_sym AO)). now destruct (Im x m I). }
  specialize (Br SP). rewrite P2, events_briefs, Pl in Br.
  assert (F : flat_map (fun xm : x_event * option HugePageModel.vmap => msg_briefs md5 base e (fst xm)) (map (fun x => (x, None)) (others ys)) =
              flat_map (msg_briefs md5 base e) ys).
  { rewrite <- (others_briefs md5 base e ys). clear. induction (others ys) as [|x l IH]; [reflexivity|]. cbn [map flat_map fst]. now rewrite IH. }
  rewrite F in Br.
  assert (N1 : ne_lost_samples e = new).
  { unfold normalizer_env in He. destruct (fold_left add_build_id _ _). rewrite P3, V in He. cbn [obind] in He. injection He as <-. reflexivity. }
  assert (I1 : map fa_ids (pp_attrs p) = map FileModel.fa_ids (FileModel.fs_attrs st)).
  { rewrite P1, map_map. reflexivity. }
  assert (Per : match nth_error (pp_attrs p) i with Some b => fa_period b | None => 0 end =
                AttrModel.ea_sample_period (AttrModel.ser_attr (FileModel.fa_attr a))).
  { rewrite P1, nth_error_map, A. reflexivity. }
  destruct (messages_part md5 base c e He i Hi xs) as (T1 & T2).
  change (ConverterModel.cf_data c) with p in T1, T2. rewrite I1, N1 in T1, T2. rewrite Per in T2.
  assert (Dr : ConverterSpec.drops_lost c = negb (N.land options 16 =? 0)) by reflexivity.
  pose proof (flat_map_perm (msg_briefs md5 base e) _ _ AO) as FP. rewrite <- Br in FP. apply (filter_perm (brief_of c i)) in FP.
  destruct (samples_brief c i hs) as (S1 & S2).
  assert (C' : ConverterModel.convert c = Ok ps) by exact C.
  split.
  - rewrite (ConverterProps.C23_counts_conserved c hs ps i E0 C' Hi), S1, <- (Permutation_length FP), T1, Dr.
    destruct (N.land options 16 =? 0); reflexivity.
  - rewrite (ConverterProps.C24_weights_conserved c hs ps i E0 C' Hi), S2.
    rewrite <- (sum_perm _ _ (Permutation_map (brief_weight c i) FP)), T2, Dr.
    destruct (N.land options 16 =? 0); reflexivity.
Qed.
Print Assumptions C62_totals.

(** ** Events *)

(** C62. What is converted are the messages of the records, sorted by time if all
    events record it. Those that are not mappings stay what they are, in that order;
    a mapping stems from a mapping. *)
Theorem C62_events (md5 base : list N -> N) (order : list N) (options : N) (build_ids : list (list N * list N))
    (sw : bool) (st : FileModel.fstate) (p : perf_proto) :
  to_proto md5 base order options build_ids sw st = Ok p ->
  exists xs ys evs,
    PipelineModel.each (message (serializer sw st)) (FileModel.fs_events st) = Ok xs /\ arranged st xs ys /\
    pp_events p = map (proto_event md5 base) evs /\
    map fst (filter (fun xm => negb (is_map (fst xm))) evs) = others ys /\
    (forall x m, In (x, m) evs -> In x xs /\ (m <> None <-> is_map x = true)).
Proof.
  intros H. destruct (to_proto_parts _ _ _ _ _ _ _ _ H) as (xs & ys & bs & evs & out & M & Ar & Hg & Pa & P1 & P2 & P3).
  pose proof (arrange_ok _ _ _ _ _ Ar) as AO. destruct (huge_pages_ok _ _ _ _ Hg) as (Pl & Im).
  exists xs, ys, evs. split; [exact M|]. split; [exact AO|]. split; [exact P2|]. split.
  - assert (G : filter (fun xm => negb (is_map (fst xm))) evs = filter plain evs).
    { apply filter_ext_in. intros (x, m) I. cbn [fst]. destruct (Im x m I) as (_ & ->). now rewrite negb_involutive. }
    rewrite G, Pl, map_map. cbn [fst]. apply map_id.
  - intros x m I. destruct (Im x m I) as (Ix & Mx). split; [apply (Permutation_in _ (Permutation_sym (arranged_perm _ _ _ AO))), Ix|].
    rewrite Mx. destruct m; cbn; split; congruence.
Qed.
Print Assumptions C62_events.

(** C62. Address by address the mappings that are converted are those of the records:
    an address of a process is mapped exactly when it was, and, unless by a huge page,
    to the same file at the same offset. *)
Theorem C62_mappings (md5 base : list N -> N) (order : list N) (options : N) (build_ids : list (list N * list N))
    (sw : bool) (st : FileModel.fstate) (p : perf_proto) :
  NoDup order -> to_proto md5 base order options build_ids sw st = Ok p ->
  exists xs ys,
    PipelineModel.each (message (serializer sw st)) (FileModel.fs_events st) = Ok xs /\ arranged st xs ys /\
    (maps_end_in_memory xs -> forall pid a,
     match message_map pid a ys with
     | None => event_map pid a (pp_events p) = None
     | Some m => exists m', event_map pid a (pp_events p) = Some m' /\
         (~ HugePageSpec.huge_name (xm_filename m) ->
            mm_file m' = xm_filename m /\
            (mm_pgoff m' + (a - mm_start m')) mod 2 ^ 64 = (xm_pgoff m + (a - xm_start m)) mod 2 ^ 64)
     end).
Proof.
  intros ND H. destruct (to_proto_parts _ _ _ _ _ _ _ _ H) as (xs & ys & bs & evs & out & M & Ar & Hg & Pa & P1 & P2 & P3).
  pose proof (arrange_ok _ _ _ _ _ Ar) as AO. exists xs, ys. split; [exact M|]. split; [exact AO|]. intros EM.
  assert (EM' : maps_end_in_memory ys).
  { intros m I. apply EM. unfold mappings in *. apply in_flat_map in I as (x & Ix & I). apply in_flat_map. exists x. split; [|exact I].
    apply (Permutation_in _ (Permutation_sym (arranged_perm _ _ _ AO))), Ix. }
  destruct (maps_kept md5 base order ys ND EM') as (evs' & Hg' & K). rewrite Hg in Hg'. injection Hg' as <-.
  rewrite P2. exact K.
Qed.
Print Assumptions C62_mappings.

(** ** The parser *)

(** C62. The events the parser leaves in the reader are those it got; a sample without
    an address gets address 0, which is what a message without one has anyway. So the
    proto that is converted can be taken from before the parser, as the model does. *)
Theorem C62_parser_keeps (md5 base : list N -> N) (order : list N) (options : N) (build_ids : list (list N * list N))
    (sw : bool) (st : FileModel.fstate) (p : perf_proto) :
  to_proto md5 base order options build_ids sw st = Ok p ->
  exists evs after rows s, pp_events p = map (proto_event md5 base) evs /\
    ParserModel.parse_raw_events (parser_options options) (map parser_view evs) = Ok (after, rows, s) /\
    map filled after = map filled (map parser_view evs).
Proof.
  intros H. destruct (to_proto_parts _ _ _ _ _ _ _ _ H) as (xs & ys & bs & evs & ((after, rows), s) & M & Ar & Hg & Pa & P1 & P2 & P3).
  exists evs, after, rows, s. split; [exact P2|]. split; [exact Pa|].
  refine (parse_same (parser_options options) _ _ _ _ _ _ _ Pa); [reflexivity|reflexivity|].
  eapply views_have_maps; eauto.
Qed.
Print Assumptions C62_parser_keeps.

(** ** Example *)

(** Example: a file with two events, of periods 1000 and 2000. The mapping of /x is
    recorded in two halves; one sample comes before the mappings, which have earlier
    times. *)
Definition ex_attr2 (config period : N) : list N :=
  le_bytes 4 0 ++ le_bytes 4 96 ++ le_bytes 8 config ++ le_bytes 8 period ++ le_bytes 8 65799 ++ le_bytes 8 0 ++
  le_bytes 8 (2 ^ 18) ++ repeat 0 48.
Definition ex_tail (time id : N) : list N := le_bytes 4 7 ++ le_bytes 4 7 ++ le_bytes 8 time ++ le_bytes 8 id.
Definition ex_mmap (time start size pgoff : N) : list N :=
  FileExamples.ex_record false 1 2 (le_bytes 4 7 ++ le_bytes 4 7 ++ le_bytes 8 start ++ le_bytes 8 size ++ le_bytes 8 pgoff ++
    str "/x" ++ repeat 0 6 ++ ex_tail time 11).
Definition ex_sample (id ip time period : N) : list N :=
  FileExamples.ex_record false 9 2 (le_bytes 8 id ++ le_bytes 8 ip ++ le_bytes 4 7 ++ le_bytes 4 7 ++ le_bytes 8 time ++ le_bytes 8 period).
Definition ex_lost (id n time : N) : list N :=
  FileExamples.ex_record false 2 0 (le_bytes 8 id ++ le_bytes 8 n ++ ex_tail time id).
Definition ex_records : list N :=
  ex_sample 11 4198400 30 5 ++ ex_mmap 10 4194304 4096 0 ++ ex_mmap 11 4198400 4096 4096 ++ ex_sample 12 4194305 20 0 ++
  ex_lost 12 3 40 ++ ex_sample 11 4194304 60 4.
Definition ex_bytes (records : list N) : list N :=
  FileSpec.magic_bytes false ++ le_bytes 8 104 ++ le_bytes 8 112 ++
  le_bytes 8 120 ++ le_bytes 8 224 ++ le_bytes 8 344 ++ le_bytes 8 (len records) ++ le_bytes 8 0 ++ le_bytes 8 0 ++ repeat 0 32 ++
  le_bytes 8 11 ++ le_bytes 8 12 ++
  ex_attr2 0 1000 ++ le_bytes 8 104 ++ le_bytes 8 8 ++ ex_attr2 1 2000 ++ le_bytes 8 112 ++ le_bytes 8 8 ++ records.

Definition ex_order : list N := [7].
Example C62_example :
  exists st xs ps, FileModel.read_perf_data (new_reader (swapped (ex_bytes ex_records))) (ex_bytes ex_records) = Ok st /\
    PipelineModel.each (message (serializer false st)) (FileModel.fs_events st) = Ok xs /\
    raw_to_profiles (fun _ => 0) (fun _ => 0) ex_order (ex_bytes ex_records) [] 0 1 [] = Ok ps /\
    no_spe xs /\ maps_end_in_memory xs /\ all_timed st /\ swapped (ex_bytes ex_records) = false /\
    map xe_time xs = [30; 10; 11; 20; 40; 60] /\
    map FileModel.fa_ids (FileModel.fs_attrs st) = [[11]; [12]] /\
    map (fun i => List.length (samples_of [[11]; [12]] i xs)) [0; 1]%nat = [2; 1]%nat /\
    map (fun i => total_of (lost_of [[11]; [12]] i false xs)) [0; 1]%nat = [0; 3] /\
    map (ConverterSpec.total ps) [0; 1; 2; 3]%nat = [2; 9; 4; 8000]%Z.
Proof.
  eexists _, _, _. split; [vm_compute; reflexivity|]. split; [vm_compute; reflexivity|]. split; [vm_compute; reflexivity|].
  split. { intros x a I B. vm_compute in I. repeat (destruct I as [<-|I]; [discriminate B|]). destruct I. }
  split. { intros m I. vm_compute in I. repeat (destruct I as [<-|I]; [vm_compute; auto|]). destruct I. }
  split. { intros a I. vm_compute in I. repeat (destruct I as [<-|I]; [vm_compute; reflexivity|]). destruct I. }
  repeat split; vm_compute; reflexivity.
Qed.
(** The two halves of the mapping are one again, before the samples. *)
Example C62_example_proto :
  match FileModel.read_perf_data (new_reader false) (ex_bytes ex_records) with
  | Ok st => match to_proto (fun _ => 0) (fun _ => 0) ex_order 1 [] false st with
             | Ok p => map (fun e => match ev_what e with
                                     | EvMMap m => [1; mm_start m; mm_len m; mm_pgoff m]
                                     | EvSample s => [9; s_ip s; s_period s]
                                     | EvLost l => [2; lo_id l; lo_lost l]
                                     | _ => []
                                     end) (pp_events p)
             | _ => []
             end
  | _ => []
  end = [[1; 4194304; 8192; 0]; [9; 4194305; 0]; [9; 4198400; 5]; [2; 12; 3]; [9; 4194304; 4]].
Proof. vm_compute. reflexivity. Qed.

(** ** Findings *)

(** A readable file need not give profiles: one mapping of length 0 (or one that goes
    beyond 2^64) and the program ends. *)
Theorem C62_readable_file_aborts_refuted :
  exists records records' st st',
    FileModel.read_perf_data (new_reader (swapped (ex_bytes records))) (ex_bytes records) = Ok st /\
    FileModel.read_perf_data (new_reader (swapped (ex_bytes records'))) (ex_bytes records') = Ok st' /\
    raw_to_profiles (fun _ => 0) (fun _ => 0) ex_order (ex_bytes records) [] 0 1 [] = Abort /\
    raw_to_profiles (fun _ => 0) (fun _ => 0) ex_order (ex_bytes records') [] 0 1 [] = Abort.
Proof.
  exists (ex_sample 11 4198400 30 5 ++ ex_mmap 10 4194304 0 0), (ex_sample 11 4198400 30 5 ++ ex_mmap 10 (2 ^ 64 - 4096) 8192 0).
  eexists _, _. split; [vm_compute; reflexivity|]. split; [vm_compute; reflexivity|]. split; vm_compute; reflexivity.
Qed.
Print Assumptions C62_readable_file_aborts_refuted.

(** One sample of an id no event has makes the whole file unreadable: there are no
    profiles, without an error other than a log line. *)
Theorem C62_unknown_id_refuted :
  raw_to_profiles (fun _ => 0) (fun _ => 0) ex_order (ex_bytes (ex_records ++ ex_sample 99 4194304 50 6)) [] 0 1 [] = Ok [].
Proof. vm_compute. reflexivity. Qed.
Print Assumptions C62_unknown_id_refuted.
