(** C70: the command perf_to_profile. *)
From Coq Require Import String Permutation.
From Verif Require Import Base BytesModel TextModel Assoc PerfProto NormalizerModel NormalizerSpec NormalizerProofs SerializerModel.
From Verif Require ProfileModel FileModel FileSpec FileProps FileExamples AttrModel ConverterModel ConverterSpec OriginProofs HugePageProofs ShownProofs.
From Verif Require Import PipelineModel PipelineSpec PipelineProofs PipelineProps SuccessSpec SuccessProps RecordSpec RecordProps ToolModel ToolSpec ToolProofs.
Local Open Scope N_scope.
Local Open Scope list_scope.

(** ** Command line *)

(** C70. The command line may have the options in any order, joined or not, with operands
    between them; the last name given counts, and both must be given. *)
Theorem C70_arguments (ws : list word) (tl : list (list N)) :
  Forall proper_word ws -> rest tl ->
  parse_arguments (flat_map typed ws ++ tl) =
    match last_name OptI ws, last_name OptO ws with
    | [], _ | _, [] => None
    | input, output => Some {| a_input := input; a_output := output;
                               a_overwrite := has_flag FlagF ws; a_jit := has_flag FlagJ ws |}
    end.
Proof.
  intros F R. unfold parse_arguments. rewrite (getopt_words tl R ws F), take_words. unfold asked, last_name.
  cbn [a_input a_output a_overwrite a_jit]. rewrite !orb_false_r.
  match goal with |- match ?i with [] => _ | _ => _ end = _ => destruct i; [reflexivity|] end.
  match goal with |- match ?i with [] => _ | _ => _ end = _ => destruct i; reflexivity end.
Qed.
Print Assumptions C70_arguments.

(** C70. Nothing else is accepted. *)
Theorem C70_only_arguments (args : list (list N)) (a : arguments) :
  parse_arguments args = Some a -> exists ws tl, Forall proper_word ws /\ rest tl /\ args = flat_map typed ws ++ tl.
Proof.
  unfold parse_arguments. intros H. apply (accepted_words (List.length args) args {| a_input := []; a_output := []; a_overwrite := false; a_jit := false |} (le_n _)). intros E. now rewrite E in H.
Qed.
Print Assumptions C70_only_arguments.

Definition ex_words : list word :=
  [WithFile [FlagJ] OptO false (str "x"); Operand (str "y"); WithFile [] OptI true (str "in"); Flags [FlagF; FlagJ]; WithFile [] OptO true (str "out")].
Example C70_arguments_example :
  Forall proper_word ex_words /\
  flat_map typed ex_words = [str "-jo"; str "x"; str "y"; str "-iin"; str "-fj"; str "-oout"] /\
  parse_arguments (flat_map typed ex_words ++ [str "--"; str "-z"]) =
    Some {| a_input := str "in"; a_output := str "out"; a_overwrite := true; a_jit := true |} /\
  parse_arguments [str "-i"; str "in"; str "-o"] = None /\ parse_arguments [str "-i"; str "in"; str "-o"; str "out"; str "-z"] = None.
Proof.
  split; [|repeat split; vm_compute; reflexivity]. unfold ex_words.
  do 5 (apply Forall_cons; [cbn [proper_word]; try discriminate; try (right; intros r E; vm_compute in E; discriminate E)|]). constructor.
Qed.

(** ** What the input is taken for *)

(** C70. A perf.data file of this byte order is never taken for a proto. *)
Theorem C70_perf_data (decode : list N -> option perf_proto) (md5 base : list N -> N) (order bytes : list N) (labels options : N)
    (st : FileModel.fstate) :
  protobuf decode -> bytes_ok bytes = true -> len bytes < two63 ->
  FileModel.read_perf_data (new_reader (swapped bytes)) bytes = Ok st -> swapped bytes = false ->
  string_to_profiles decode md5 base order bytes labels options = raw_to_profiles md5 base order bytes [] labels options [].
Proof.
  intros (D & _) B L R S. unfold string_to_profiles. destruct (decode bytes) as [p|] eqn:E; [exfalso|reflexivity].
  apply D in E. revert E.
  assert (H : exists n, n < 2 ^ 40 /\ 16 <= len bytes /\ slice bytes 0 8 = FileSpec.magic_bytes false /\ FileSpec.int_at false bytes 8 8 = n).
  { destruct (FileProps.C39_read _ _ _ B L R) as (sw & X).
    assert (M : slice bytes 0 8 = FileSpec.magic_bytes sw) by (destruct X as [((_ & M & _) & _)|((_ & M & _) & _)]; exact M).
    assert (sw = false).
    { destruct sw; [|reflexivity]. unfold swapped in S. rewrite M in S. vm_compute in S. discriminate. }
    subst sw. destruct X as [((L16 & _ & I & _) & _)|((L16 & _ & I) & _)]; [exists 104|exists 16]; repeat split; auto; lia. }
  destruct H as (n & Hn & L16 & M & I). apply not_proto; auto. now rewrite I.
Qed.
Print Assumptions C70_perf_data.

(** The protobuf library can be like that. *)
Definition ex_decode (l : list N) : option perf_proto :=
  match message_fields l with
  | Some fs => if forallb (fun f => negb (known_field (wf_number f))) fs then Some empty_proto else None
  | None => None
  end.
Lemma ex_decode_ok : protobuf ex_decode.
Proof.
  unfold ex_decode. split.
  - intros l p H. destruct (message_fields l) as [fs|] eqn:E; [|discriminate]. exists fs. split; [exact E|].
    destruct (forallb _ fs) eqn:A; [|discriminate]. rewrite forallb_forall in A. intros f I F. specialize (A f I). now rewrite F in A.
  - intros l fs _ -> A. assert (F : forallb (fun f => negb (known_field (wf_number f))) fs = true).
    { apply forallb_forall. intros f I. destruct (A f I) as (-> & _). reflexivity. }
    now rewrite F.
Qed.
Example C70_perf_data_example :
  exists st ps, FileModel.read_perf_data (new_reader (swapped (ex_bytes ex_records))) (ex_bytes ex_records) = Ok st /\
    swapped (ex_bytes ex_records) = false /\ bytes_ok (ex_bytes ex_records) = true /\ len (ex_bytes ex_records) < two63 /\
    string_to_profiles ex_decode (fun _ => 0) (fun _ => 0) ex_order (ex_bytes ex_records) 0 0 = Ok ps /\ List.length ps = 1%nat.
Proof. eexists _, _. repeat (split; [vm_compute; reflexivity|]). vm_compute; reflexivity. Qed.

(** Finding: a perf.data file of the other byte order can be taken for a proto: with a
    few odd values in its attribute, all of it is unknown fields of one. It has a
    profile, but none is made. *)
Definition ex_attr_odd (n : N) : list N :=
  FileExamples.num true 4 1 ++ FileExamples.num true 4 96 ++ FileExamples.num true 8 0 ++ FileExamples.num true 8 1000 ++
  FileExamples.num true 8 3 ++ repeat 0 15 ++ [50; 128 + n mod 128; n / 128] ++ repeat 0 46.
Definition ex_odd : list N :=
  FileSpec.magic_bytes true ++ FileExamples.num true 8 16 ++ FileExamples.ex_record true 64 0 (ex_attr_odd 78 ++ FileExamples.num true 8 1) ++
  FileExamples.ex_record true 9 2 (FileExamples.num true 8 4096 ++ FileExamples.num true 4 7 ++ FileExamples.num true 4 7).
Theorem C70_other_byte_order_refuted :
  exists bytes st p, FileModel.read_perf_data (new_reader (swapped bytes)) bytes = Ok st /\
    raw_to_profiles (fun _ => 0) (fun _ => 0) ex_order bytes [] 0 0 [] = Ok [p] /\
    forall decode, protobuf decode -> string_to_profiles decode (fun _ => 0) (fun _ => 0) ex_order bytes 0 0 = Ok [].
Proof.
  exists ex_odd. eexists _, _. split; [vm_compute; reflexivity|]. split; [vm_compute; reflexivity|].
  intros decode (_ & D). unfold string_to_profiles.
  assert (F : exists fs, message_fields ex_odd = Some fs /\ forall f, In f fs -> known_field (wf_number f) = false /\ wf_kind f <> 3).
  { eexists. split; [vm_compute; reflexivity|]. intros f I. repeat (destruct I as [<-|I]; [split; [reflexivity|discriminate]|]). destruct I. }
  destruct F as (fs & F1 & F2). rewrite (D ex_odd fs); [vm_compute; reflexivity|vm_compute; reflexivity|exact F1|exact F2].
Qed.
Print Assumptions C70_other_byte_order_refuted.

(** ** What is written *)
Section Written.
Variables (decode : list N -> option perf_proto) (encode : ProfileModel.profile -> list N).
Variables (md5 base : list N -> N) (order : list N).
(** No other process interferes. *)
Notation run := (perf_to_profile decode encode md5 base order (fun f => f)).

(** C70. If it succeeds, the input had exactly one profile, the output file is it (as far
    as there was room), and all other files are as before; a file that existed was
    overwritten only if that was allowed. *)
Theorem C70_success (args : list (list N)) (f f' : files) :
  run args f = (Ok true, f') ->
  exists a data p, parse_arguments args = Some a /\ fl_data f (a_input a) = Some data /\
    string_to_profiles decode md5 base order data 0 (if a_jit a then 4 else 0) = Ok [p] /\
    (fl_data f (a_output a) <> None -> a_overwrite a = true) /\
    fl_data f' (a_output a) = Some (firstn (fl_room f) (encode (ConverterModel.pr_data p))) /\
    forall path, path <> a_output a -> fl_data f' path = fl_data f path.
Proof.
  unfold perf_to_profile. destruct (parse_arguments args) as [a|]; [|discriminate]. unfold read_file.
  destruct (fl_data f (a_input a)) as [data|] eqn:D; [|discriminate]. destruct (fl_readable f (a_input a)); [|discriminate].
  cbn [obind]. destruct (string_to_profiles _ _ _ _ _ _ _) as [ps| | | |] eqn:S; cbn [obind]; try discriminate.
  destruct ps as [|p [|q ps]]; try discriminate. unfold create_file, file_exists.
  destruct (negb (a_overwrite a) && match fl_data f (a_output a) with Some _ => true | None => false end) eqn:Ov; [discriminate|].
  destruct (fl_writable f (a_output a)); [|discriminate]. intros [= <-].
  exists a, data, p. split; [reflexivity|]. split; [exact D|]. split; [exact S|]. split.
  { intros Ne. destruct (a_overwrite a); [reflexivity|]. destruct (fl_data f (a_output a)); [discriminate|contradiction]. }
  assert (Same : list_eqb (a_output a) (a_output a) = true) by now apply HugePageProofs.leqb_eq.
  unfold write_file, put. cbn [fl_data fl_room]. rewrite Same. split; [reflexivity|].
  intros path Np. destruct (list_eqb path (a_output a)) eqn:E; [apply HugePageProofs.leqb_eq in E; contradiction|reflexivity].
Qed.

(** C70. If it does not succeed, no file is changed. *)
Theorem C70_no_change (args : list (list N)) (f f' : files) (r : outcome bool) :
  run args f = (r, f') -> r <> Ok true -> f' = f.
Proof.
  unfold perf_to_profile. destruct (parse_arguments args) as [a|]; [|intros [= <- <-]; reflexivity].
  destruct (obind _ _) as [p| | | |]; try (intros [= <- <-]; reflexivity).
  destruct (create_file _ _ _ _) as [g| | | |]; intros [= <- <-] N0; congruence.
Qed.

(** C70. It does succeed, if the input has one profile and the output can be written. *)
Theorem C70_succeeds (args : list (list N)) (f : files) (a : arguments) (data : list N) (p : ConverterModel.process_profile) :
  parse_arguments args = Some a -> fl_data f (a_input a) = Some data -> fl_readable f (a_input a) = true ->
  string_to_profiles decode md5 base order data 0 (if a_jit a then 4 else 0) = Ok [p] ->
  a_overwrite a = true \/ fl_data f (a_output a) = None -> fl_writable f (a_output a) = true ->
  (List.length (encode (ConverterModel.pr_data p)) <= fl_room f)%nat ->
  exists f', run args f = (Ok true, f') /\ fl_data f' (a_output a) = Some (encode (ConverterModel.pr_data p)).
Proof.
  intros A D R S O W Rm. unfold perf_to_profile. rewrite A. unfold read_file. rewrite D, R. cbn [obind]. rewrite S. cbn [obind].
  unfold create_file, file_exists.
  assert (Ov : negb (a_overwrite a) && match fl_data f (a_output a) with Some _ => true | None => false end = false).
  { destruct O as [->| ->]; [reflexivity|apply andb_false_r]. }
  rewrite Ov, W. eexists. split; [reflexivity|]. unfold write_file, put. cbn [fl_data fl_room].
  assert (Same : list_eqb (a_output a) (a_output a) = true) by now apply HugePageProofs.leqb_eq.
  rewrite Same. now rewrite firstn_all2.
Qed.
(** C70. A stored proto gives the profile that the converter makes of it without labels;
    code compiled at run time may be unaligned if and only if -j is given (option 4). *)
Theorem C70_stored (args : list (list N)) (f : files) (a : arguments) (data : list N) (stored : perf_proto) :
  parse_arguments args = Some a -> fl_data f (a_input a) = Some data -> fl_readable f (a_input a) = true ->
  decode data = Some stored ->
  a_overwrite a = true \/ fl_data f (a_output a) = None -> fl_writable f (a_output a) = true ->
  let made := ConverterModel.convert {| ConverterModel.cf_data := stored; ConverterModel.cf_labels := 0;
                ConverterModel.cf_options := if a_jit a then 4 else 0; ConverterModel.cf_types := [] |} in
  (forall p, made = Ok [p] -> exists f', run args f = (Ok true, f') /\
     fl_data f' (a_output a) = Some (firstn (fl_room f) (encode (ConverterModel.pr_data p)))) /\
  ((forall p, made <> Ok [p]) -> fst (run args f) <> Ok true).
Proof.
  intros A D R Dc O W. cbv zeta. unfold perf_to_profile. rewrite A. unfold read_file. rewrite D, R. cbn [obind].
  unfold string_to_profiles. rewrite Dc.
  assert (Ov : negb (a_overwrite a) && match fl_data f (a_output a) with Some _ => true | None => false end = false).
  { destruct O as [->| ->]; [reflexivity|apply andb_false_r]. }
  assert (Same : list_eqb (a_output a) (a_output a) = true) by now apply HugePageProofs.leqb_eq.
  split.
  - intros p ->. cbn [obind]. unfold create_file, file_exists. rewrite Ov, W. eexists. split; [reflexivity|].
    unfold write_file, put. cbn [fl_data fl_room]. now rewrite Same.
  - intros No. destruct (ConverterModel.convert _) as [[|p [|q l]]| | | |]; cbn [obind fst]; try discriminate.
    now destruct (No p).
Qed.
End Written.
Print Assumptions C70_success.
Print Assumptions C70_stored.
Print Assumptions C70_no_change.
Print Assumptions C70_succeeds.

(** ** Of sound recordings *)

Lemma file_one md5 base order bytes build_ids labels options types ps st xs :
  raw_to_profiles md5 base order bytes build_ids labels options types = Ok ps ->
  FileModel.read_perf_data (new_reader (swapped bytes)) bytes = Ok st ->
  PipelineModel.each (message (serializer (swapped bytes) st)) (FileModel.fs_events st) = Ok xs ->
  N.land options 1 = 0 -> no_reset options xs -> (List.length ps <= 1)%nat.
Proof.
  intros H R M O [NR|NR]; [congruence|]. unfold raw_to_profiles in H. rewrite R in H. ok_inv H. rename a into p0.
  destruct (ShownProofs.to_proto_all _ _ _ _ _ _ _ _ E) as (xs' & ys & bs & evs & M' & Ar & Hg & P1 & P2 & _).
  rewrite M in M'. injection M' as <-.
  pose proof (arrange_ok _ _ _ _ _ Ar) as AO. destruct (huge_pages_ok _ _ _ _ Hg) as (Pl & Im).
  assert (Pm : Permutation xs ys) by (exact (arranged_perm _ _ _ AO)).
  assert (Ix : forall x m, In (x, m) evs -> In x xs).
  { intros x m I. destruct (Im x m I) as (Iy & _). apply (Permutation_in _ (Permutation_sym Pm)), Iy. }
  assert (Ph : exists hs, process p0 = Ok hs) by (unfold ConverterModel.convert in H0; ok_inv H0; eauto).
  destruct Ph as (hs & Ph). set (c := ConverterModel.Build_cfg p0 labels options types) in *.
  assert (G : ConverterSpec.grouped c = false).
  { unfold ConverterSpec.grouped, ConverterSpec.option_on. change (ConverterModel.cf_options c) with options. now rewrite O. }
  apply (one_profile c hs ps); auto. right.
  rewrite Forall_forall. intros k Ik. destruct k as [cx|cm ex|pid' m]; cbn [ConverterSpec.execs]; auto.
  destruct ex; auto. destruct (OriginProofs.process_any_comm p0 hs cm true Ph Ik) as (pe & Ip & Wh).
  rewrite P2 in Ip. apply in_map_iff in Ip as ((y, m) & <- & Iy). unfold proto_event in Wh. cbn [fst snd ev_what] in Wh.
  destruct m; [discriminate|]. destruct (xe_body y) as [|?|?|k|?|?|?|?|?|?|?|?|?|?|?|?|?|?|?|?|?|?|?|? ?|?] eqn:Bd; try discriminate Wh.
  injection Wh as <-. cbn [cm_pid]. exact (NR y k (Ix _ _ Iy) Bd).
Qed.

(** C70. perf_to_profile writes the profile of every sound recording (see C63) that has a
    sample of one of its events. *)
Theorem C70_sound_recording (decode : list N -> option perf_proto) (encode : ProfileModel.profile -> list N)
    (md5 base : list N -> N) (order : list N) (args : list (list N)) (f : files) (a : arguments) (bytes : list N)
    (st : FileModel.fstate) (new : bool) (xs : list x_event) :
  protobuf decode ->
  parse_arguments args = Some a -> fl_data f (a_input a) = Some bytes -> fl_readable f (a_input a) = true ->
  a_overwrite a = true \/ fl_data f (a_output a) = None -> fl_writable f (a_output a) = true ->
  bytes_ok bytes = true -> len bytes < two63 -> swapped bytes = false ->
  FileModel.read_perf_data (new_reader (swapped bytes)) bytes = Ok st ->
  PipelineModel.each (message (serializer (swapped bytes) st)) (FileModel.fs_events st) = Ok xs ->
  perf_version_61 (match aget N.eqb 5 (FileModel.fm_strings (FileModel.fs_meta st)) with Some v => v | None => [] end) = Ok new ->
  NoDup order ->
  (forall m, In m (mappings xs) -> sound_map m) -> roomy_maps xs -> sound_symbols xs ->
  no_spe xs -> none_named_lost xs -> no_reset 0 xs ->
  (total_load (map FileModel.fa_ids (FileModel.fs_attrs st))
     (map (fun a => AttrModel.ea_sample_period (AttrModel.ser_attr (FileModel.fa_attr a))) (FileModel.fs_attrs st))
     new false xs < 2 ^ 63)%Z ->
  (exists x s i, In x xs /\ xe_body x = XBSample s /\ event_of (map FileModel.fa_ids (FileModel.fs_attrs st)) (xsa_id s) = Some i) ->
  exists p, raw_to_profiles md5 base order bytes [] 0 (if a_jit a then 4 else 0) [] = Ok [p] /\
    ((List.length (encode (ConverterModel.pr_data p)) <= fl_room f)%nat ->
     exists f', perf_to_profile decode encode md5 base order (fun f => f) args f = (Ok true, f') /\
       fl_data f' (a_output a) = Some (encode (ConverterModel.pr_data p))).
Proof.
  intros Pb A D Rd Ov W B L S R M V ND Sm Rm Sy NS NL NR Fit (x & s & i & Ix & Bx & Ei).
  set (options := if a_jit a then 4 else 0).
  assert (O1 : N.land options 1 = 0 /\ N.land options 2 = 0 /\ N.land options 16 = 0) by (unfold options; destruct (a_jit a); repeat split).
  destruct O1 as (O1 & O2 & O16).
  assert (NR' : no_reset options xs) by (destruct NR as [NR|NR]; [now destruct NR|now right]).
  destruct (C63_profiles md5 base order bytes [] 0 options [] st new xs R M V ND Sm Rm Sy NS NL NR' O2) as (ps & Hp).
  { rewrite O16. exact Fit. }
  pose proof (file_one _ _ _ _ _ _ _ _ _ _ _ Hp R M O1 NR') as Le.
  assert (Ne : ps <> []).
  { destruct (C65_every_record _ _ _ _ _ _ _ _ _ _ Hp R) as (xs' & ys & evs & M' & _ & _ & C). rewrite M in M'. injection M' as <-.
    destruct (C NR' x s i Ix Bx Ei) as (h & t & maps & p & sm & _ & _ & Ip & _). intros ->. destruct Ip. }
  destruct ps as [|p [|q ps]]; [congruence| |cbn [List.length] in Le; lia]. exists p. split; [exact Hp|]. intros Room.
  apply (C70_succeeds decode encode md5 base order args f a bytes p); auto.
  rewrite (C70_perf_data decode md5 base order bytes 0 _ st Pb B L R S). exact Hp.
Qed.
Print Assumptions C70_sound_recording.

(** ** Examples and what does not hold *)
Definition ex_files (input : list N) (output : option (list N)) (room : nat) : files :=
  {| fl_data := fun p => if list_eqb p (str "in") then Some input else if list_eqb p (str "out") then output else None;
     fl_readable := fun _ => true; fl_writable := fun _ => true; fl_room := room |}.
Definition ex_args : list (list N) := [str "-i"; str "in"; str "-o"; str "out"].
(** Some way to write a profile: the addresses. *)
Definition ex_encode (p : ProfileModel.profile) : list N := map ProfileModel.lc_addr (ProfileModel.pf_location p).
Notation ex_run := (perf_to_profile ex_decode ex_encode (fun _ => 0) (fun _ => 0) ex_order).

Example C70_example :
  exists f', ex_run (fun f => f) ex_args (ex_files (ex_bytes ex_records) None 100) = (Ok true, f') /\
    fl_data f' (str "out") = Some [4194305; 4198400; 10376293541461622784; 4194304] /\ fl_data f' (str "in") = Some (ex_bytes ex_records).
Proof. eexists. split; [vm_compute; reflexivity|]. split; vm_compute; reflexivity. Qed.

(** Finding: a recording without samples ends the program. *)
Theorem C70_no_samples_refuted :
  exists bytes st f', FileModel.read_perf_data (new_reader (swapped bytes)) bytes = Ok st /\
    ex_run (fun f => f) ex_args (ex_files bytes None 100) = (Abort, f').
Proof. exists (ex_bytes (ex_mmap 10 4194304 4096 0)). eexists _, _. split; [vm_compute; reflexivity|]. cbv [perf_to_profile]. vm_compute. reflexivity. Qed.
Print Assumptions C70_no_samples_refuted.

(** Finding: if the device is full the output is cut off, and the program succeeds all
    the same. *)
Theorem C70_full_device_refuted :
  exists f', ex_run (fun f => f) ex_args (ex_files (ex_bytes ex_records) None 2) = (Ok true, f') /\
    fl_data f' (str "out") = Some [4194305; 4198400].
Proof. eexists. split; vm_compute; reflexivity. Qed.
Print Assumptions C70_full_device_refuted.

(** Finding: a file that another process makes between the check and the opening is
    overwritten although that was not allowed. *)
Theorem C70_race_refuted :
  exists f', ex_run (put (str "out") [1; 2; 3]) ex_args (ex_files (ex_bytes ex_records) None 100) = (Ok true, f') /\
    parse_arguments ex_args = Some {| a_input := str "in"; a_output := str "out"; a_overwrite := false; a_jit := false |} /\
    fl_data f' (str "out") = Some [4194305; 4198400; 10376293541461622784; 4194304].
Proof. eexists. split; [vm_compute; reflexivity|]. split; vm_compute; reflexivity. Qed.
Print Assumptions C70_race_refuted.
