(** C53: what the header and the mapping table of a profile say. *)
From Coq Require Import String.
From Verif Require Import Base BytesModel TextModel ProfileModel PerfProto NormalizerModel NormalizerSpec NormalizerProps
  ConverterModel ConverterSpec ConverterHeadSpec ConverterHeadProofs ConverterProps.
Local Open Scope N_scope.
Local Open Scope list_scope.

(** Sample types, default type and comments are those of the recording; the first
    mapping is the main mapping of the first sample filed into the profile, every
    other one shows range, file offset, file and build id of a mapping that some
    frame of its samples lies in. *)
Theorem C53_header_and_mappings : forall c hs ps k p,
  process (cf_data c) = Ok hs -> never_reset c hs -> convert c = Ok ps -> nth_error ps k = Some p ->
  headed c (pr_data p) (filed k hs (assigned c hs)).
Proof. exact convert_headed. Qed.
Print Assumptions C53_header_and_mappings.

(** Two events, one named; a library mapped at an offset. *)
Definition named (types : list (option (list N))) (evs : list perf_event) : cfg :=
  {| cf_data := {| pp_attrs := attr2; pp_events := evs; pp_types := types; pp_build_ids := [];
                   pp_version := Some (str "5.4"); pp_command := Some (str "perf record") |};
     cf_labels := 0; cf_options := 1; cf_types := [] |}.
Definition strings (p : profile) (l : list Z) : list (option (list N)) := map (string_of p) l.

Example C53_example :
  exists hs ps p, process (cf_data (named [Some (str "cycles"); None] history)) = Ok hs /\
    convert (named [Some (str "cycles"); None] history) = Ok ps /\ nth_error ps 0 = Some p /\
    never_reset (named [Some (str "cycles"); None] history) hs /\
    strings (pr_data p) (map vt_type (pf_sample_type (pr_data p))) =
      map Some [str "cycles_sample"; str "cycles_event"; str "event_0_sample"; str "event_0_event"] /\
    strings (pr_data p) [pf_default_type (pr_data p)] = [Some (str "event_0_event")] /\
    strings (pr_data p) (pf_comment (pr_data p)) = map Some [str "perf-version:5.4"; str "perf-command:perf record"] /\
    strings (pr_data p) (map mp_file (pf_mapping (pr_data p))) = [Some (str "/bin/a")] /\
    map mp_start (pf_mapping (pr_data p)) = [0x1000].
Proof.
  eexists _, _, _. split; [vm_compute; reflexivity|]. split; [vm_compute; reflexivity|]. split; [reflexivity|].
  split; [left; reflexivity|]. do 4 (split; [vm_compute; reflexivity|]). vm_compute; reflexivity.
Qed.

(** Finding: a NUL in an event name cuts off the suffix that tells the two sample
    types of the event apart. *)
Theorem C53_nul_in_event_name_refuted :
  exists ps p, convert (named [Some (str "a" ++ [0]); None] history) = Ok ps /\ nth_error ps 0 = Some p /\
    strings (pr_data p) (firstn 2 (map vt_type (pf_sample_type (pr_data p)))) = [Some (str "a"); Some (str "a")].
Proof. eexists _, _. split; [vm_compute; reflexivity|]. split; [reflexivity|]. vm_compute. reflexivity. Qed.
