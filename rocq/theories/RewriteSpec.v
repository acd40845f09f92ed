(** When a file that was read is the same recording after it was written again. *)
From Verif Require Import Base BytesModel EventSizeModel Assoc SampleModel ReaderOpsModel FileModel SerializerModel SerializerSpec
  AttrModel AttrSpec WriteSpec.
Local Open Scope N_scope.

(** An event that has nothing but what a message has: the reserved half of the CPU
    word is zero, so is everything between the fields, BPF metadata is in the order in
    which a map gives it. *)
Definition plain_event ord (s : sstate) (e : list N) : Prop :=
  exists off, event_data_size e = Ok off /\ cpu_clear s e off /\ bpf_plain ord e /\ fully_represented s e off.

(** No attribute asks for both kinds of ids. *)
Definition one_id_each (st : fstate) : Prop := Forall (fun a => one_id (raw_attr (fa_attr a))) (fs_attrs st).

(** The same build id. *)
Definition equal_build (x y : rbuild) : Prop :=
  rb_misc y = rb_misc x /\ rb_pid y = rb_pid x /\ rb_file y = rb_file x /\ rb_hash y = rb_hash x /\ rb_size y = rb_size x.

(** The metadata of two readers. *)
Record equal_metadata (m m' : fmeta) : Prop := mkEqualMetadata {
  em_strings : forall ty, aget N.eqb ty (fm_strings m') = aget N.eqb ty (fm_strings m);
  em_cmdline : fm_cmdline m' = fm_cmdline m;
  em_u32 : fm_u32 m' = fm_u32 m;
  em_u64 : fm_u64 m' = fm_u64 m;
  em_cores : fm_cores m' = fm_cores m;
  em_threads : fm_threads m' = fm_threads m;
  em_cpus : fm_cpus m' = fm_cpus m;
  em_numa : fm_numa m' = fm_numa m;
  em_pmu : fm_pmu m' = fm_pmu m;
  em_group : fm_group m' = fm_group m;
  em_hybrid : fm_hybrid m' = fm_hybrid m;
  em_tracing : fm_tracing m' = fm_tracing m }.

(** Two readers hold the same recording: the same events with their traces, the same
    ids, attributes that differ only in bits and padding a message does not have
    ([kept_attr]), the same names, features and metadata. The build ids are the same
    if the file has a table of them; [extra] are those out of mappings. *)
Record same_recording (st st' : fstate) : Prop := mkSameRecording {
  sr_events : fs_events st' = fs_events st;
  sr_attrs : Forall2 (fun a a' => fa_ids a' = fa_ids a /\ is_attr (fa_attr a) /\ is_attr (fa_attr a') /\
                               kept_attr (fa_attr a) (fa_attr a')) (fs_attrs st) (fs_attrs st');
  sr_types : fs_types st' = fs_types st;
  sr_features : forall ty, In ty known_features -> N.testbit (fs_mask st') ty = N.testbit (fs_mask st) ty;
  sr_meta : equal_metadata (fs_meta st) (fs_meta st');
  sr_builds : exists builds extra, fs_builds st' = builds ++ extra /\
    (N.testbit (fs_mask st) 2 = true -> Forall2 equal_build (fs_builds st) builds) /\
    (N.testbit (fs_mask st) 2 = false -> builds = []) /\
    (forall x, In x extra -> exists e, In e (fs_events st) /\ ev_type (fe_raw e) = R_MMAP2 /\
       N.testbit (ev_misc (fe_raw e)) 14 = true /\ rb_file x = text_of (fe_raw e) 72) }.
