(** When a file that was written can be read, and what is then read. *)
From Verif Require Import Base BytesModel BufferModel EventSizeModel EventSizeSpec Assoc TextModel ReaderOpsModel SampleModel
  FileModel SerializerModel SerializerSpec AttrModel WriteModel WriteSpec.
Local Open Scope N_scope.

Definition asked (p : wdata) (ty : N) : bool := N.testbit (wd_mask p) ty.

(** A text that ends where its NUL is. *)
Definition text_ok (t : list N) : Prop := ~ In 0 t /\ short_text t.

(** The CPUs of a hybrid PMU as text. *)
Definition hybrid_cpus (h : x_hybrid) : list N :=
  match text_or_empty (xh_cpus h) with [] => format_cpu_numbers (xh_list h) | t => t end.

(** A build id: numbers in range, a name of less than PATH_MAX bytes, and an id of
    up to five groups of four bytes, of which the last is not zero. *)
Record build_ok (b : rbuild) : Prop := mkBuildOk {
  bo_misc : rb_misc b < two16;
  bo_pid : rb_pid b < two32;
  bo_file : ~ In 0 (rb_file b) /\ len (rb_file b) < 4096;
  bo_hash : bytes_ok (rb_hash b) = true /\ len (rb_hash b) <= 20 /\ len (rb_hash b) mod 4 = 0 /\
            forall t, rb_hash b <> t ++ [0; 0; 0; 0] }.

(** Numbers that fit their fields, texts without NUL, not more items than can be
    counted. Lists of numbers that are asked for are there and not empty, so are PMU
    mappings, and CPUs with their cores are as many as there are CPUs. *)
Record metadata_ok (p : wdata) : Prop := mkMetadataOk {
  mk_strings : Forall (fun x => text_ok (snd x)) (fm_strings (wd_meta p));
  mk_cmdline : Forall text_ok (fm_cmdline (wd_meta p)) /\ len (fm_cmdline (wd_meta p)) < two32;
  mk_cpus : asked p 7 = true -> exists d, fm_u32 (wd_meta p) = [(7, d)] /\ d <> [] /\ Forall (fun v => v < two32) d;
  mk_memory : asked p 10 = true -> exists d, fm_u64 (wd_meta p) = [(10, d)] /\ d <> [] /\ Forall (fun v => v < two64) d;
  mk_cores : Forall text_ok (fm_cores (wd_meta p)) /\ len (fm_cores (wd_meta p)) < two32;
  mk_threads : Forall text_ok (fm_threads (wd_meta p)) /\ len (fm_threads (wd_meta p)) < two32;
  mk_places : Forall (fun c => fst c < two32 /\ snd c < two32) (fm_cpus (wd_meta p));
  mk_topology : asked p 13 = true -> fm_cpus (wd_meta p) = [] \/
    (asked p 7 = true /\ exists r, fm_u32 (wd_meta p) = [(7, len (fm_cpus (wd_meta p)) :: r)]);
  mk_numa : Forall (fun x => let '(id, size, free, cpus) := x in
                             id < two32 /\ size < two64 /\ free < two64 /\ text_ok cpus) (fm_numa (wd_meta p)) /\
            len (fm_numa (wd_meta p)) < two32;
  mk_pmu : Forall (fun x => fst x < two32 /\ text_ok (snd x)) (fm_pmu (wd_meta p)) /\
           len (fm_pmu (wd_meta p)) < two32 /\ (asked p 16 = true -> fm_pmu (wd_meta p) <> []);
  mk_group : Forall (fun x => let '(name, leader, members) := x in
                              text_ok name /\ leader < two32 /\ members < two32) (fm_group (wd_meta p)) /\
             len (fm_group (wd_meta p)) < two32;
  mk_hybrid : Forall (fun h => text_ok (xh_name h) /\ text_ok (hybrid_cpus h)) (wd_hybrid p) /\
              len (wd_hybrid p) < two32;
  mk_builds : asked p 2 = true -> Forall build_ok (wd_builds p) }.

(** Attributes of the size of the struct, with ids of 64 bits, and, if they are
    described, a name and the same number for each. *)
Record attrs_ok (p : wdata) : Prop := mkAttrsOk {
  ak_size : Forall (fun a => ea_size (fx_attr a) = 96 /\ len (fx_ids a) < two32 /\
                             Forall (fun id => id < two64) (fx_ids a)) (wd_attrs p);
  ak_count : len (wd_attrs p) < 2 ^ 31;
  ak_types : asked p 12 = true -> length (wd_attrs p) = length (wd_types p) /\
    Forall (fun t => text_ok (snd t)) (wd_types p) /\
    Forall (fun x => w64 (ea_config (fx_attr (fst x))) = fst (snd x)) (combine (wd_attrs p) (wd_types p)) }.

(** An event the reader takes: one that has a size and, if it carries no sample
    fields, nothing but that; no mapping that was cut short (misc bit 12), no empty
    mapping of the kernel (misc bit 0) if the first attribute excludes it, no build
    id of more than 20 bytes; one that a message can be made of. *)
Record event_ok (s : sstate) (no_kernel : bool) (e : list N) : Prop := mkEventOk {
  eo_readable : exists off, readable_event s e off;
  eo_complete : ev_type e = R_MMAP \/ ev_type e = R_MMAP2 -> N.testbit (ev_misc e) 12 = false;
  eo_kernel : ev_type e = R_MMAP \/ ev_type e = R_MMAP2 -> no_kernel = true -> N.testbit (ev_misc e) 0 = true ->
    number_at e 24 <> 0;
  eo_build : ev_type e = R_MMAP2 -> N.testbit (ev_misc e) 14 = true -> byte e 40 <= 20;
  eo_message : exists x, serialize s e = Ok x }.

(** The reader takes every type of event and makes a message of each with the
    attributes it has read ([C44]). *)
Definition takes_all (cf : fconfig) : Prop :=
  (forall ty, cf_skip cf ty = false) /\
  forall st s e x, map (fun r => (fst r, raw_attr (snd r))) (fs_readers st) = ss_readers s ->
    fs_sample_pos st = ss_sample_pos s -> fs_other_pos st = ss_other_pos s -> ss_swap s = false ->
    serialize s e = Ok x -> cf_accept cf st e = true.
Definition no_kernel (p : wdata) : bool :=
  match wd_attrs p with a :: _ => N.testbit (ea_flags (fx_attr a)) 5 | [] => false end.
Definition events_ok ord (s : sstate) (p : wdata) : Prop :=
  Forall (fun x => exists e, deserialize ord s x = Ok e /\ event_ok s (no_kernel p) e) (wd_events p).
(** The size of a trace is right. *)
Definition traces_ok (p : wdata) : Prop :=
  Forall (fun x => xe_type x = R_AUXTRACE ->
            xat_size (get_auxtrace (xe_body x)) = len (xat_trace (get_auxtrace (xe_body x)))) (wd_events p).
Definition trace_of (x : x_event) : list N :=
  if xe_type x =? R_AUXTRACE then xat_trace (get_auxtrace (xe_body x)) else [].

(** The metadata that was asked for, and no other. *)
Definition if_asked {A} (p : wdata) (ty : N) (l : list A) : list A := if asked p ty then l else [].
Record same_metadata (p : wdata) (m : fmeta) : Prop := mkSameMetadata {
  sm_strings : forall ty, aget N.eqb ty (fm_strings m) =
    if existsb (N.eqb ty) [3; 4; 5; 6; 8; 9] && asked p ty
    then Some (text_or_empty (aget N.eqb ty (fm_strings (wd_meta p)))) else None;
  sm_cmdline : fm_cmdline m = if_asked p 11 (fm_cmdline (wd_meta p));
  sm_u32 : fm_u32 m = if_asked p 7 (fm_u32 (wd_meta p));
  sm_u64 : fm_u64 m = if_asked p 10 (fm_u64 (wd_meta p));
  sm_cores : fm_cores m = if_asked p 13 (fm_cores (wd_meta p));
  sm_threads : fm_threads m = if_asked p 13 (fm_threads (wd_meta p));
  sm_cpus : fm_cpus m = if_asked p 13 (fm_cpus (wd_meta p));
  sm_numa : fm_numa m = if_asked p 14 (fm_numa (wd_meta p));
  sm_pmu : fm_pmu m = if_asked p 16 (fm_pmu (wd_meta p));
  sm_group : fm_group m = if_asked p 17 (fm_group (wd_meta p));
  sm_hybrid : fm_hybrid m = if_asked p 30 (map (fun h => (xh_name h, hybrid_cpus h)) (wd_hybrid p));
  sm_tracing : fm_tracing m = if_asked p 1 (fm_tracing (wd_meta p)) }.

(** A build id as it is read: its own size only if misc bit 15 says so. *)
Definition same_build (b b' : rbuild) : Prop :=
  rb_misc b' = rb_misc b /\ rb_pid b' = rb_pid b /\ rb_file b' = rb_file b /\ rb_hash b' = rb_hash b /\
  rb_size b' = if N.testbit (rb_misc b) 15 then Some (value_or 0 (rb_size b) mod 256) else None.

(** What is read. [extra] are build ids out of mappings. *)
Record reread ord (s : sstate) (p : wdata) (st : fstate) : Prop := mkReread {
  rr_mask : forall ty, In ty known_features -> N.testbit (fs_mask st) ty = asked p ty;
  rr_attrs : fs_attrs st = map (fun a => mkFAttr (des_attr (fx_attr a)) (fx_ids a)) (wd_attrs p);
  rr_types : fs_types st = if_asked p 12 (wd_types p);
  rr_events : Forall2 (fun x e => deserialize ord s x = Ok (fe_raw e) /\ fe_trace e = trace_of x)
                (wd_events p) (fs_events st);
  rr_meta : same_metadata p (fs_meta st);
  rr_builds : exists builds extra, fs_builds st = builds ++ extra /\
    Forall2 same_build (if_asked p 2 (wd_builds p)) builds /\
    (forall b, In b extra -> exists e, In e (fs_events st) /\ ev_type (fe_raw e) = R_MMAP2 /\
       N.testbit (ev_misc (fe_raw e)) 14 = true /\ rb_file b = text_of (fe_raw e) 72) }.
