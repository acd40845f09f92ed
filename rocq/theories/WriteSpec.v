(** The perf data file that holds given data: its parts one behind the other, each
    with the offset that the parts in front of it give. *)
From Verif Require Import Base BytesModel BufferModel EventSizeModel Assoc TextModel ReaderOpsModel SampleModel
  FileModel SerializerModel AttrModel WriteModel.
Local Open Scope N_scope.

(** A text with its length in front: at least one NUL behind it, up to a multiple
    of eight bytes. *)
Definition room_of (t : list N) : N := 8 * (len t / 8 + 1).
Definition padded_text (t : list N) : list N := t ++ repeat 0 (N.to_nat (room_of t - len t)).
Definition counted_text (t : list N) : list N := le_bytes 4 (room_of t) ++ padded_text t.
Definition counted_texts (l : list (list N)) : list N := le_bytes 4 (len l) ++ concat (map counted_text l).

(** Offset and size. *)
Definition place (off size : N) : list N := le_bytes 8 off ++ le_bytes 8 size.

(** Parts one behind the other from [off] on: where each is. *)
Fixpoint places (off : N) (parts : list (list N)) : list (list N) :=
  match parts with
  | [] => []
  | d :: r => place off (len d) :: places (off + len d) r
  end.

(** A build id: type 67, misc, size, pid, the id in 20 bytes, its size if misc says
    so (in 4 bytes), the name of the file. *)
Definition build_id_bytes (b : rbuild) : list N :=
  le_bytes 4 67 ++ le_bytes 2 (rb_misc b) ++ le_bytes 2 (36 + room_of (rb_file b)) ++ le_bytes 4 (rb_pid b) ++
  rb_hash b ++ repeat 0 (N.to_nat (20 - len (rb_hash b))) ++
  [(if N.testbit (rb_misc b) 15 then value_or 0 (rb_size b) mod 256 else 0); 0; 0; 0] ++
  padded_text (rb_file b).

(** An event description: the attribute, the number of ids, the name, the ids. *)
Definition event_desc_bytes (x : x_fattr * (N * list N)) : list N :=
  des_attr (fx_attr (fst x)) ++ le_bytes 4 (len (fx_ids (fst x))) ++ counted_text (snd (snd x)) ++
  concat (map (le_bytes 8) (fx_ids (fst x))).

(** The numbers stored for a type. *)
Definition numbers_of (ty : N) (l : list (N * list N)) : list N :=
  match aget N.eqb ty l with Some d => d | None => [] end.

(** The section of each feature. *)
Definition feature_bytes (p : wdata) (ty : N) : list N :=
  let m := wd_meta p in
  if ty =? 1 then fm_tracing m
  else if ty =? 2 then concat (map build_id_bytes (wd_builds p))
  else if existsb (N.eqb ty) [3; 4; 5; 6; 8; 9] then counted_text (text_or_empty (aget N.eqb ty (fm_strings m)))
  else if ty =? 7 then concat (map (le_bytes 4) (numbers_of 7 (fm_u32 m)))
  else if ty =? 10 then concat (map (le_bytes 8) (numbers_of 10 (fm_u64 m)))
  else if ty =? 11 then counted_texts (fm_cmdline m)
  else if ty =? 12 then
    le_bytes 4 (len (wd_attrs p)) ++ le_bytes 4 96
    ++ concat (map event_desc_bytes (combine (wd_attrs p) (wd_types p)))
  else if ty =? 13 then
    counted_texts (fm_cores m) ++ counted_texts (fm_threads m)
    ++ concat (map (fun c => le_bytes 4 (fst c) ++ le_bytes 4 (snd c)) (fm_cpus m))
  else if ty =? 14 then
    le_bytes 4 (len (fm_numa m))
    ++ concat (map (fun x => let '(id, size, free, cpus) := x in
                             le_bytes 4 id ++ le_bytes 8 size ++ le_bytes 8 free ++ counted_text cpus) (fm_numa m))
  else if ty =? 16 then
    le_bytes 4 (len (fm_pmu m))
    ++ concat (map (fun x => le_bytes 4 (fst x) ++ counted_text (snd x)) (fm_pmu m))
  else if ty =? 17 then
    le_bytes 4 (len (fm_group m))
    ++ concat (map (fun x => let '(name, leader, members) := x in
                             counted_text name ++ le_bytes 4 leader ++ le_bytes 4 members) (fm_group m))
  else if ty =? 30 then
    le_bytes 4 (len (wd_hybrid p))
    ++ concat (map (fun h => counted_text (xh_name h)
                             ++ counted_text (match text_or_empty (xh_cpus h) with
                                              | [] => format_cpu_numbers (xh_list h)
                                              | t => t
                                              end)) (wd_hybrid p))
  else [].

(** The features that are written: those asked for by the mask, of the known ones, in order. *)
Definition known_features : list N := [1; 2; 3; 4; 5; 6; 7; 8; 9; 10; 11; 12; 13; 14; 15; 16; 17; 30].
Definition features_of (p : wdata) : list N := filter (N.testbit (wd_mask p)) known_features.
Definition feature_word (p : wdata) : N := fold_right (fun ty n => 2 ^ ty + n) 0 (features_of p).

(** An event, with the trace behind it if it is an AUXTRACE event of some size. *)
Definition event_bytes ord (s : sstate) (x : x_event) : list N :=
  match deserialize ord s x with Ok e => e | _ => [] end ++
  (if (xe_type x =? R_AUXTRACE) && (0 <? xat_size (get_auxtrace (xe_body x)))
   then xat_trace (get_auxtrace (xe_body x)) else []).

(** The attributes, each with the place of its ids, which are stored from [off] on. *)
Fixpoint attr_entries (off : N) (l : list x_fattr) : list N :=
  match l with
  | [] => []
  | a :: r => des_attr (fx_attr a) ++ place off (8 * len (fx_ids a)) ++ attr_entries (off + 8 * len (fx_ids a)) r
  end.

(** The file: header, ids, attributes, events, the table of features, features. *)
Definition file_image ord (s : sstate) (p : wdata) : list N :=
  let ids := concat (map (fun a => concat (map (le_bytes 8) (fx_ids a))) (wd_attrs p)) in
  let attrs_off := 104 + len ids in
  let attrs := attr_entries 104 (wd_attrs p) in
  let data_off := attrs_off + len attrs in
  let data := concat (map (event_bytes ord s) (wd_events p)) in
  let table_off := data_off + len data in
  let features := map (feature_bytes p) (features_of p) in
  let table := places (table_off + 16 * len features) features in
  le_bytes 8 perf_magic ++ le_bytes 8 104 ++ le_bytes 8 112 ++
  place attrs_off (len attrs) ++ place data_off (len data) ++ place data_off 0 ++
  le_bytes 8 (feature_word p) ++ repeat 0 24 ++
  ids ++ attrs ++ data ++ concat table ++ concat features.

(** Ranges of the fields: what a length of 32 or 16 bits can tell. *)
Definition short_text (t : list N) : Prop := len t < two32 - 8.
Definition build_fits (b : rbuild) : Prop :=
  len (rb_hash b) <= 20 /\ ~ In 0 (rb_file b) /\ 36 + room_of (rb_file b) < two16.
Record representable (p : wdata) : Prop := mkRepresentable {
  rp_strings : Forall (fun x => short_text (snd x)) (fm_strings (wd_meta p));
  rp_cmdline : Forall short_text (fm_cmdline (wd_meta p));
  rp_cores : Forall short_text (fm_cores (wd_meta p));
  rp_threads : Forall short_text (fm_threads (wd_meta p));
  rp_numa : Forall (fun x => short_text (snd x)) (fm_numa (wd_meta p));
  rp_pmu : Forall (fun x => short_text (snd x)) (fm_pmu (wd_meta p));
  rp_group : Forall (fun x => short_text (fst (fst x))) (fm_group (wd_meta p));
  rp_hybrid : Forall (fun h => short_text (xh_name h) /\ short_text (text_or_empty (xh_cpus h))
                               /\ short_text (format_cpu_numbers (xh_list h))) (wd_hybrid p);
  rp_types : Forall (fun t => short_text (snd t)) (wd_types p);
  rp_ids : Forall (fun a => len (fx_ids a) < two32) (wd_attrs p);
  rp_builds : Forall build_fits (wd_builds p);
  rp_events : Forall (fun x => xe_size x < two16 /\
                (xe_type x = R_SAMPLE ->
                 len (xsa_raw (get_sample (xe_body x))) < two16 /\ xsa_raw_size (get_sample (xe_body x)) < two16))
                (wd_events p) }.

(** Metadata that is there although the mask does not ask for it. *)
Definition present (p : wdata) (ty : N) : bool :=
  if existsb (N.eqb ty) [3; 4; 5; 6; 8; 9] then
    match aget N.eqb ty (fm_strings (wd_meta p)) with Some _ => true | None => false end
  else if ty =? 11 then match fm_cmdline (wd_meta p) with [] => false | _ => true end
  else negb (ty =? 12).
Definition left_out (p : wdata) : N :=
  fold_right (fun ty n => (if negb (N.testbit (wd_mask p) ty) && present p ty
                           then len (feature_bytes p ty) else 0) + n) 0 known_features.

(** The mask asks for no string and no command line that is not there, there are no
    numbers of other types, and no hybrid PMU has an empty text and CPUs. *)
Definition consistent (p : wdata) : Prop :=
  let m := wd_meta p in
  (forall ty, In ty [3; 4; 5; 6; 8; 9; 11] -> N.testbit (wd_mask p) ty = true -> present p ty = true) /\
  (fm_u32 m = [] \/ exists d, fm_u32 m = [(7, d)]) /\
  (fm_u64 m = [] \/ exists d, fm_u64 m = [(10, d)]) /\
  Forall (fun h => xh_cpus h = Some [] -> format_cpu_numbers (xh_list h) = []) (wd_hybrid p).

(** Data that can be written. *)
Definition event_writable ord (s : sstate) (x : x_event) : Prop :=
  xe_size x <> 0 /\ x_size s x = Ok (xe_size x) /\ (exists e, deserialize ord s x = Ok e) /\
  (xe_type x = R_AUXTRACE ->
   xat_size (get_auxtrace (xe_body x)) = len (xat_trace (get_auxtrace (xe_body x)))).
Definition writable ord (s : sstate) (p : wdata) : Prop :=
  let asked ty := N.testbit (wd_mask p) ty = true in
  representable p /\ consistent p /\
  Forall (event_writable ord s) (wd_events p) /\ (wd_events p = [] \/ ss_readers s <> []) /\
  (asked 7 -> fm_u32 (wd_meta p) <> []) /\ (asked 10 -> fm_u64 (wd_meta p) <> []) /\
  (asked 12 -> len (wd_attrs p) <= len (wd_types p) /\
     Forall (fun x => w64 (ea_config (fx_attr (fst x))) = fst (snd x)) (combine (wd_attrs p) (wd_types p))) /\
  len (file_image ord s p) + left_out p < two63.

(** What a reader of the file finds by following the offsets and sizes in it. *)
Definition word_at (f : list N) (off : N) : N := of_le (slice f off 8).
(** The offset and size stored at [at_] are those of [d]. *)
Definition refers (f : list N) (at_ : N) (d : list N) : Prop :=
  at_ + 16 <= len f /\ word_at f (at_ + 8) = len d /\ word_at f at_ + len d <= len f /\ slice f (word_at f at_) (len d) = d.
Record laid_out ord (s : sstate) (p : wdata) (f : list N) : Prop := mkLaidOut {
  lo_magic : word_at f 0 = perf_magic;
  lo_sizes : word_at f 8 = 104 /\ word_at f 16 = 112;
  lo_attrs : word_at f 32 = 112 * len (wd_attrs p);
  lo_attr : forall i a, nth_error (wd_attrs p) i = Some a ->
    let entry := word_at f 24 + 112 * N.of_nat i in
    slice f entry 96 = des_attr (fx_attr a) /\ refers f (entry + 96) (concat (map (le_bytes 8) (fx_ids a)));
  lo_data : refers f 40 (concat (map (event_bytes ord s) (wd_events p)));
  lo_types : word_at f 64 = 0;
  lo_inside : 104 <= len f /\ word_at f 24 + word_at f 32 <= len f /\ word_at f 56 <= len f;
  lo_bits : forall ty, N.testbit (of_le (slice f 72 32)) ty = existsb (N.eqb ty) (features_of p);
  lo_feature : forall i ty, nth_error (features_of p) i = Some ty ->
    refers f (word_at f 40 + word_at f 48 + 16 * N.of_nat i) (feature_bytes p ty) }.
