(** Properties of reading perf data: C39. *)
From Verif Require Import Base BytesModel EventSizeModel ReaderOpsModel FileModel FileSpec FileExamples
  FileProofs FileEventProofs FileReadProofs FileMetaProofs FileMainProofs.
Local Open Scope N_scope.

(** ** C39: reading is total and checks what it reads *)

(** Whatever bytes are read (fewer than 2^63), with whatever settings: the reader
    ends, with success or failure. It does not read or write outside its memory,
    does not hit a CHECK, and every loop ends. *)
Theorem C39_safe (cf : fconfig) (b : list N) :
  bytes_ok b = true -> len b < two63 ->
  read_perf_data cf b = Fail \/ exists s, read_perf_data cf b = Ok s.
Proof.
  intros B L. assert (H := read_ok cf b B L). destruct (read_perf_data cf b) as [s| | | |]; try contradiction; eauto.
Qed.
Print Assumptions C39_safe.

(** What was read is a file whose header has the magic number, the right size and
    all sections inside the data, and whose data section is, from its first to its
    last byte, records one behind the other; the events are those records in that
    order. Or it is piped data, and the records run up to the end of the input. *)
Theorem C39_read (cf : fconfig) (b : list N) (s : fstate) :
  bytes_ok b = true -> len b < two63 -> read_perf_data cf b = Ok s ->
  exists sw,
    (file_header sw b /\
     records (cf_skip cf)
       (match fs_attrs s with a :: _ => attr_exclude_kernel (fa_attr a) | [] => false end) sw b
       (sc_offset (section_at sw b 40))
       (sc_offset (section_at sw b 40) + sc_size (section_at sw b 40)) (fs_events s)) \/
    (pipe_header sw b /\ stream (cf_skip cf) sw b 16 (fs_events s)).
Proof.
  intros B L E. assert (H := read_ok cf b B L). rewrite E in H. exact H.
Qed.
Print Assumptions C39_read.

(** Anything without such a header is refused. *)
Theorem C39_bad_header (cf : fconfig) (b : list N) :
  bytes_ok b = true -> len b < two63 ->
  (forall sw, ~ file_header sw b /\ ~ pipe_header sw b) -> read_perf_data cf b = Fail.
Proof.
  intros B L N0. destruct (C39_safe cf b B L) as [H|[s H]]; [exact H|].
  destruct (C39_read cf b s B L H) as [sw [[X _]|[X _]]]; destruct (N0 sw); contradiction.
Qed.
Print Assumptions C39_bad_header.

(** Examples: a file in either byte order with a comm record, a record of an
    unknown type, an auxtrace record with 8 bytes of trace and a finished round;
    piped data; and a file whose last record leaves its section. *)
Definition ex_data (sw : bool) : list N :=
  ex_comm sw ++ ex_unknown sw ++ ex_auxtrace sw [1; 2; 3; 4; 5; 6; 7; 8] ++ ex_round sw.
Definition ex_events : list fevent :=
  [mkFEvent (ex_comm false) []; mkFEvent (ex_record false 71 0 (num false 8 8 ++ repeat 0 32)) [1; 2; 3; 4; 5; 6; 7; 8];
   mkFEvent (ex_round false) []].
Definition events_read (skip : list N) (b : list N) : outcome (list fevent) :=
  match read_perf_data (ex_config skip) b with
  | Ok s => Ok (fs_events s) | Fail => Fail | Abort => Abort | UB => UB | Hang => Hang
  end.

Example C39_example_file : forall sw,
  bytes_ok (ex_file sw (repeat 0 8) (ex_data sw) []) = true /\
  len (ex_file sw (repeat 0 8) (ex_data sw) []) = 328 /\
  events_read [] (ex_file sw (repeat 0 8) (ex_data sw) []) = Ok ex_events.
Proof. intros []; vm_compute; auto. Qed.
Example C39_example_pipe : forall sw,
  events_read [] (ex_pipe sw (ex_data sw)) = Ok ex_events.
Proof. intros []; vm_compute; reflexivity. Qed.
Example C39_example_overshoot : forall sw,
  events_read [] (firstn 320 (ex_file sw (repeat 0 8) (ex_data sw) [])) = Fail /\
  (* a data section that ends inside the last record, with bytes behind it *)
  events_read [] (firstn 48 (ex_file sw (repeat 0 8) (ex_data sw) []) ++ num sw 8 111 ++
                  skipn 56 (ex_file sw (repeat 0 8) (ex_data sw) [])) = Fail.
Proof. intros []; vm_compute; auto. Qed.
Example C39_example_hostname :
  exists s, read_perf_data (ex_config []) (ex_file false (le_bytes 8 8) (ex_data false) [ex_host false]) = Ok s /\
    fs_events s = ex_events /\ fm_strings (fs_meta s) = [(3, [104; 111; 115; 116])].
Proof. eexists. split; [vm_compute; reflexivity|]. split; vm_compute; reflexivity. Qed.

(** Findings. *)

(** Leaving out auxtrace events does not leave out their trace data: the bytes of
    the trace are read as records. Here a trace that happens to look like a
    finished-round record becomes an event. *)
Theorem C39_skipped_trace_refuted :
  exists trace,
    (* nothing but the auxtrace record in the data section *)
    events_read [] (ex_file false (repeat 0 8) (ex_auxtrace false trace) []) =
      Ok [mkFEvent (ex_record false 71 0 (num false 8 (len trace) ++ repeat 0 32)) trace] /\
    events_read [71] (ex_file false (repeat 0 8) (ex_auxtrace false trace) []) =
      Ok [mkFEvent (ex_round false) []].
Proof. exists (ex_round false). vm_compute. auto. Qed.
Print Assumptions C39_skipped_trace_refuted.

(** The features of a file of the other byte order are lost: the same file has a
    host name in one byte order and none in the other, although both are read
    with success. *)
Theorem C39_cross_endian_features_refuted :
  exists file : bool -> list N,
    (forall sw, file sw = ex_file sw (num sw 8 8) (ex_data sw) [ex_host sw]) /\
    (exists s, read_perf_data (ex_config []) (file false) = Ok s /\ fm_strings (fs_meta s) = [(3, [104; 111; 115; 116])]) /\
    (exists s, read_perf_data (ex_config []) (file true) = Ok s /\ fm_strings (fs_meta s) = []).
Proof.
  exists (fun sw => ex_file sw (num sw 8 8) (ex_data sw) [ex_host sw]). split; [reflexivity|].
  split; eexists; (split; [vm_compute; reflexivity|vm_compute; reflexivity]).
Qed.
Print Assumptions C39_cross_endian_features_refuted.

(** The type of an attribute of the other byte order is reversed twice. *)
Theorem C39_cross_endian_attr_type_refuted :
  exists file : bool -> list N,
    (forall sw, file sw = ex_file sw (repeat 0 8) (ex_data sw) []) /\
    (exists s a, read_perf_data (ex_config []) (file false) = Ok s /\ fs_attrs s = [a] /\ of_le (slice (fa_attr a) 0 4) = 1) /\
    (exists s a, read_perf_data (ex_config []) (file true) = Ok s /\ fs_attrs s = [a] /\
                 of_le (slice (fa_attr a) 0 4) = 0x1000000 /\ attr_sample_type (fa_attr a) = 3).
Proof.
  exists (fun sw => ex_file sw (repeat 0 8) (ex_data sw) []). split; [reflexivity|].
  split; eexists; eexists; (split; [vm_compute; reflexivity|]); (split; [vm_compute; reflexivity|]); vm_compute; auto.
Qed.
Print Assumptions C39_cross_endian_attr_type_refuted.

(** Bit 0 of the feature mask has a section of its own in the section table but is
    never visited: the host name is read from that section. *)
Theorem C39_feature_bit_0_refuted :
  exists s, read_perf_data (ex_config [])
              (ex_file false (le_bytes 8 9) (ex_data false) [le_bytes 4 8 ++ [120; 0; 0; 0; 0; 0; 0; 0]; ex_host false]) = Ok s /\
    fm_strings (fs_meta s) = [(3, [120])].
Proof. eexists. split; vm_compute; reflexivity. Qed.
Print Assumptions C39_feature_bit_0_refuted.

(** In piped data the features 1 (tracing data), 2 (build ids) and 15 (branch
    stack) are refused, but their numbers plus 2^32 are taken for them. *)
Theorem C39_feature_number_refuted :
  events_read [] (ex_pipe false (ex_record false 80 0 (le_bytes 8 1 ++ [42]))) = Fail /\
  exists s, read_perf_data (ex_config []) (ex_pipe false (ex_record false 80 0 (le_bytes 8 (2 ^ 32 + 1) ++ [42]))) = Ok s /\
    fm_tracing (fs_meta s) = [42].
Proof. split; [vm_compute; reflexivity|]. eexists. split; vm_compute; reflexivity. Qed.
Print Assumptions C39_feature_number_refuted.
