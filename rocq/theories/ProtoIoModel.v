(** Model of perf_protobuf_io.cc and of the options message (perf_parser_options.proto). *)
From Verif Require Import Base TextModel ToolModel ConvertModel.
Local Open Scope N_scope.
Local Open Scope list_scope.

(** ** Options *)

(** perf_parser.h:150-181, PerfParserOptions; the percentage by the bits of the float. *)
Record struct_options := {
  so_remap : bool; so_discard : bool; so_threshold : N; so_sort : bool; so_build_ids : bool; so_huge : bool;
  so_combine : bool; so_jit : bool }.
(** Its initial values; 1119748096 are the bits of 95.0f. *)
Definition percent_95 : N := 1119748096.
Definition default_options : struct_options :=
  {| so_remap := false; so_discard := false; so_threshold := percent_95; so_sort := true; so_build_ids := false;
     so_huge := true; so_combine := true; so_jit := false |}.

(** perf_parser_options.proto:11-19, PerfParserOptionsProto: fields that are set or not. *)
Record message_options := {
  mo_remap : option bool; mo_discard : option bool; mo_threshold : option N; mo_sort : option bool;
  mo_build_ids : option bool; mo_huge : option bool; mo_combine : option bool }.
Definition get {A} (o : option A) (default : A) : A := match o with Some x => x | None => default end.

(** perf_protobuf_io.cc:37-50, the fields copied, with the defaults of the message. *)
Definition of_message (m : message_options) : struct_options :=
  {| so_remap := get (mo_remap m) false; so_discard := get (mo_discard m) false;
     so_threshold := get (mo_threshold m) percent_95; so_sort := get (mo_sort m) false;
     so_build_ids := get (mo_build_ids m) false; so_huge := get (mo_huge m) true; so_combine := get (mo_combine m) true;
     so_jit := so_jit default_options |}.

(** ** Files and messages *)

Section ProtoIo.
(** A PerfReader and a message, as in ConvertModel: [read] of perf.data, [of_proto] of a
    message (Deserialize), [parse] with its statistics, [to_proto] (Serialize),
    [add_stats] (SerializeParserStats), [write] to perf.data. [encode] and [decode] are
    those of the protobuf library; a message of more than 2 GB has no encoding. *)
Variables recording message stats : Type.
Variables (read : list N -> outcome recording) (of_proto : message -> outcome recording).
Variables (parse : struct_options -> recording -> outcome (recording * stats)).
Variables (to_proto : recording -> outcome message) (add_stats : stats -> message -> message).
Variables (write : recording -> outcome (list N)).
Variables (encode : message -> option (list N)) (decode : list N -> option message).

(** perf_protobuf_io.cc:21-35, SerializeFromStringWithOptions, and 15-19. *)
Definition from_string_with (o : struct_options) (contents : list N) : outcome message :=
  let! r := read contents in
  let! (r, s) := parse o r in
  let! m := to_proto r in
  Ok (add_stats s m).
Definition from_string (contents : list N) : outcome message := from_string_with default_options contents.
(** perf_protobuf_io.cc:37-50, the same with options in a message. *)
Definition from_string_message (o : message_options) (contents : list N) : outcome message :=
  from_string_with (of_message o) contents.
(** perf_protobuf_io.cc:58-72, SerializeFromFileWithOptions, and 52-56. *)
Definition from_file_with (o : struct_options) (f : files) (path : list N) : outcome message :=
  let! contents := open_file f path in
  let! r := read contents in
  let! (r, s) := parse o r in
  let! m := to_proto r in
  Ok (add_stats s m).

(** perf_protobuf_io.cc:74-78, DeserializeToFile. *)
Definition to_file (m : message) (f : files) (path : list N) : outcome bool * files :=
  match (let! r := of_proto m in write r) with
  | Ok data => buffer_to_file f path data
  | Fail => (Ok false, f)
  | Abort => (Abort, f)
  | UB => (UB, f)
  | Hang => (Hang, f)
  end.

(** perf_protobuf_io.cc:80-86, WriteProtobufToFile: the result of SerializeToString is not
    looked at; the text is empty if it fails. *)
Definition store (m : message) (f : files) (path : list N) : outcome bool * files :=
  buffer_to_file f path (get (encode m) []).

(** perf_protobuf_io.cc:88-98, ReadProtobufFromFile. *)
Definition fetch (f : files) (path : list N) : outcome message :=
  let! data := open_file f path in
  match decode data with Some m => Ok m | None => Fail end.
End ProtoIo.
