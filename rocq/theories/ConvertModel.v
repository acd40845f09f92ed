(** Model of the command perf_converter: perf_converter.cc, conversion_utils.cc. *)
From Coq Require Import String.
From Verif Require Import Base TextModel ToolModel.
Local Open Scope N_scope.
Local Open Scope list_scope.

(** ** Formats *)

(** The options of the parser that a format can set; combine_mappings is true unless
    it is set to false (perf_parser.h:150-180). *)
Record parser_options := { po_remap : bool; po_discard : bool; po_combine : bool }.
Definition no_options : parser_options := {| po_remap := false; po_discard := false; po_combine := true |}.

(** std::string::find('.') and the two calls of substr. *)
Fixpoint at_dot (s : list N) : option (list N * list N) :=
  match s with
  | [] => None
  | c :: r => if c =? 46 then Some ([], r)
              else match at_dot r with Some (a, b) => Some (c :: a, b) | None => None end
  end.

(** conversion_utils.cc:26-46, ParseFormatOptions. *)
Definition format_options (format : list N) : list N * parser_options :=
  match at_dot format with
  | None => (format, no_options)
  | Some (base, opt) =>
      if list_eqb opt (str "remap") then (base, {| po_remap := true; po_discard := false; po_combine := true |})
      else if list_eqb opt (str "discard") then (base, {| po_remap := false; po_discard := true; po_combine := true |})
      else if list_eqb opt (str "remap.discard") then (base, {| po_remap := true; po_discard := true; po_combine := true |})
      else if list_eqb opt (str "no_combine") then (base, {| po_remap := false; po_discard := false; po_combine := false |})
      else ([], no_options)
  end.

(** ** Files *)

(** ReadFile (perf_reader.cc:489-496) and FileToBuffer (file_utils.cc:15-28) of a
    regular file: they fail if it cannot be opened. See C71 for other files. *)
Definition open_file (f : files) (path : list N) : outcome (list N) :=
  match fl_data f path with
  | Some d => if fl_readable f path then Ok d else Fail
  | None => Fail
  end.

(** file_utils.h:21-33, BufferToFile. The C library hands whole blocks over at once;
    what is left of the data stays in the buffer of the stream until fclose, the
    result of which is not looked at. fwrite tells of an error with the blocks, and
    then CHECK_EQ ends the program. *)
Definition block_size : N := 4096.
Definition buffer_to_file (f : files) (path data : list N) : outcome bool * files :=
  if negb (fl_writable f path) then (Ok false, f)
  else
    let n := N.of_nat (List.length data) in
    let f' := write_file f path data in
    if N.of_nat (fl_room f) <? n - n mod block_size then (Abort, f') else (Ok true, f').

(** ** Conversion *)

Record format_and_file := { ff_file : list N; ff_format : list N }.

Section Convert.
(** What a PerfReader holds, and how it is made and stored: [read] of perf.data
    (ReadFromData), [of_text] and [of_proto] of messages (parsing and Deserialize),
    [parse] by ParseRawEvents with options (true: it returned true), [write] to
    perf.data (WriteToVector), [to_text] and [to_proto] as messages. *)
Variable recording : Type.
Variables (read of_text of_proto : list N -> outcome recording).
Variables (parse : parser_options -> recording -> outcome recording).
Variables (write to_text to_proto : recording -> outcome (list N)).

(** conversion_utils.cc:49-76, ReadInput; [Fail] where it returns false. *)
Definition read_input (f : files) (input : format_and_file) : outcome (recording * parser_options) :=
  let '(format, options) := format_options (ff_format input) in
  if list_eqb format (str "perf") then
    let! data := open_file f (ff_file input) in
    let! r := read data in Ok (r, options)
  else if list_eqb format (str "text") || list_eqb format (str "proto") then
    let! data := open_file f (ff_file input) in
    let! r := (if list_eqb format (str "text") then of_text data else of_proto data) in Ok (r, options)
  else Fail.

(** conversion_utils.cc:80-118, WriteOutput, up to the call of BufferToFile. *)
Definition make_output (output : format_and_file) (options : parser_options) (r : recording) : outcome (list N) :=
  let! r := parse options r in
  if list_eqb (ff_format output) (str "perf") then write r
  else if list_eqb (ff_format output) (str "text") || list_eqb (ff_format output) (str "proto") then
    if list_eqb (ff_format output) (str "text") then to_text r else to_proto r
  else Fail.

(** conversion_utils.cc:131-137, ConvertFile. *)
Definition convert_file (f : files) (input output : format_and_file) : outcome bool * files :=
  match (let! (r, options) := read_input f input in make_output output options r) with
  | Ok data => buffer_to_file f (ff_file output) data
  | Fail => (Ok false, f)
  | Abort => (Abort, f)
  | UB => (UB, f)
  | Hang => (Hang, f)
  end.

(** ** Command line *)

(** perf_converter.cc:43: "i:o:I:O:v:", i = 105, o = 111, I = 73, O = 79, v = 118. *)
Definition options_of_converter (c : N) : option bool :=
  if (c =? 105) || (c =? 111) || (c =? 73) || (c =? 79) || (c =? 118) then Some true else None.

(** perf_converter.cc:42-68, the loop. The level of messages (v) is left out. *)
Fixpoint take_settings (os : list gopt) (i o : format_and_file) : option (format_and_file * format_and_file) :=
  match os with
  | [] => Some (i, o)
  | GArg c v :: r =>
      if c =? 105 then take_settings r {| ff_file := v; ff_format := ff_format i |} o
      else if c =? 73 then take_settings r {| ff_file := ff_file i; ff_format := v |} o
      else if c =? 111 then take_settings r i {| ff_file := v; ff_format := ff_format o |}
      else if c =? 79 then take_settings r i {| ff_file := ff_file o; ff_format := v |}
      else if c =? 118 then take_settings r i o
      else None
  | _ :: _ => None
  end.

(** perf_converter.cc:35-70, ParseArguments; [args] without the name of the program. *)
Definition converter_arguments (args : list (list N)) : option (format_and_file * format_and_file) :=
  take_settings (getopt options_of_converter None args)
    {| ff_file := str "perf.data"; ff_format := str "perf" |}
    {| ff_file := str "/dev/stdout"; ff_format := str "text" |}.

(** perf_converter.cc:87-96, main; true: EXIT_SUCCESS. *)
Definition perf_converter (f : files) (args : list (list N)) : outcome bool * files :=
  match converter_arguments args with
  | None => (Ok false, f)
  | Some (i, o) => convert_file f i o
  end.
End Convert.
