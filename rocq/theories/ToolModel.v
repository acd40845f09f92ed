(** Model of the command perf_to_profile: perf_to_profile.cc, perf_to_profile_lib.cc. *)
From Coq Require Import String.
From Verif Require Import Base BytesModel TextModel PerfProto ConverterModel PipelineModel.
Local Open Scope N_scope.
Local Open Scope list_scope.

(** ** Command line *)

(** What getopt returns, one after the other: an option, an option with its value
    (optarg), ':' for an option whose value is missing, '?' for one it does not know. *)
Inductive gopt :=
  | GOpt (c : N) | GArg (c : N) (v : list N) | GMissing (c : N) | GUnknown (c : N).

(** getopt of the C library (glibc, POSIXLY_CORRECT not set), within one argument
    behind its '-': the options in it and, if the last one needs the next argument as
    its value, that option. [spec]: whether an option has a value. *)
Fixpoint cluster (spec : N -> option bool) (cs : list N) : list gopt * option N :=
  match cs with
  | [] => ([], None)
  | c :: r =>
      match spec c with
      | None => let '(os, p) := cluster spec r in (GUnknown c :: os, p)
      | Some false => let '(os, p) := cluster spec r in (GOpt c :: os, p)
      | Some true => match r with [] => ([], Some c) | _ => ([GArg c r], None) end
      end
  end.
(** The same over all arguments: operands are passed over, "--" ends the options. *)
Fixpoint getopt (spec : N -> option bool) (pending : option N) (args : list (list N)) : list gopt :=
  match args with
  | [] => match pending with Some c => [GMissing c] | None => [] end
  | a :: r =>
      match pending with
      | Some c => GArg c a :: getopt spec None r
      | None =>
          match a with
          | c :: ((_ :: _) as cs) =>
              if negb (c =? 45) then getopt spec None r
              else if list_eqb cs [45] then []
              else let '(os, p) := cluster spec cs in os ++ getopt spec p r
          | _ => getopt spec None r
          end
      end
  end.

(** perf_to_profile_lib.cc:71: ":jfi:o:", j = 106, f = 102, i = 105, o = 111. *)
Definition options_of_tool (c : N) : option bool :=
  if (c =? 106) || (c =? 102) then Some false
  else if (c =? 105) || (c =? 111) then Some true else None.

Record arguments := { a_input : list N; a_output : list N; a_overwrite : bool; a_jit : bool }.

(** perf_to_profile_lib.cc:71-93, the loop; [None] where it returns false. *)
Fixpoint take_options (os : list gopt) (a : arguments) : option arguments :=
  match os with
  | [] => Some a
  | GArg c v :: r =>
      if c =? 105 then take_options r {| a_input := v; a_output := a_output a; a_overwrite := a_overwrite a; a_jit := a_jit a |}
      else if c =? 111 then take_options r {| a_input := a_input a; a_output := v; a_overwrite := a_overwrite a; a_jit := a_jit a |}
      else None
  | GOpt c :: r =>
      if c =? 102 then take_options r {| a_input := a_input a; a_output := a_output a; a_overwrite := true; a_jit := a_jit a |}
      else if c =? 106 then take_options r {| a_input := a_input a; a_output := a_output a; a_overwrite := a_overwrite a; a_jit := true |}
      else None
  | GMissing _ :: _ | GUnknown _ :: _ => None
  end.

(** perf_to_profile_lib.cc:62-95, ParseArguments; [args] without the name of the
    program. *)
Definition parse_arguments (args : list (list N)) : option arguments :=
  match take_options (getopt options_of_tool None args)
          {| a_input := []; a_output := []; a_overwrite := false; a_jit := false |} with
  | Some a => match a_input a, a_output a with [], _ | _, [] => None | _, _ => Some a end
  | None => None
  end.

(** ** Files *)

(** The part of the file system the program sees, by path: content, whether it can be
    opened for reading, whether for writing (creating it if need be), and how many
    bytes fit on the device. Simplification: two paths do not name the same file. *)
Record files := {
  fl_data : list N -> option (list N);
  fl_readable : list N -> bool;
  fl_writable : list N -> bool;
  fl_room : nat }.

Definition put (path data : list N) (f : files) : files :=
  {| fl_data := fun p => if list_eqb p path then Some data else fl_data f p;
     fl_readable := fl_readable f; fl_writable := fl_writable f; fl_room := fl_room f |}.

(** perf_to_profile_lib.cc:13-16, FileExists. *)
Definition file_exists (f : files) (path : list N) : bool :=
  match fl_data f path with Some _ => true | None => false end.

(** perf_to_profile_lib.cc:18-26, ReadFileToString. *)
Definition read_file (f : files) (path : list N) : outcome (list N) :=
  match fl_data f path with
  | Some d => if fl_readable f path then Ok d else Abort
  | None => Abort
  end.

(** perf_to_profile_lib.cc:42-51, CreateFile. [meddle]: what other processes do
    between the check and the opening. *)
Definition create_file (meddle : files -> files) (f : files) (path : list N) (overwrite : bool) : outcome files :=
  if negb overwrite && file_exists f path then Abort
  else
    let f := meddle f in
    if fl_writable f path then Ok (put path [] f) else Abort.

(** Writing to the open stream: what does not fit is lost. *)
Definition write_file (f : files) (path data : list N) : files := put path (firstn (fl_room f) data) f.

Section Tool.
(** The protobuf library: parsing the bytes of a PerfDataProto (ParseFromArray) and
    writing a profile (SerializeToOstream). The other arguments as in PipelineModel. *)
Variables (decode : list N -> option perf_proto) (encode : ProfileModel.profile -> list N).
Variables (md5 base : list N -> N) (order : list N).

(** perf_to_profile_lib.cc:28-40, StringToProfiles. *)
Definition string_to_profiles (data : list N) (labels options : N) : outcome (list process_profile) :=
  match decode data with
  | Some p => convert {| cf_data := p; cf_labels := labels; cf_options := options; cf_types := [] |}
  | None => raw_to_profiles md5 base order data [] labels options []
  end.

(** perf_to_profile.cc:13-44, main: how it ends (true: EXIT_SUCCESS) and the files then.
    kNoOptions = 0, kNoLabels = 0, kAllowUnalignedJitMappings = 4. The result of
    SerializeToOstream is not looked at. *)
Definition perf_to_profile (meddle : files -> files) (args : list (list N)) (f : files) : outcome bool * files :=
  match parse_arguments args with
  | None => (Ok false, f)
  | Some a =>
      match (let! data := read_file f (a_input a) in
             let! ps := string_to_profiles data 0 (if a_jit a then 4 else 0) in
             match ps with [p] => Ok p | _ => Abort end) with
      | Ok p =>
          match create_file meddle f (a_output a) (a_overwrite a) with
          | Ok f' => (Ok true, write_file f' (a_output a) (encode (pr_data p)))
          | _ => (Abort, meddle f)
          end
      | Fail => (Fail, f) | Abort => (Abort, f) | UB => (UB, f) | Hang => (Hang, f)
      end
  end.
End Tool.
