(** The check of perf command lines (src/quipper/perf_option_parser.cc) and the
    commands the recorder runs (src/quipper/perf_recorder.cc). Texts are lists of
    bytes. *)
From Verif Require Import Base BytesModel Assoc TextModel.
From Coq Require Import String.
Local Open Scope N_scope.
Local Open Scope list_scope.

Local Notation text := (list N).

(** perf_option_parser.cc:15-18, OptionType: [true] is Value (uses another
    argument), [false] is Boolean (has no value). *)
Definition option_table := list (text * bool).

(** perf_option_parser.cc:20-104. *)
Definition record_options : option_table :=
  [(str "-e", true); (str "--event", true); (str "--filter", true); (str "-p", true); (str "--pid", true);
    (str "-t", true); (str "--tid", true); (str "-r", true); (str "--realtime", true); (str "-R", false);
    (str "--raw-samples", false); (str "-a", false); (str "--all-cpus", false); (str "-C", true);
    (str "--cpu", true); (str "-c", true); (str "--count", true); (str "--code-page-size", false);
    (str "--data-page-size", false); (str "-i", false); (str "--no-inherit", false); (str "-F", true);
    (str "--freq", true); (str "--group", false); (str "-g", false); (str "--call-graph", true);
    (str "-s", false); (str "--stat", false); (str "-d", false); (str "--data", false); (str "-T", false);
    (str "--timestamp", false); (str "-P", false); (str "--period", false); (str "-n", false);
    (str "--no-samples", false); (str "-N", false); (str "--no-buildid-cache", false); (str "-B", false);
    (str "--no-buildid", false); (str "-G", true); (str "--cgroup", true); (str "-u", true);
    (str "--uid", true); (str "-b", false); (str "--branch-any", false); (str "-j", true);
    (str "--branch-filter", true); (str "-W", false); (str "--weight", false); (str "--transaction", false);
    (str "--running-time", false); (str "-k", true); (str "--clockid", true); (str "-S", true);
    (str "--snapshot", true); (str "--pfm-events", true)].

(** perf_option_parser.cc:106-159. *)
Definition stat_options : option_table :=
  [(str "-T", false); (str "--transaction", false); (str "-e", true); (str "--event", true);
    (str "--filter", true); (str "-i", false); (str "--no-inherit", false); (str "-p", true);
    (str "--pid", true); (str "-t", true); (str "--tid", true); (str "-a", false); (str "--all-cpus", false);
    (str "-g", false); (str "--group", false); (str "-c", false); (str "--scale", false); (str "-C", true);
    (str "--cpu", true); (str "-A", false); (str "--no-aggr", false); (str "-G", true); (str "--cgroup", true);
    (str "--per-socket", false); (str "--per-core", false); (str "-D", true); (str "--delay", true)].

(** perf_option_parser.cc:161-169. *)
Definition mem_options : option_table :=
  [(str "-t", true); (str "--type", true); (str "-D", false); (str "--dump-raw-samples", false);
    (str "-x", true); (str "--field-separator", true); (str "-C", true); (str "--cpu-list", true)].

(** perf_option_parser.cc:171-195. *)
Definition inject_options : option_table :=
  [(str "-b", false); (str "--build-ids", false); (str "--buildid-all", false); (str "-s", false);
    (str "--sched-stat", false); (str "--kallsyms", true); (str "--itrace", false); (str "--strip", false);
    (str "-j", false); (str "--jit", false)].

(** perf_option_parser.cc:204-207: what is in front of the first '='. *)
Definition option_name (arg : text) : text :=
  match split_string arg 61 with [] => [] | p :: _ => p end.

(** perf_option_parser.cc:198-221, ValidatePerfCommandLineOptions. *)
Fixpoint validate_options (options : option_table) (args : list text) : bool :=
  match args with
  | [] => true
  | arg :: rest =>
      match aget list_eqb (option_name arg) options with
      | None => false
      | Some true => match rest with [] => false | _ :: rest' => validate_options options rest' end
      | Some false => validate_options options rest
      end
  end.

(** std::find and the arguments in front of and behind what it finds. *)
Fixpoint split_at (w : text) (args : list text) : option (list text * list text) :=
  match args with
  | [] => None
  | a :: r => if list_eqb a w then Some ([], r)
              else match split_at w r with Some (x, y) => Some (a :: x, y) | None => None end
  end.

(** perf_option_parser.cc:225-252, ValidatePerfCommandLine. std::find looks at
    all arguments; the first two are "perf" and "mem", so what it finds is behind
    them. *)
Definition validate_command_line (args : list text) : bool :=
  match args with
  | program :: sub :: rest =>
      if negb (list_eqb program (str "perf")) then false
      else if list_eqb sub (str "record") then validate_options record_options rest
      else if list_eqb sub (str "mem") then
        match split_at (str "record") rest with
        | None => false
        | Some (before, behind) => validate_options mem_options before && validate_options record_options behind
        end
      else if list_eqb sub (str "stat") then validate_options stat_options rest
      else if list_eqb sub (str "inject") then validate_options inject_options rest
      else false
  | _ => false
  end.

(** perf_recorder.cc:81-89, IsRecordingETM. *)
Fixpoint is_infix (w t : text) : bool :=
  list_eqb w (firstn (List.length w) t) || match t with [] => false | _ :: r => is_infix w r end.
Fixpoint is_recording_etm (args : list text) : bool :=
  match args with
  | [] => false
  | a :: r =>
      if negb (list_eqb a (str "-e")) then is_recording_etm r
      else match r with
           | [] => false
           | v :: r' => is_infix (str "cs_etm") v || is_recording_etm r'
           end
  end.

(** perf_recorder.cc:101-128, FullPerfCommand. [binary] is perf_binary_command_,
    [time] the text of the time in seconds. Without a second argument perf_args[1]
    is outside the vector. *)
Definition full_perf_command (binary : list text) (time : text) (perf_args : list text) (output : text)
  : outcome (list text) :=
  match perf_args with
  | _ :: perf_type :: _ =>
      Ok (binary ++ tl perf_args ++ [str "-o"; output] ++
          (if list_eqb perf_type (str "stat") then [str "-v"] else []) ++
          (if negb (list_eqb perf_type (str "inject")) then [str "--"; str "sleep"; time] else [str "-f"]))
  | _ => UB
  end.

(** What is made of the output of perf: a file of recorded data or the output of
    perf stat, and with it the command line of the message. *)
Inductive result := RecordedData (file : text) | StatOutput (file command_line : text).

(** perf_recorder.cc:62-74: the arguments joined by blanks, without "-o" and
    what is behind it; the last blank is taken off (the size of an empty text
    would wrap). *)
Fixpoint stat_words (args : list text) : text :=
  match args with
  | [] => []
  | a :: r => if list_eqb a (str "-o") then match r with [] => [] | _ :: r' => stat_words r' end
              else a ++ [32] ++ stat_words r
  end.
Definition stat_command_line (args : list text) : outcome text :=
  match stat_words args with [] => Abort | t => Ok (removelast t) end.

(** perf_recorder.cc:130-198, RunCommandAndGetSerializedOutput. [run] is the
    exit status of a command, [out] and [inject_out] are the names of the temporary
    files. Returns the commands that are run, in order, and what is then parsed. *)
Definition record_perf (binary : list text) (run : list text -> Z) (time zero out inject_out : text)
    (perf_args inject_args : list text) : list (list text) * outcome result :=
  if negb (validate_command_line perf_args) then ([], Fail)
  else match perf_args with
  | _ :: perf_type :: _ =>
      if negb (list_eqb perf_type (str "record")) && negb (list_eqb perf_type (str "stat")) &&
         negb (list_eqb perf_type (str "mem")) then ([], Fail)
      else if list_eqb perf_type (str "record") && is_recording_etm perf_args &&
              match inject_args with [] => true | _ => false end then ([], Fail)
      else match full_perf_command binary time perf_args out with
      | Ok full =>
          if negb (run full =? 0)%Z then ([full], Fail)
          else match inject_args with
          | [] =>
              if list_eqb perf_type (str "record") || list_eqb perf_type (str "mem")
              then ([full], Ok (RecordedData out))
              else ([full], let! c := stat_command_line full in Ok (StatOutput out c))
          | _ =>
              if negb (validate_command_line inject_args) then ([full], Fail)
              else match inject_args with
              | _ :: inject_command :: _ =>
                  if negb (list_eqb inject_command (str "inject")) then ([full], Fail)
                  else match full_perf_command binary zero inject_args inject_out with
                  | Ok cmd =>
                      let full_inject := cmd ++ [str "-i"; out] in
                      if negb (run full_inject =? 0)%Z then ([full; full_inject], Fail)
                      else ([full; full_inject], Ok (RecordedData inject_out))
                  | _ => ([full], UB)
                  end
              | _ => ([full], UB)
              end
          end
      | _ => ([], UB)
      end
  | _ => ([], UB)
  end.

(** quipper_lib.cc:20-33, ParseOldPerfArguments, without the duration: the
    arguments behind the program and the duration, if they are accepted. *)
Definition parse_old_arguments (argv : list text) : option (list text) :=
  match argv with
  | _ :: _ :: ((_ :: _) as args) => if validate_command_line args then Some args else None
  | _ => None
  end.
