(** What a user asks the command quipper for. *)
From Coq Require Import String.
From Verif Require Import Base TextModel TextSpec OptionModel OptionSpec QuipperModel.
Local Open Scope N_scope.
Local Open Scope list_scope.

(** A recording: for how long, the words of perf (subcommand and options), those of
    perf inject if it is to be run, and the file for the result. *)
Record wish := { w_seconds : N; w_perf : words; w_inject : option words; w_output : list N }.

(** The two ways to write it, as in the usage of quipper: duration and command of
    perf, then the result is on the standard output, ... *)
Definition asks_in_old_form (argv : words) (w : wish) : Prop :=
  exists program,
    argv = program :: print_dec (w_seconds w) :: str "perf" :: w_perf w /\
    validate_command_line (str "perf" :: w_perf w) = true /\
    w_inject w = None /\ w_output w = str "/dev/stdout".
(** ... or flags. The words of perf inject stand in one flag, with ';' between them. *)
Definition flags_say (f : flags) (w : wish) : Prop :=
  fl_duration f = Z.of_N (w_seconds w) /\
  (fl_perf_path f = [] \/ fl_perf_path f = str "perf") /\
  fl_output f = w_output w /\ w_output w <> [] /\
  match w_inject w with
  | None => fl_run_inject f = false /\ fl_inject_args f = []
  | Some i => fl_run_inject f = true /\ fl_inject_args f = join 59 i /\ Forall (fun t => ~ In 59 t /\ t <> []) i
  end.
Definition asks_with_flags (gflags : words -> option (flags * words)) (argv : words) (w : wish) : Prop :=
  nth_error argv 2 <> Some (str "perf") /\ w_perf w <> [] /\
  exists f program, gflags argv = Some (f, program :: w_perf w) /\ flags_say f w.
Definition asks gflags (argv : words) (w : wish) : Prop :=
  1 <= w_seconds w < 1000000 /\ (asks_in_old_form argv w \/ asks_with_flags gflags argv w).

(** The commands for it. *)
Definition is_stat (w : wish) : bool := match w_perf w with s :: _ => list_eqb s (str "stat") | [] => false end.
Definition perf_command (tmp : list N) (w : wish) : words :=
  [str "/usr/bin/perf"] ++ w_perf w ++ [str "-o"; tmp] ++ (if is_stat w then [str "-v"] else []) ++
  [str "--"; str "sleep"; print_dec (w_seconds w)].
Definition inject_command (tmp tmp2 : list N) (i : words) : words :=
  [str "/usr/bin/perf"] ++ i ++ [str "-o"; tmp2; str "-f"; str "-i"; tmp].
Definition commands (tmp tmp2 : list N) (w : wish) : list words :=
  perf_command tmp w :: match w_inject w with Some i => [inject_command tmp tmp2 i] | None => [] end.

(** What the result is made of: the output of the last command; that of perf stat is
    text, all other is recorded data. *)
Definition made_of (tmp tmp2 : list N) (w : wish) (r : result) : Prop :=
  match w_inject w with
  | Some _ => r = RecordedData tmp2
  | None => if is_stat w then exists line, r = StatOutput tmp line else r = RecordedData tmp
  end.

(** The wish can be met: perf and perf inject take the words, and data of an ETM is
    not recorded without perf inject. *)
Definition can_be_met (w : wish) : Prop :=
  validate_command_line (str "perf" :: w_perf w) = true /\
  (exists sub r, w_perf w = sub :: r /\ In sub [str "record"; str "stat"; str "mem"]) /\
  match w_inject w with
  | None => nth_error (w_perf w) 0 = Some (str "record") -> is_recording_etm (w_perf w) = false
  | Some i => validate_command_line (str "perf" :: i) = true /\ exists r, i = str "inject" :: r
  end.
