(** Model of the command quipper: quipper.cc, quipper_lib.cc. The recorder it uses is
    in OptionModel. *)
From Coq Require Import String.
From Verif Require Import Base TextModel OptionModel.
Local Open Scope N_scope.
Local Open Scope list_scope.

(** ** Numbers *)

Definition int_max : Z := 2147483647.
Definition int_min : Z := (-2147483648)%Z.

(** quipper_lib.cc:10-16, StringToInt: operator>> of a stream for an int. Blanks in
    front are passed over, what is behind the digits is not read. Without digits it
    gives 0, outside of int the nearest bound. *)
Definition string_to_int (s : list N) : Z :=
  let '(neg, v, _) := strto 10 s in
  if neg then Z.max (- Z.of_N v) int_min else Z.min (Z.of_N v) int_max.

(** quipper.cc:39, the int64 of a flag stored in an int: modulo 2^32 (defined by the
    implementation before C++20, so in gcc and clang). *)
Definition to_int (z : Z) : Z := ((z + 2147483648) mod 4294967296 - 2147483648)%Z.

(** perf_recorder.cc:121-124, operator<< of a stream for a double with the default
    precision (as printf with %g: six digits, no zeros at the end). The number is an
    int, so it is exact as a double. *)
Fixpoint strip_zeros (fuel : nat) (n : N) : N :=
  match fuel with
  | O => n
  | S f => if (n mod 10 =? 0) && negb (n =? 0) then strip_zeros f (n / 10) else n
  end.
(** The nearest multiple, of two equally near ones the even. *)
Definition round_div (v s : N) : N :=
  let q := v / s in let r := v mod s in
  if (s <? 2 * r) || ((2 * r =? s) && N.odd q) then q + 1 else q.
Definition six_digits (v : N) : list N :=
  if v <? 1000000 then print_dec v
  else
    let e := (List.length (print_dec v) - 1)%nat in
    let q := round_div v (10 ^ N.of_nat (e - 5)) in
    let '(q, e) := if q =? 1000000 then (100000, S e) else (q, e) in
    let exponent := print_dec (N.of_nat e) in
    match print_dec (strip_zeros 6 q) with
    | [] => []
    | [d] => [d] ++ str "e+" ++ (if (e <? 10)%nat then [48] else []) ++ exponent
    | d :: r => [d] ++ [46] ++ r ++ str "e+" ++ (if (e <? 10)%nat then [48] else []) ++ exponent
    end.
Definition time_text (d : Z) : list N :=
  if (d <? 0)%Z then 45 :: six_digits (Z.to_N (- d)) else six_digits (Z.to_N d).

(** ** Command line *)

(** quipper.cc:20-29, the flags. *)
Record flags := {
  fl_duration : Z; fl_perf_path : list N; fl_output : list N; fl_run_inject : bool; fl_inject_args : list N }.

(** What RecordPerf is called with. *)
Record demand := {
  de_duration : Z; de_perf : list (list N); de_inject : list (list N); de_output : list N }.

(** quipper_lib.cc:20-33, ParseOldPerfArguments, and quipper.cc:101-106. *)
Definition old_arguments (argv : list (list N)) : option demand :=
  match parse_old_arguments argv with
  | Some args =>
      Some {| de_duration := string_to_int (nth 1 argv []); de_perf := args; de_inject := [];
              de_output := str "/dev/stdout" |}
  | None => None
  end.

(** quipper.cc:31-64, ParsePerfArguments: the flags, and the arguments that are left,
    the first of which is the name of the program. *)
Definition new_arguments (f : flags) (argv : list (list N)) : option demand :=
  match argv with
  | _ :: ((_ :: _) as rest) =>
      let d := to_int (fl_duration f) in
      if (d <=? 0)%Z then None
      else
        let perf := match fl_perf_path f with [] => str "perf" | p => p end in
        match fl_output f with
        | [] => None
        | out =>
            if negb (fl_run_inject f) && match fl_inject_args f with [] => false | _ => true end then None
            else Some {| de_duration := d; de_perf := perf :: rest;
                         de_inject := if fl_run_inject f then perf :: split_string (fl_inject_args f) 59 else [];
                         de_output := out |}
        end
  | _ => None
  end.

Section Quipper.
(** [gflags]: ParseCommandLineFlags, the flags and the arguments without them; [None]
    where it ends the program, as for a flag it does not know. [run]: the exit status
    of a command. [tmp] and [tmp2]: the names of the temporary files. [content]: the
    message made of what perf has written, if it can be read. [put]: whether a file
    can be written. *)
Variables (gflags : list (list N) -> option (flags * list (list N))) (run : list (list N) -> Z).
Variables (tmp tmp2 : list N) (content : result -> option (list N)) (put : list N -> bool).

(** How the program ends: the commands that have been run, what BufferToFile was
    called with, and whether the exit status is EXIT_SUCCESS. *)
Record ended := { en_commands : list (list (list N)); en_write : option (list N * list N); en_success : outcome bool }.

(** quipper.cc:66-81, RecordPerf; perf_recorder.cc:96, the trusted program. Messages
    are left out; see C76 for those with a description of errno. *)
Definition record_to (d : demand) : ended :=
  let '(commands, res) :=
    record_perf [str "/usr/bin/perf"] run (time_text (de_duration d)) (time_text 0) tmp tmp2 (de_perf d) (de_inject d) in
  match res with
  | Ok r =>
      match content r with
      | Some data => {| en_commands := commands; en_write := Some (de_output d, data); en_success := Ok (put (de_output d)) |}
      | None => {| en_commands := commands; en_write := None; en_success := Ok false |}
      end
  | Fail => {| en_commands := commands; en_write := None; en_success := Ok false |}
  | Abort => {| en_commands := commands; en_write := None; en_success := Abort |}
  | UB => {| en_commands := commands; en_write := None; en_success := UB |}
  | Hang => {| en_commands := commands; en_write := None; en_success := Hang |}
  end.

(** quipper.cc:97-132, main. [argv] has the name of the program. *)
Definition quipper (argv : list (list N)) : ended :=
  let refused := {| en_commands := []; en_write := None; en_success := Ok false |} in
  match old_arguments argv with
  | Some d => record_to d
  | None =>
      match gflags argv with
      | None => refused
      | Some (f, rest) => match new_arguments f rest with Some d => record_to d | None => refused end
      end
  end.
End Quipper.
