(** Model of src/quipper/perf_stat_parser.cc. *)
From Verif Require Import Base BytesModel TextModel.
From Coq Require Import String.
Local Open Scope N_scope.
Local Open Scope list_scope.

(** perf_stat.proto: PerfStatProto.PerfStatLine. *)
Record stat_line := mkStatLine { sl_name : list N; sl_count : N; sl_time : option N }.

Section Parser.
(** perf_stat_parser.cc:69-80, SecondsStringToMillisecondsUint64: an arbitrary
    function of the text ([None] if it returns false). It reads a double; its
    rounding and the conversion of what is too large are not modelled. *)
Variable to_ms : list N -> option N.

(** perf_stat_parser.cc:34-60, body of the loop: the lines so far and the time
    so far. back() of an empty first token is undefined. *)
Definition stat_step (st : list stat_line * N) (line : list N) : outcome (list stat_line * N) :=
  let '(out, time) := st in
  match split_string (trim_whitespace line) 32 with
  | [first; second; third; fourth] =>
      match rev first with
      | [] => UB
      | last :: _ =>
          if last =? 58 then
            let '(count, rest) := strtoul 10 (c_str second) in
            match rest with
            | [] =>
                let out' := out ++ [mkStatLine (removelast first) count None] in
                if list_eqb second (str "seconds")
                then Ok (out', match to_ms first with Some t => t | None => 0 end)
                else Ok (out', time)
            | _ => Ok (out, time)
            end
          else if list_eqb second (str "seconds")
               then Ok (out, match to_ms first with Some t => t | None => 0 end)
               else Ok (out, time)
      end
  | _ => Ok (out, time)
  end.

Fixpoint stat_loop (st : list stat_line * N) (lines : list (list N)) : outcome (list stat_line * N) :=
  match lines with
  | [] => Ok st
  | l :: r => let! st' := stat_step st l in stat_loop st' r
  end.

(** perf_stat_parser.cc:29-67, ParsePerfStatOutputToProto into an empty message. *)
Definition parse_stat (data : list N) : outcome (list stat_line) :=
  let! st := stat_loop ([], 0) (split_string data 10) in
  let '(out, time) := st in
  let out' := if time =? 0 then out else map (fun l => mkStatLine (sl_name l) (sl_count l) (Some time)) out in
  match out' with [] => Fail | _ => Ok out' end.
End Parser.
