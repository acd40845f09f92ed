(** How perf reads a command line, and which options may be used. *)
From Verif Require Import Base TextModel.
From Coq Require Import String.
Local Open Scope N_scope.
Local Open Scope list_scope.

(** The name and the value of "name=value". *)
Fixpoint before_eq (a : list N) : list N :=
  match a with [] => [] | c :: r => if c =? 61 then [] else c :: before_eq r end.
Fixpoint behind_eq (a : list N) : option (list N) :=
  match a with [] => None | c :: r => if c =? 61 then Some r else behind_eq r end.

(** An option starts with '-' and is not "-" alone. *)
Definition looks_like_option (a : list N) : bool :=
  match a with c :: _ :: _ => c =? 45 | _ => false end.

(** perf (as getopt_long) reads options up to "--" or the first other word; what
    is left is the command it runs. "name=value" carries its value. [takes o] says
    that option [o] takes the next word as its value if it carries none. *)
Fixpoint reads (takes : list N -> bool) (args : list (list N)) : list (list N * option (list N)) * list (list N) :=
  match args with
  | [] => ([], [])
  | a :: r =>
      if list_eqb a (str "--") then ([], r)
      else if negb (looks_like_option a) then ([], args)
      else match behind_eq a with
           | Some v => let '(o, c) := reads takes r in ((before_eq a, Some v) :: o, c)
           | None =>
               if takes a
               then match r with
                    | [] => ([(a, None)], [])
                    | v :: r' => let '(o, c) := reads takes r' in ((a, Some v) :: o, c)
                    end
               else let '(o, c) := reads takes r in ((a, None) :: o, c)
           end
  end.

(** A perf command is a subcommand with options and a command to run. perf mem has
    options of its own, and "record" stands in front of those of perf record. *)
Record perf_run := mkRun {
  run_sub : list N;
  run_mem : list (list N * option (list N));      (* the options of perf mem *)
  run_options : list (list N * option (list N));
  run_command : list (list N) }.
Definition perf_reads (takes : list N -> list N -> bool) (words : list (list N)) : option perf_run :=
  match words with
  | [] => None
  | sub :: r =>
      if list_eqb sub (str "mem") then
        let '(o, c) := reads (takes sub) r in
        match c with
        | w :: r' => if list_eqb w (str "record")
                     then let '(o', c') := reads (takes w) r' in Some (mkRun sub o o' c') else None
        | [] => None
        end
      else let '(o, c) := reads (takes sub) r in Some (mkRun sub [] o c)
  end.

(** Options that choose or write files, run commands or change what is printed:
    comments of src/quipper/perf_option_parser.cc. *)
Definition banned (sub : list N) : list (list N) :=
  if list_eqb sub (str "record") then
    [str "--no-buffering"; str "-o"; str "--output"; str "-m"; str "--mmap-pages"; str "-v"; str "--verbose";
     str "-q"; str "--quiet"; str "-D"; str "--no-delay"; str "--delay"; str "--per-thread"; str "--force-per-cpu";
     str "-I"; str "--intr-regs"]
  else if list_eqb sub (str "stat") then
    [str "-v"; str "--verbose"; str "-r"; str "--repeat"; str "-n"; str "--null"; str "-d"; str "--detailed";
     str "-S"; str "--sync"; str "-B"; str "--big-num"; str "-x"; str "--field-separator"; str "-o"; str "--output";
     str "--append"; str "--log-fd"; str "--pre"; str "--post"; str "-I"; str "--interval-print"]
  else if list_eqb sub (str "inject") then
    [str "-v"; str "--verbose"; str "-i"; str "--input"; str "-o"; str "--output"; str "-f"; str "--force"]
  else [].
(** The options of perf mem record are those of perf record. *)
Definition options_of (sub : list N) : list N := if list_eqb sub (str "mem") then str "record" else sub.

(** A command the recorder may run: perf with allowed options [o], its own
    output file and, but for perf inject, "sleep" for the given time. *)
Definition words := list (list N).
Definition own_options (sub out : list N) (input : option (list N)) : list (list N * option (list N)) :=
  [(str "-o", Some out)] ++ (if list_eqb sub (str "stat") then [(str "-v", None)] else []) ++
  match input with Some i => [(str "-f", None); (str "-i", Some i)] | None => [] end.
Definition workload (time : list N) (input : option (list N)) : words :=
  match input with Some _ => [] | None => [str "sleep"; time] end.
