(** What a conversion is, and how its command line is written. *)
From Coq Require Import String.
From Verif Require Import Base TextModel ToolModel ConvertModel.
Local Open Scope N_scope.
Local Open Scope list_scope.

(** The three formats, and for the input what can be asked of the parser. *)
Inductive base := Perf | Text | Proto.
Definition base_name (b : base) : list N := match b with Perf => str "perf" | Text => str "text" | Proto => str "proto" end.
Definition input_formats : list (list N * (base * parser_options)) :=
  flat_map (fun b =>
    [ (base_name b,                         (b, {| po_remap := false; po_discard := false; po_combine := true |}));
      (base_name b ++ str ".remap",         (b, {| po_remap := true; po_discard := false; po_combine := true |}));
      (base_name b ++ str ".discard",       (b, {| po_remap := false; po_discard := true; po_combine := true |}));
      (base_name b ++ str ".remap.discard", (b, {| po_remap := true; po_discard := true; po_combine := true |}));
      (base_name b ++ str ".no_combine",    (b, {| po_remap := false; po_discard := false; po_combine := false |})) ])
    [Perf; Text; Proto].

Section Conversion.
Variable recording : Type.
Variables (read of_text of_proto : list N -> outcome recording).
Variables (parse : parser_options -> recording -> outcome recording).
Variables (write to_text to_proto : recording -> outcome (list N)).

Definition load (b : base) : list N -> outcome recording := match b with Perf => read | Text => of_text | Proto => of_proto end.
Definition save (b : base) : recording -> outcome (list N) := match b with Perf => write | Text => to_text | Proto => to_proto end.

(** [out] is the conversion of the file [i]: read it as its format says, parse it with
    the options of the format, write it in the other format. *)
Definition conversion (f : files) (i o : format_and_file) (out : list N) : Prop :=
  exists b options b' data r r',
    In (ff_format i, (b, options)) input_formats /\ ff_format o = base_name b' /\
    fl_data f (ff_file i) = Some data /\ fl_readable f (ff_file i) = true /\
    load b data = Ok r /\ parse options r = Ok r' /\ save b' r' = Ok out.
End Conversion.

(** A command line as a list of settings: the letter of an option and its value, as
    two words or as one, and words that are no options. *)
Inductive written : list (N * list N) -> list (list N) -> Prop :=
  | Written_none : written [] []
  | Written_apart c v l args : In c [105; 73; 111; 79; 118] ->
      written l args -> written ((c, v) :: l) ([45; c] :: v :: args)
  | Written_joined c v l args : In c [105; 73; 111; 79; 118] -> v <> [] ->
      written l args -> written ((c, v) :: l) ((45 :: c :: v) :: args)
  | Written_word w l args : nth_error w 0 <> Some 45 -> written l args -> written l (w :: args).
(** The last value of an option counts. *)
Fixpoint setting (c : N) (default : list N) (l : list (N * list N)) : list N :=
  match l with [] => default | (c', v) :: r => setting c (if c' =? c then v else default) r end.
