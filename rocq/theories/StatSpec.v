(** What perf stat prints. *)
From Verif Require Import Base TextModel TextSpec StatModel.
From Coq Require Import String.
Local Open Scope N_scope.
Local Open Scope list_scope.

(** A line of the output: the count of an event with two more fields ("name:
    count x y"), the time, four other fields, or a line that does not have four
    fields. *)
Inductive printed :=
| PCount (name : list N) (count : N) (x y : list N)
| PTime (seconds : list N)
| PFour (a b c d : list N)
| POther (text : list N).

(** No blanks, tabs or line ends. *)
Definition word (t : list N) : Prop := t <> [] /\ Forall (fun c => is_trim_ws c = false) t.

(** The number of blanks inside a line without blanks at its ends. *)
Definition blanks (t : list N) : nat := List.length (filter (N.eqb 32) t).
Definition printable (p : printed) : Prop :=
  match p with
  | PCount name count x y => word name /\ count < two64 /\ word x /\ word y
  | PTime s => word s /\ last s 0 <> 58
  | PFour a b c d => word a /\ word b /\ word c /\ word d /\
      ((last a 0 <> 58 /\ b <> str "seconds") \/ hd 0 b = 60)  (* "<not supported>" *)
  | POther t => ~ In 10 t /\ (t = [] \/ (is_trim_ws (hd 32 t) = false /\ is_trim_ws (last t 32) = false /\ blanks t <> 3%nat))
  end.
Definition line_text (p : printed) : list N :=
  match p with
  | PCount name count x y => name ++ str ": " ++ print_dec count ++ [32] ++ x ++ [32] ++ y
  | PTime s => s ++ str " seconds time elapsed"
  | PFour a b c d => a ++ [32] ++ b ++ [32] ++ c ++ [32] ++ d
  | POther t => t
  end.
(** White space in front of a line. *)
Definition indent (t : list N) : Prop := Forall (fun c => c = 32 \/ c = 9 \/ c = 13) t.
Definition output_text (l : list (list N * printed)) : list N :=
  flat_map (fun x => fst x ++ line_text (snd x) ++ [10]) l.

Definition counts (l : list printed) : list (list N * N) :=
  flat_map (fun p => match p with PCount n c _ _ => [(n, c)] | _ => [] end) l.
(** The last time printed. *)
Definition last_time (to_ms : list N -> option N) (l : list printed) : N :=
  fold_left (fun t p => match p with PTime s => match to_ms s with Some x => x | None => 0 end | _ => t end) l 0.
