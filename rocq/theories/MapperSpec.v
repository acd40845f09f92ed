(** Specification for AddressMapper (C12, C13): what is mapped, without the
    synthetic addresses. *)
From Verif Require Import Base BytesModel MapperModel.
Local Open Scope N_scope.

(** A call MapWithID(start, size, id, offset_base). *)
Record call := mkCall { c_start : N; c_size : N; c_id : N; c_off : N }.

Definition c_end (c : call) : N := c_start c + c_size c.
Definition in_call (x : N) (c : call) : Prop := c_start c <= x < c_end c.
Definition in_callb (x : N) (c : call) : bool := (c_start c <=? x) && (x <? c_end c).
Definition overlapb (a b : call) : bool := (c_start a <? c_end b) && (c_start b <? c_end a).
Definition overlap (a b : call) : Prop := c_start a < c_end b /\ c_start b < c_end a.

(** The old piece [f] when [c] is mapped: untouched if they do not overlap; if
    [f] strictly contains [c] (is larger and covers it), what sticks out on
    either side stays; otherwise [f] is dropped altogether. *)
Definition cut (c f : call) : list call :=
  if negb (overlapb f c) then [f]
  else if (c_start f <=? c_start c) && (c_end c <=? c_end f) && (c_size c <? c_size f) then
    (if c_start f <? c_start c
     then [mkCall (c_start f) (c_start c - c_start f) (c_id f) (c_off f)] else []) ++
    (if c_end c <? c_end f
     then [mkCall (c_end c) (c_end f - c_end c) (c_id f)
             ((c_off f + (c_end c - c_start f)) mod two64)] else [])
  else [].

(** The pieces mapped after a history of calls. *)
Definition pieces_step (ps : list call) (c : call) : list call := c :: flat_map (cut c) ps.
Definition pieces (h : list call) : list call := fold_left pieces_step h [].

(** The id and file offset of an address according to the pieces. *)
Definition resolve (ps : list call) (x : N) : option (N * N) :=
  match find (in_callb x) ps with
  | Some c => Some (c_id c, (x - c_start c + c_off c) mod two64)
  | None => None
  end.

(** A call that stays inside the address space. *)
Definition call_ok (c : call) : Prop :=
  0 < c_size c /\ c_end c < two64 /\ c_off c < two64.

(** Running a history on the model; [Some m] if every call returns true. *)
Fixpoint run_calls (m : mapper) (h : list call) : option mapper :=
  match h with
  | [] => Some m
  | c :: r =>
      match map_with_id m (c_start c) (c_size c) (c_id c) (c_off c) true with
      | Ok (true, m') => run_calls m' r
      | _ => None
      end
  end.

(** End of the used part of the synthetic address space. *)
Fixpoint top_of (l : list range) : N :=
  match l with [] => 0 | e :: r => N.max (r_mapped e + r_size e) (top_of r) end.

Definition as_call (e : range) : call := mkCall (r_real e) (r_size e) (r_id e) (r_off e).

(** There is room for [c] above everything that stays mapped: the size of [c], or
    of the piece it splits, plus page padding. *)
Definition roomy (m : mapper) (c : call) : Prop :=
  let stay := filter (fun e => negb (overlapb (as_call e) c)) (m_ranges m) in
  forall n, (n = c_size c \/ exists e, In e (m_ranges m) /\ overlap (as_call e) c /\ n = r_size e) ->
    top_of stay + n + 6 * m_align m < two64.

(** Every call of the history finds room when it is made. *)
Fixpoint all_roomy (m : mapper) (h : list call) : Prop :=
  match h with
  | [] => True
  | c :: r =>
      roomy m c /\
      forall m', map_with_id m (c_start c) (c_size c) (c_id c) (c_off c) true = Ok (true, m') ->
        all_roomy m' r
  end.

(** Alignments the constructor accepts. *)
Definition align_ok (a : N) : Prop := a = 0 \/ exists k, k < 64 /\ a = 2 ^ k.

(** The last call of the history that covers x. *)
Definition last_covering (h : list call) (x : N) : option call := find (in_callb x) (rev h).

(** A history that cannot run out of synthetic addresses. *)
Definition history_fits (align : N) (h : list call) : Prop :=
  exists B, (forall c, In c h -> c_size c <= B) /\
    N.of_nat (length h) * (B + 6 * align) < two64.
