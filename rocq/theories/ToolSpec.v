(** C70: what perf_to_profile is asked to do, and the wire format of protobuf. *)
From Coq Require Import String.
From Verif Require Import Base BytesModel TextModel PerfProto.
Local Open Scope N_scope.
Local Open Scope list_scope.

(** ** Command lines *)

(** -f and -j, joined as one likes; then, in the same word, -i or -o with the value
    joined to it or in the next word; or an operand. *)
Inductive flag := FlagF | FlagJ.
Inductive file_option := OptI | OptO.
Inductive word :=
  | Flags (l : list flag)
  | WithFile (l : list flag) (o : file_option) (joined : bool) (name : list N)
  | Operand (text : list N).

Definition flag_letter (x : flag) : N := match x with FlagF => 102 | FlagJ => 106 end.
Definition file_letter (o : file_option) : N := match o with OptI => 105 | OptO => 111 end.
Definition typed (w : word) : list (list N) :=
  match w with
  | Flags l => [str "-" ++ map flag_letter l]
  | WithFile l o joined name =>
      if joined then [str "-" ++ map flag_letter l ++ [file_letter o] ++ name]
      else [str "-" ++ map flag_letter l ++ [file_letter o]; name]
  | Operand t => [t]
  end.
(** A value that is joined is not empty; an operand does not look like options. *)
Definition proper_word (w : word) : Prop :=
  match w with
  | Flags l => l <> []
  | WithFile _ _ joined name => joined = true -> name <> []
  | Operand t => t = str "-" \/ forall r, t <> str "-" ++ r
  end.
(** "--" may follow, with more operands. *)
Inductive rest : list (list N) -> Prop :=
  | rest_none : rest []
  | rest_operands l : rest (str "--" :: l).

(** The name last given; whether a flag was given. *)
Definition same_option (a b : file_option) : bool :=
  match a, b with OptI, OptI | OptO, OptO => true | _, _ => false end.
Definition last_name (o : file_option) (ws : list word) : list N :=
  last (flat_map (fun w => match w with WithFile _ q _ name => if same_option o q then [name] else [] | _ => [] end) ws) [].
Definition has_flag (x : flag) (ws : list word) : bool :=
  existsb (fun w => match w with
                    | Flags l | WithFile l _ _ _ => existsb (fun y => match x, y with FlagF, FlagF | FlagJ, FlagJ => true | _, _ => false end) l
                    | Operand _ => false
                    end) ws.

(** ** Wire format of protobuf (protobuf.dev/programming-guides/encoding) *)

(** A number in at most [n] bytes. *)
Fixpoint varint (n : nat) (l : list N) : option (N * list N) :=
  match n, l with
  | S n, b :: r =>
      if b <? 128 then Some (b, r)
      else match varint n r with Some (v, r) => Some (b - 128 + 128 * v, r) | None => None end
  | _, _ => None
  end.
Definition take (n : N) (l : list N) : option (list N * list N) :=
  if len l <? n then None else Some (firstn (N.to_nat n) l, skipn (N.to_nat n) l).

(** A field: number, kind, and its bytes if it is a string, bytes or a message (kind 2). *)
Record wire_field := { wf_number : N; wf_kind : N; wf_bytes : list N }.

(** The fields of a message up to its end, or to the end of group [group]; [None]: not
    the bytes of a message. A tag is a number of 32 bits in at most 5 bytes, not below 8.
    Groups may be nested without limit here, which the library does not allow. *)
Fixpoint wire_fields (fuel : nat) (group : option N) (l : list N) : option (list wire_field * list N) :=
  match fuel with
  | O => None
  | S fuel =>
      match l with
      | [] => match group with None => Some ([], []) | Some _ => None end
      | _ =>
          match varint 5 l with
          | None => None
          | Some (tag, l) =>
              let tag := tag mod 2 ^ 32 in
              let number := tag / 8 in
              let more b l := match wire_fields fuel group l with
                              | Some (fs, l) => Some ({| wf_number := number; wf_kind := tag mod 8; wf_bytes := b |} :: fs, l)
                              | None => None
                              end in
              if number =? 0 then None
              else
                match tag mod 8 with
                | 0 => match varint 10 l with Some (_, l) => more [] l | None => None end
                | 1 => match take 8 l with Some (_, l) => more [] l | None => None end
                | 2 => match varint 5 l with
                       | Some (n, l) => match take n l with Some (b, l) => more b l | None => None end
                       | None => None
                       end
                | 3 => match wire_fields fuel (Some number) l with Some (_, l) => more [] l | None => None end
                | 4 => match group with
                       | Some g => if g =? number then Some ([], l) else None
                       | None => None
                       end
                | 5 => match take 4 l with Some (_, l) => more [] l | None => None end
                | _ => None
                end
          end
      end
  end.
Definition message_fields (l : list N) : option (list wire_field) :=
  match wire_fields (S (List.length l)) None l with Some (fs, _) => Some fs | None => None end.

(** What the bytes of a PerfDataProto are at least: a message, whose event_types (field
    10, perf_data.proto:1063) are messages. Left open: what the messages in other fields
    are. *)
Definition maybe_proto (l : list N) : Prop :=
  exists fs, message_fields l = Some fs /\
    forall f, In f fs -> wf_number f = 10 -> wf_kind f = 2 -> message_fields (wf_bytes f) <> None.

(** Fields of PerfDataProto: perf_data.proto:1060-1134, 1 to 17 but 6. *)
Definition known_field (n : N) : bool := (1 <=? n) && (n <=? 17) && negb (n =? 6).

(** What is used of the protobuf library: it accepts only what a proto can be, and a
    message (of less than 1 GB, without groups) without known fields is an empty proto. *)
Definition empty_proto : perf_proto :=
  {| pp_attrs := []; pp_events := []; pp_types := []; pp_build_ids := []; pp_version := None; pp_command := None |}.
Definition protobuf (decode : list N -> option perf_proto) : Prop :=
  (forall l p, decode l = Some p -> maybe_proto l) /\
  (forall l fs, len l < 2 ^ 30 -> message_fields l = Some fs ->
     (forall f, In f fs -> known_field (wf_number f) = false /\ wf_kind f <> 3) -> decode l = Some empty_proto).
