(** Vocabulary for the Builder properties (C14-C17). *)
From Verif Require Import Base BytesModel TextModel ProfileModel BuilderModel.
Local Open Scope N_scope.

(** Client operations that respect the documented contract (builder.h:101-104):
    direct edits leave the string and function tables alone. *)
Definition op_ok (o : bop) : Prop :=
  match o with
  | BEdit f => forall p, pf_string (f p) = pf_string p /\ pf_function (f p) = pf_function p
  | _ => True
  end.

(** A builder some client program can have. *)
Definition reachable (b : builder) : Prop :=
  exists os, Forall op_ok os /\ b = brun builder0 os.

(** [b'] is a later state of the builder [b]. *)
Definition later (b b' : builder) : Prop :=
  exists os, Forall op_ok os /\ b' = brun b os.

(** The string an index denotes. *)
Definition string_at (b : builder) (i : Z) : option (list N) :=
  if (0 <=? i)%Z then nth_error (pf_string (b_profile b)) (Z.to_nat i) else None.

(** The function record at a (1-based) id. *)
Definition function_at (b : builder) (i : Z) : option pfunction :=
  if (1 <=? i)%Z then nth_error (pf_function (b_profile b)) (Z.to_nat (i - 1)) else None.

(** No non-zero id occurs twice. *)
Definition unique_nonzero (ids : list N) : Prop :=
  forall i j x, i <> j -> nth_error ids i = Some x -> nth_error ids j = Some x -> x = 0.

(** Internal consistency of a profile, as a client understands it; [cast] is how
    the sample type indices are compared. *)
Record consistent (cast : Z -> Z) (p : profile) : Prop := {
  con_mappings : unique_nonzero (map mp_id (pf_mapping p));
  con_functions : unique_nonzero (map fn_id (pf_function p));
  con_locations : unique_nonzero (map lc_id (pf_location p));
  con_loc_mapping : forall l, In l (pf_location p) ->
    lc_mapping l = 0 \/ exists m, In m (pf_mapping p) /\ mp_id m = lc_mapping l;
  con_line_function : forall l ln, In l (pf_location p) -> In ln (lc_line l) ->
    ln_fn ln = 0 \/ exists f, In f (pf_function p) /\ fn_id f = ln_fn ln;
  con_types : pf_sample_type p <> [];
  con_default : (0 < cast (pf_default_type p) < Z.of_nat (List.length (pf_string p)))%Z;
  con_types_distinct : NoDup (map (fun t => cast (vt_type t)) (pf_sample_type p));
  con_default_type : exists t, In t (pf_sample_type p) /\
    cast (vt_type t) = cast (pf_default_type p);
  con_values : forall s, In s (pf_sample p) ->
    List.length (ps_val s) = List.length (pf_sample_type p);
  con_sample_locations : forall s i, In s (pf_sample p) -> In i (ps_loc s) ->
    i <> 0 /\ exists l, In l (pf_location p) /\ lc_id l = i;
  con_labels : forall s x, In s (pf_sample p) -> In x (ps_label s) ->
    lb_str x = 0%Z \/ lb_num x = 0%Z }.

(** [m] is the mapping of the table [ms] in charge of address [a]: its start is
    the greatest one not above [a]; among equal starts the last one counts. *)
Definition in_charge (ms : list pmapping) (a : N) (m : pmapping) : Prop :=
  mp_start m <= a /\
  exists pre post, ms = pre ++ m :: post /\
    (forall x, In x pre -> mp_start x <= a -> mp_start x <= mp_start m) /\
    (forall x, In x post -> mp_start x <= a -> mp_start x < mp_start m).

(** The address a location id stands for. *)
Definition address_of (p : profile) (id : N) (a : N) : Prop :=
  exists l, In l (pf_location p) /\ lc_id l = id /\ lc_addr l = a.

(** The operation is not SetDocURL(""). *)
Definition no_empty_url (o : bop) : Prop := match o with BUrl [] => False | _ => True end.

(** Values of the C++ type int. *)
Definition int_range (z : Z) : Prop := (-2147483648 <= z < 2147483648)%Z.
