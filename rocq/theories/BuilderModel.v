(** Model of src/builder.{h,cc}. *)
From Coq Require Import String.
From Verif Require Import Base BytesModel TextModel Assoc ProfileModel.
Local Open Scope N_scope.
Local Open Scope list_scope.

(** builder.h:110-118: strings_, functions_, profile_ and whether error_ is
    non-empty (its text is only logged). *)
Record builder := {
  b_strings : list (list N * Z);
  b_functions : list ((Z * Z * Z * Z) * Z);
  b_profile : profile;
  b_error : bool }.

Definition with_profile (b : builder) (p : profile) : builder :=
  {| b_strings := b_strings b; b_functions := b_functions b; b_profile := p;
     b_error := b_error b |}.

(** builder.cc:54-57, Builder::Builder. *)
Definition builder0 : builder :=
  {| b_strings := []; b_functions := [];
     b_profile := set_string [[]] profile0; b_error := false |}.

(** builder.cc:66-75, InternalStringId. The table size is an int, taken as
    unbounded (2^31 strings do not fit a protobuf message). *)
Definition internal_string_id (b : builder) (s : list N) : builder * Z :=
  let index := Z.of_nat (List.length (pf_string (b_profile b))) in
  let '(m, v, inserted) := aemplace list_eqb s index (b_strings b) in
  if inserted then
    ({| b_strings := m; b_functions := b_functions b;
        b_profile := set_string (pf_string (b_profile b) ++ [s]) (b_profile b);
        b_error := b_error b |}, index)
  else (b, v).

(** builder.cc:59-64, StringId(string_view); builder.h:50-52 (a null pointer is
    the empty string). *)
Definition string_id (b : builder) (s : list N) : builder * Z :=
  match s with
  | [] => (b, 0%Z)
  | _ => internal_string_id b s
  end.

Definition tuple4_eqb (x y : Z * Z * Z * Z) : bool :=
  let '(a, b, c, d) := x in
  let '(a', b', c', d') := y in
  (Z.eqb a a') && (Z.eqb b b') && (Z.eqb c c') && (Z.eqb d d').

(** builder.cc:77-101, FunctionId. The arguments are C strings, i.e. without NUL
    bytes. *)
Definition function_id (b : builder) (name sys file : list N) (line : Z) : builder * Z :=
  let '(b, ni) := string_id b name in
  let '(b, si) := string_id b sys in
  let '(b, fi) := string_id b file in
  let index := (Z.of_nat (List.length (pf_function (b_profile b))) + 1)%Z in
  let '(m, v, inserted) := aemplace tuple4_eqb (ni, si, fi, line) index (b_functions b) in
  if inserted then
    let fn := {| fn_id := Z.to_N index; fn_name := ni; fn_sys := si; fn_file := fi; fn_start := line |} in
    ({| b_strings := b_strings b; b_functions := m;
        b_profile := set_function (pf_function (b_profile b) ++ [fn]) (b_profile b);
        b_error := b_error b |}, index)
  else (b, v).

(** builder.cc:103-117, SetDocURL. [url.compare(0, n, k) != 0] is "does not start
    with k". *)
Definition set_url (b : builder) (url : list N) : builder :=
  if negb (match url with [] => true | _ => false end)
     && negb (starts_with (str "http://") url) && negb (starts_with (str "https://") url)
  then {| b_strings := b_strings b; b_functions := b_functions b;
          b_profile := b_profile b; b_error := true |}
  else let '(b1, i) := internal_string_id b url in
       with_profile b1 (set_doc_url i (b_profile b1)).

(** Conversion of an int64 to int (two's complement, as on every supported
    target). *)
Definition to_int32 (z : Z) : Z := ((z + 2147483648) mod 4294967296 - 2147483648)%Z.

(** builder.cc:165-176 and 178-189: collecting the non-zero ids, [None] on a
    duplicate. The detour of the uint64 ids through int64_t is the identity. *)
Fixpoint collect_ids (seen : list N) (ids : list N) : option (list N) :=
  match ids with
  | [] => Some seen
  | i :: r =>
      if i =? 0 then collect_ids seen r
      else if mem_by N.eqb i seen then None else collect_ids (i :: seen) r
  end.

(** builder.cc:207-213. *)
Fixpoint check_lines (fns : list N) (ls : list pline) : bool :=
  match ls with
  | [] => true
  | l :: r =>
      if negb (ln_fn l =? 0) && negb (mem_by N.eqb (ln_fn l) fns) then false
      else check_lines fns r
  end.

(** builder.cc:191-214. *)
Fixpoint check_locations (maps fns seen : list N) (ls : list plocation) : option (list N) :=
  match ls with
  | [] => Some seen
  | l :: r =>
      let id := lc_id l in
      if negb (id =? 0) && mem_by N.eqb id seen then None
      else
        let seen := if id =? 0 then seen else id :: seen in
        if negb (lc_mapping l =? 0) && negb (mem_by N.eqb (lc_mapping l) maps) then None
        else if check_lines fns (lc_line l) then check_locations maps fns seen r
        else None
  end.

(** builder.cc:229-235: the set holds [int]s. *)
Fixpoint collect_types (seen : list Z) (ts : list vtype) : option (list Z) :=
  match ts with
  | [] => Some seen
  | t :: r =>
      let x := to_int32 (vt_type t) in
      if mem_by Z.eqb x seen then None else collect_types (x :: seen) r
  end.

(** builder.cc:248-258. *)
Fixpoint check_sample_locs (locs : list N) (l : list N) : bool :=
  match l with
  | [] => true
  | i :: r =>
      if i =? 0 then false
      else if negb (mem_by N.eqb i locs) then false
      else check_sample_locs locs r
  end.

(** builder.cc:260-267. *)
Fixpoint check_labels (l : list label) : bool :=
  match l with
  | [] => true
  | x :: r =>
      if negb (Z.eqb (lb_str x) 0) && negb (Z.eqb (lb_num x) 0) then false
      else check_labels r
  end.

(** builder.cc:242-268. *)
Fixpoint check_samples (nt : nat) (locs : list N) (l : list psample) : bool :=
  match l with
  | [] => true
  | s :: r =>
      if negb (List.length (ps_val s) =? nt)%nat then false
      else if negb (check_sample_locs locs (ps_loc s)) then false
      else if negb (check_labels (ps_label s)) then false
      else check_samples nt locs r
  end.

(** builder.cc:164-270, CheckValid. *)
Definition check_valid (p : profile) : bool :=
  match collect_ids [] (map mp_id (pf_mapping p)) with
  | None => false
  | Some maps =>
  match collect_ids [] (map fn_id (pf_function p)) with
  | None => false
  | Some fns =>
  match check_locations maps fns [] (pf_location p) with
  | None => false
  | Some locs =>
  if (List.length (pf_sample_type p) =? 0)%nat then false
  else
    let dst := to_int32 (pf_default_type p) in
    if (dst <=? 0)%Z || (Z.of_nat (List.length (pf_string p)) <=? dst)%Z then false
    else
      match collect_types [] (pf_sample_type p) with
      | None => false
      | Some types =>
          if mem_by Z.eqb dst types then
            check_samples (List.length (pf_sample_type p)) locs (pf_sample p)
          else false
      end
  end end end.

(** builder.cc:287-298: one sample's addresses; [m] is address_to_id. *)
Fixpoint intern_addresses (m : list (N * N)) (locs : list plocation) (addrs : list N)
  : list (N * N) * list plocation * list N :=
  match addrs with
  | [] => (m, locs, [])
  | a :: r =>
      let index := N.of_nat (List.length m) + 1 in
      let '(m, v, inserted) := aemplace N.eqb a index m in
      let locs := if inserted
                  then locs ++ [{| lc_id := index; lc_mapping := 0; lc_addr := a; lc_line := [] |}]
                  else locs in
      let '(m, locs, ids) := intern_addresses m locs r in
      (m, locs, v :: ids)
  end.

(** builder.cc:284-299. *)
Fixpoint intern_samples (m : list (N * N)) (locs : list plocation) (ss : list psample)
  : list plocation * list psample :=
  match ss with
  | [] => (locs, [])
  | s :: r =>
      let '(m, locs, ids) := intern_addresses m locs (ps_loc s) in
      let '(locs, r') := intern_samples m locs r in
      (locs, {| ps_loc := ids; ps_val := ps_val s; ps_label := ps_label s |} :: r')
  end.

(** builder.cc:281-300. *)
Definition create_locations (p : profile) : profile :=
  match pf_location p with
  | [] => let '(locs, ss) := intern_samples [] [] (pf_sample p) in
          set_sample ss (set_location locs p)
  | _ => p
  end.

(** builder.cc:304-308. *)
Fixpoint build_mapping_map (ms : list pmapping) (m : list (N * (N * N))) : list (N * (N * N)) :=
  match ms with
  | [] => m
  | x :: r => build_mapping_map r (omset (mp_start x) (mp_limit x, mp_id x) m)
  end.

(** builder.cc:310-325, body of the loop. *)
Definition assign_mapping (m : list (N * (N * N))) (l : plocation) : plocation :=
  if negb (lc_addr l =? 0) && (lc_mapping l =? 0) then
    match omfloor (lc_addr l) m with
    | None => l
    | Some (_, (limit, id)) =>
        if lc_addr l <=? limit
        then {| lc_id := lc_id l; lc_mapping := id; lc_addr := lc_addr l; lc_line := lc_line l |}
        else l
    end
  else l.

(** builder.cc:303-326. *)
Definition assign_mappings (p : profile) : profile :=
  match pf_mapping p with
  | [] => p
  | ms => set_location (map (assign_mapping (build_mapping_map ms [])) (pf_location p)) p
  end.

(** builder.cc:275-328, Finalize: the builder afterwards and the result. *)
Definition finalize (b : builder) : builder * bool :=
  if b_error b then (b, false)
  else
    let p := assign_mappings (create_locations (b_profile b)) in
    (with_profile b p, check_valid p).

(** builder.cc:39-52, AddCallstackToSample; [stack] holds at least [depth]
    pointers, so the frames read are a list; pointer minus one wraps. *)
Definition add_callstack (s : psample) (stack : list N) (interrupt : bool) : psample :=
  match stack with
  | [] => s
  | a :: r =>
      {| ps_loc := ps_loc s ++ (if interrupt then a else sub64 a 1)
                     :: map (fun x => sub64 x 1) r;
         ps_val := ps_val s; ps_label := ps_label s |}
  end.

(** Calls a client makes on a Builder; [BEdit] stands for any direct edit through
    mutable_profile (builder.h:101-105), which must leave string_table and
    function alone. *)
Inductive bop :=
| BString (s : list N)
| BFunction (name sys file : list N) (line : Z)
| BUrl (url : list N)
| BEdit (f : profile -> profile)
| BFinalize.

Definition bstep (b : builder) (o : bop) : builder :=
  match o with
  | BString s => fst (string_id b s)
  | BFunction n s f l => fst (function_id b n s f l)
  | BUrl u => set_url b u
  | BEdit f => with_profile b (f (b_profile b))
  | BFinalize => fst (finalize b)
  end.

Definition brun (b : builder) (os : list bop) : builder := fold_left bstep os b.
