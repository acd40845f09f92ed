(** C14-C17, C47: the profile Builder (src/builder.cc). *)
From Coq Require Import String.
From Verif Require Import Base BytesModel TextModel Assoc ProfileModel BuilderModel BuilderSpec
  BuilderProofs BuilderValidProofs.
Local Open Scope N_scope.
Local Open Scope list_scope.

(** C14. Entry 0 of the string table is the empty string. *)
Theorem C14_first_string_empty (b : builder) : reachable b -> string_at b 0 = Some [].
Proof. exact (first_string_empty b). Qed.
Print Assumptions C14_first_string_empty.

(** C14. StringId returns an index holding exactly the given string. *)
Theorem C14_id_denotes_string (b : builder) (s : list N) (b' : builder) (i : Z) :
  reachable b -> string_id b s = (b', i) -> string_at b' i = Some s.
Proof. exact (string_id_denotes b s b' i). Qed.
Print Assumptions C14_id_denotes_string.

(** C14. What an index denotes never changes later. *)
Theorem C14_ids_are_stable (b b' : builder) (i : Z) (s : list N) :
  reachable b -> later b b' -> string_at b i = Some s -> string_at b' i = Some s.
Proof. exact (string_at_later b b' i s). Qed.
Print Assumptions C14_ids_are_stable.

(** C14. Ids handed out at any two moments agree exactly for equal strings. *)
Theorem C14_equal_ids_iff_equal_strings
  (b : builder) (s : list N) (b1 : builder) (i : Z) (b2 : builder) (t : list N) (b3 : builder) (j : Z) :
  reachable b -> string_id b s = (b1, i) -> later b1 b2 -> string_id b2 t = (b3, j) ->
  (i = j <-> s = t).
Proof. exact (string_ids_agree b s b1 i b2 t b3 j). Qed.
Print Assumptions C14_equal_ids_iff_equal_strings.

(** C14. The table has no duplicates as long as SetDocURL("") is not called. *)
Theorem C14_table_without_duplicates (os : list bop) :
  Forall op_ok os -> Forall no_empty_url os ->
  NoDup (pf_string (b_profile (brun builder0 os))).
Proof. exact (string_table_nodup os). Qed.
Print Assumptions C14_table_without_duplicates.

(** C14, finding: SetDocURL("") enters a second empty string into the table. *)
Theorem C14_empty_url_duplicates_refuted :
  exists os, Forall op_ok os /\ pf_string (b_profile (brun builder0 os)) = [[]; []].
Proof. exists [BUrl []]. split; [repeat constructor|reflexivity]. Qed.
Print Assumptions C14_empty_url_duplicates_refuted.

Example C14_nontrivial :
  let b := brun builder0 [BString (str "a"); BFunction (str "b") (str "a") [] 3; BUrl (str "http://x")] in
  reachable b /\ pf_string (b_profile b) = [[]; str "a"; str "b"; str "http://x"] /\
  snd (string_id b (str "b")) = 2%Z.
Proof.
  split; [|vm_compute; split; reflexivity].
  eexists. split; [|reflexivity]. repeat constructor.
Qed.

(** C15. The id returned by FunctionId denotes a function carrying exactly the
    given attributes. *)
Theorem C15_id_denotes_function
  (b : builder) (n s f : list N) (l : Z) (b' : builder) (i : Z) :
  reachable b -> function_id b n s f l = (b', i) ->
  exists g, function_at b' i = Some g /\ fn_id g = Z.to_N i /\
    string_at b' (fn_name g) = Some n /\ string_at b' (fn_sys g) = Some s /\
    string_at b' (fn_file g) = Some f /\ fn_start g = l.
Proof. exact (function_id_denotes b n s f l b' i). Qed.
Print Assumptions C15_id_denotes_function.

Theorem C15_ids_are_stable (b b' : builder) (i : Z) (g : pfunction) :
  reachable b -> later b b' -> function_at b i = Some g -> function_at b' i = Some g.
Proof. exact (function_at_later b b' i g). Qed.
Print Assumptions C15_ids_are_stable.

(** C15. Equal ids exactly for equal attribute tuples. *)
Theorem C15_equal_ids_iff_equal_functions
  (b : builder) (n s f : list N) (l : Z) (b1 : builder) (i : Z) (b2 : builder)
  (n' s' f' : list N) (l' : Z) (b3 : builder) (j : Z) :
  reachable b -> function_id b n s f l = (b1, i) -> later b1 b2 ->
  function_id b2 n' s' f' l' = (b3, j) ->
  (i = j <-> (n, s, f, l) = (n', s', f', l')).
Proof. exact (function_ids_agree b n s f l b1 i b2 n' s' f' l' b3 j). Qed.
Print Assumptions C15_equal_ids_iff_equal_functions.

(** C15. Function ids are 1..n in table order. *)
Theorem C15_ids_dense (b : builder) :
  reachable b -> map fn_id (pf_function (b_profile b)) =
    map (fun k => N.of_nat k + 1) (seq 0 (List.length (pf_function (b_profile b)))).
Proof. exact (function_ids_dense b). Qed.
Print Assumptions C15_ids_dense.

Example C15_nontrivial :
  let b := brun builder0 [BFunction (str "f") [] (str "x.c") 3; BFunction (str "f") [] (str "x.c") 4] in
  reachable b /\ snd (function_id b (str "f") [] (str "x.c") 3) = 1%Z /\
  snd (function_id b (str "g") [] (str "x.c") 3) = 3%Z.
Proof.
  split; [|vm_compute; split; reflexivity].
  eexists. split; [|reflexivity]. repeat constructor.
Qed.

(** C16. CheckValid accepts exactly the consistent profiles; sample type indices
    are compared after conversion to int. *)
Theorem C16_check_valid_iff_consistent (p : profile) :
  check_valid p = true <-> consistent to_int32 p.
Proof. exact (check_valid_spec p). Qed.
Print Assumptions C16_check_valid_iff_consistent.

(** C16. When the sample type indices are ints the conversion is invisible. *)
Theorem C16_check_valid_iff_consistent_int (p : profile) :
  int_range (pf_default_type p) -> (forall t, In t (pf_sample_type p) -> int_range (vt_type t)) ->
  (check_valid p = true <-> consistent (fun z => z) p).
Proof. exact (check_valid_small p). Qed.
Print Assumptions C16_check_valid_iff_consistent_int.

Definition C16_profile (dflt ty : Z) (m : list pmapping) (strings : list (list N)) : profile :=
  {| pf_sample_type := [{| vt_type := ty; vt_unit := 1 |}];
     pf_sample := [{| ps_loc := [7; 7]; ps_val := [3%Z]; ps_label := [{| lb_key := 1; lb_str := 0; lb_num := 5; lb_unit := 0 |}] |}];
     pf_mapping := m;
     pf_location := [{| lc_id := 7; lc_mapping := 1; lc_addr := 4096; lc_line := [] |}];
     pf_function := []; pf_string := strings; pf_time := 0; pf_duration := 0;
     pf_period_type := {| vt_type := 0; vt_unit := 0 |}; pf_period := 0;
     pf_comment := []; pf_default_type := dflt; pf_doc_url := 0 |}.

Definition C16_map (i : N) : pmapping :=
  {| mp_id := i; mp_start := 4096; mp_limit := 8192; mp_off := 0; mp_file := 0; mp_build := 0 |}.

Example C16_nontrivial :
  check_valid (C16_profile 1 1 [C16_map 1] [[]; str "cycles"]) = true /\
  check_valid (C16_profile 1 1 [C16_map 2] [[]; str "cycles"]) = false /\
  check_valid (C16_profile 1 2 [C16_map 1] [[]; str "cycles"]) = false /\
  check_valid (C16_profile 1 1 [C16_map 1; C16_map 1] [[]; str "cycles"]) = false.
Proof. vm_compute. repeat split. Qed.

(** C16, findings: CheckValid does not check that string_table[0] is empty, that
    ids are non-zero, nor that string indices are inside the table (an index
    congruent to a valid one modulo 2^32 is accepted). *)
Theorem C16_first_string_unchecked_refuted :
  exists p, check_valid p = true /\ nth_error (pf_string p) 0 <> Some [].
Proof.
  exists (C16_profile 1 1 [C16_map 1] [str "x"; str "cycles"]). vm_compute. split; [reflexivity|discriminate].
Qed.
Print Assumptions C16_first_string_unchecked_refuted.

Theorem C16_zero_ids_unchecked_refuted :
  exists p m, check_valid p = true /\ In m (pf_mapping p) /\ mp_id m = 0.
Proof.
  exists (C16_profile 1 1 [C16_map 1; C16_map 0; C16_map 0] [[]; str "cycles"]), (C16_map 0).
  split; [vm_compute; reflexivity|]. split; [right; left; reflexivity|reflexivity].
Qed.
Print Assumptions C16_zero_ids_unchecked_refuted.

Theorem C16_type_index_out_of_table_refuted :
  exists p, check_valid p = true /\
    (Z.of_nat (List.length (pf_string p)) <= pf_default_type p)%Z.
Proof.
  exists (C16_profile 4294967297 1 [C16_map 1] [[]; str "cycles"]). vm_compute. split; [reflexivity|discriminate].
Qed.
Print Assumptions C16_type_index_out_of_table_refuted.

(** C17. Addresses become locations: sample by sample and frame by frame the new
    location id stands for the original address; there is one location per
    distinct address and none for anything else; ids are 1..n. *)
Theorem C17_addresses_become_locations (b : builder) :
  b_error b = false -> pf_location (b_profile b) = [] ->
  let p := b_profile b in
  let p' := b_profile (fst (finalize b)) in
  List.length (pf_sample p') = List.length (pf_sample p) /\
  (forall k s, nth_error (pf_sample p) k = Some s ->
     exists s', nth_error (pf_sample p') k = Some s' /\
       ps_val s' = ps_val s /\ ps_label s' = ps_label s /\
       List.length (ps_loc s') = List.length (ps_loc s) /\
       forall j a, nth_error (ps_loc s) j = Some a ->
         exists i, nth_error (ps_loc s') j = Some i /\ address_of p' i a) /\
  NoDup (map lc_addr (pf_location p')) /\
  map lc_id (pf_location p') = map (fun k => N.of_nat k + 1) (seq 0 (List.length (pf_location p'))) /\
  (forall l, In l (pf_location p') -> exists s, In s (pf_sample p) /\ In (lc_addr l) (ps_loc s)).
Proof. exact (finalize_addresses b). Qed.
Print Assumptions C17_addresses_become_locations.

(** C17. Mapping of each location: a location that has none gets the mapping in
    charge of its address if the address is not above the mapping's limit;
    everything else about the location is unchanged. *)
Theorem C17_mapping_of_location (b : builder) (k : nat) (l : plocation) :
  b_error b = false ->
  nth_error (pf_location (create_locations (b_profile b))) k = Some l ->
  exists l', nth_error (pf_location (b_profile (fst (finalize b)))) k = Some l' /\
  lc_id l' = lc_id l /\ lc_addr l' = lc_addr l /\ lc_line l' = lc_line l /\
  (lc_addr l = 0 \/ lc_mapping l <> 0 -> lc_mapping l' = lc_mapping l) /\
  (lc_addr l <> 0 -> lc_mapping l = 0 ->
    (forall m, in_charge (pf_mapping (b_profile b)) (lc_addr l) m ->
       lc_mapping l' = if lc_addr l <=? mp_limit m then mp_id m else 0) /\
    ((forall m, In m (pf_mapping (b_profile b)) -> lc_addr l < mp_start m) -> lc_mapping l' = 0)).
Proof. exact (finalize_mappings b k l). Qed.
Print Assumptions C17_mapping_of_location.

(** C17. Locations already present are the ones whose mapping is assigned; fresh
    ones start without a mapping. *)
Theorem C17_existing_locations_kept (p : profile) :
  (pf_location p <> [] -> create_locations p = p) /\
  (pf_location p = [] -> forall l, In l (pf_location (create_locations p)) -> lc_mapping l = 0).
Proof.
  exact (conj (fun H => match pf_location p as x return pf_location p = x -> create_locations p = p with
                        | [] => fun E => False_ind _ (H E)
                        | l :: r => create_locations_keeps p l r
                        end eq_refl)
              (fun E l => created_unmapped p l E)).
Qed.
Print Assumptions C17_existing_locations_kept.

(** C17. Finalize is idempotent, and it returns true only for a profile that
    passes CheckValid. *)
Theorem C17_finalize_idempotent (b : builder) : finalize (fst (finalize b)) = finalize b.
Proof. exact (finalize_idem b). Qed.
Print Assumptions C17_finalize_idempotent.

Theorem C17_finalize_true_means_consistent (b : builder) :
  snd (finalize b) = true -> consistent to_int32 (b_profile (fst (finalize b))).
Proof. exact (fun H => proj1 (check_valid_spec _) (finalize_true b H)). Qed.
Print Assumptions C17_finalize_true_means_consistent.

Definition C17_builder : builder :=
  brun builder0 [BString (str "cycles"); BEdit (fun p =>
    set_sample_type [{| vt_type := 1; vt_unit := 1 |}] (set_default_type 1
    (set_mapping [C16_map 1; {| mp_id := 2; mp_start := 6000; mp_limit := 7000; mp_off := 0; mp_file := 0; mp_build := 0 |}]
    (set_sample [{| ps_loc := [5000; 6500; 5000]; ps_val := [1%Z]; ps_label := [] |};
                 {| ps_loc := [7001; 6500]; ps_val := [2%Z]; ps_label := [] |}] p))))].

Example C17_nontrivial :
  pf_location (b_profile C17_builder) = [] /\ snd (finalize C17_builder) = true /\
  map ps_loc (pf_sample (b_profile (fst (finalize C17_builder)))) = [[1; 2; 1]; [3; 2]] /\
  map lc_mapping (pf_location (b_profile (fst (finalize C17_builder)))) = [1; 2; 0].
Proof. vm_compute. repeat split. Qed.

(** C17, finding: the test is address <= limit although limit is the end of the
    range (exclusive), so the address just past a mapping is attributed to it. *)
Theorem C17_address_at_limit_refuted :
  exists b l m, snd (finalize b) = true /\ In l (pf_location (b_profile (fst (finalize b)))) /\
    In m (pf_mapping (b_profile b)) /\ lc_mapping l = mp_id m /\ lc_addr l = mp_limit m.
Proof.
  exists (brun builder0 [BString (str "cycles"); BEdit (fun p =>
    set_sample_type [{| vt_type := 1; vt_unit := 1 |}] (set_default_type 1
    (set_mapping [C16_map 1]
    (set_sample [{| ps_loc := [8192]; ps_val := [1%Z]; ps_label := [] |}] p))))]).
  exists {| lc_id := 1; lc_mapping := 1; lc_addr := 8192; lc_line := [] |}, (C16_map 1).
  vm_compute. tauto.
Qed.
Print Assumptions C17_address_at_limit_refuted.

(** C47. AddCallstackToSample appends one frame per stack entry: the entry minus
    one (modulo 2^64), except the leaf of an interrupt stack, which is kept. *)
Theorem C47_callstack_frames (s : psample) (stack : list N) (interrupt : bool) (k : nat) (a : N) :
  nth_error stack k = Some a ->
  ps_val (add_callstack s stack interrupt) = ps_val s /\
  List.length (ps_loc (add_callstack s stack interrupt)) =
    (List.length (ps_loc s) + List.length stack)%nat /\
  firstn (List.length (ps_loc s)) (ps_loc (add_callstack s stack interrupt)) = ps_loc s /\
  nth_error (ps_loc (add_callstack s stack interrupt)) (List.length (ps_loc s) + k) =
    Some (if ((k =? 0)%nat && interrupt)%bool then a else (a + (two64 - 1)) mod two64).
Proof. exact (add_callstack_spec s stack interrupt k a). Qed.
Print Assumptions C47_callstack_frames.

Example C47_nontrivial :
  ps_loc (add_callstack {| ps_loc := [9]; ps_val := []; ps_label := [] |} [4096; 8192; 0] true)
    = [9; 4096; 8191; 18446744073709551615].
Proof. vm_compute. reflexivity. Qed.
