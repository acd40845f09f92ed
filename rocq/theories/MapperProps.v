(** Properties C12 and C13: AddressMapper. A history is a list of MapWithID calls
    with allow_unaligned_mappings = true; [pieces] (MapperSpec) is what it leaves
    mapped, described without synthetic addresses. *)
From Verif Require Import Base BytesModel MapperModel MapperSpec MapperStepProofs.
Local Open Scope N_scope.

(** The constructor accepts 0 and every power of two. *)
Theorem C12_new_mapper (a : N) : align_ok a -> new_mapper a = Ok (mkMapper [] a).
Proof. exact (new_mapper_ok a). Qed.
Print Assumptions C12_new_mapper.

(** A bound on the number and size of the calls is enough for the room condition
    used below. *)
Theorem C12_bounded_histories_fit (a : N) (h : list call) :
  align_ok a -> Forall call_ok h -> history_fits a h -> all_roomy (mkMapper [] a) h.
Proof. exact (fits_roomy a h). Qed.
Print Assumptions C12_bounded_histories_fit.

(** C12. Every call of such a history succeeds. *)
Theorem C12_calls_succeed (a : N) (h : list call) :
  align_ok a -> Forall call_ok h -> all_roomy (mkMapper [] a) h ->
  exists m, run_calls (mkMapper [] a) h = Some m.
Proof. exact (history_succeeds a h). Qed.
Print Assumptions C12_calls_succeed.

(** C12. Every address resolves to exactly the id and offset given by the pieces:
    a new mapping replaces what it covers, splits a larger mapping it lies in, and
    drops entirely an older piece it overlaps otherwise. *)
Theorem C12_lookup_is_history (a : N) (h : list call) (m : mapper) (x : N) :
  align_ok a -> Forall call_ok h -> all_roomy (mkMapper [] a) h ->
  run_calls (mkMapper [] a) h = Some m -> x < two64 ->
  option_map (fun '(_, i, o) => (i, o)) (get_mapped m x) = resolve (pieces h) x.
Proof. exact (history_lookup a h m x). Qed.
Print Assumptions C12_lookup_is_history.

(** C12. A lookup that succeeds reports the most recent call covering the address. *)
Theorem C12_lookup_never_stale (a : N) (h : list call) (m : mapper) (x mx i o : N) :
  align_ok a -> Forall call_ok h -> all_roomy (mkMapper [] a) h ->
  run_calls (mkMapper [] a) h = Some m -> x < two64 -> get_mapped m x = Some (mx, i, o) ->
  exists c, last_covering h x = Some c /\ i = c_id c /\ o = (x - c_start c + c_off c) mod two64.
Proof. exact (history_not_stale a h m x mx i o). Qed.
Print Assumptions C12_lookup_never_stale.

(** C12. A mapping not overlapped by any later call is found at all its addresses. *)
Theorem C12_untouched_mapping_found (a : N) (h1 : list call) (c : call) (h2 : list call) (m : mapper) (x : N) :
  align_ok a -> Forall call_ok (h1 ++ c :: h2) -> all_roomy (mkMapper [] a) (h1 ++ c :: h2) ->
  run_calls (mkMapper [] a) (h1 ++ c :: h2) = Some m -> x < two64 ->
  (forall d, In d h2 -> ~ overlap c d) -> in_call x c ->
  exists mx, get_mapped m x = Some (mx, c_id c, (x - c_start c + c_off c) mod two64).
Proof. exact (history_untouched a h1 c h2 m x). Qed.
Print Assumptions C12_untouched_mapping_found.

(** C12. A call without allow_unaligned_mappings that succeeds does the same. *)
Theorem C12_aligned_call_same (m : mapper) (real size id off : N) (m' : mapper) :
  map_with_id m real size id off false = Ok (true, m') ->
  map_with_id m real size id off true = Ok (true, m').
Proof. exact (aligned_same m real size id off m'). Qed.
Print Assumptions C12_aligned_call_same.

(** C12. Empty ranges and ranges running past 2^64 are refused without effect. *)
Theorem C12_bad_ranges_refused (m : mapper) (real size id off : N) (u : bool) :
  size = 0 \/ (real < two64 /\ size < two64 /\ two64 < real + size) ->
  map_with_id m real size id off u = Ok (false, m).
Proof. exact (rejects_empty_or_wrapping m real size id off u). Qed.
Print Assumptions C12_bad_ranges_refused.

(** C13. Different addresses get different synthetic addresses. *)
Theorem C13_translation_injective (a : N) (h : list call) (m : mapper) (x y mx i o my i' o' : N) :
  align_ok a -> Forall call_ok h -> all_roomy (mkMapper [] a) h ->
  run_calls (mkMapper [] a) h = Some m -> x < two64 -> y < two64 -> x <> y ->
  get_mapped m x = Some (mx, i, o) -> get_mapped m y = Some (my, i', o') -> mx <> my.
Proof. exact (history_injective a h m x y mx i o my i' o'). Qed.
Print Assumptions C13_translation_injective.

(** C13. The page offset is kept. *)
Theorem C13_page_offset_kept (a : N) (h : list call) (m : mapper) (x mx i o : N) :
  align_ok a -> a <> 0 -> Forall call_ok h -> all_roomy (mkMapper [] a) h ->
  run_calls (mkMapper [] a) h = Some m -> x < two64 ->
  get_mapped m x = Some (mx, i, o) -> mx < two64 /\ mx mod a = x mod a.
Proof. exact (history_page_offset a h m x mx i o). Qed.
Print Assumptions C13_page_offset_kept.

(** C13. Distances inside one piece are kept. *)
Theorem C13_distance_kept (a : N) (h : list call) (m : mapper) (c : call) (x y mx i o my i' o' : N) :
  align_ok a -> Forall call_ok h -> all_roomy (mkMapper [] a) h ->
  run_calls (mkMapper [] a) h = Some m -> x <= y -> y < two64 ->
  In c (pieces h) -> in_call x c -> in_call y c ->
  get_mapped m x = Some (mx, i, o) -> get_mapped m y = Some (my, i', o') -> my = mx + (y - x).
Proof. exact (history_distance a h m c x y mx i o my i' o'). Qed.
Print Assumptions C13_distance_kept.

(** A history with a split, a replacement and a partial overlap. *)
Definition C12_history : list call :=
  [mkCall 0x10000 0x8000 1 0; mkCall 0x12000 0x1000 2 0x400;
   mkCall 0x40000 0x2000 3 0; mkCall 0x41000 0x3000 4 0x10; mkCall 0x12000 0x1000 5 0].

Lemma C12_history_admissible :
  align_ok 4096 /\ Forall call_ok C12_history /\ history_fits 4096 C12_history.
Proof.
  split; [right; exists 12; split; reflexivity|]. split.
  - repeat constructor.
  - exists 0x8000. split; [|reflexivity].
    intros c H. cbn in H. repeat (destruct H as [<-|H]; [discriminate|]). destruct H.
Qed.

Example C12_nontrivial :
  exists m, run_calls (mkMapper [] 4096) C12_history = Some m /\
    get_mapped m 0x10123 = Some (0x123, 1, 0x123) /\
    get_mapped m 0x12001 = Some (0x2001, 5, 1) /\
    get_mapped m 0x13000 = Some (0x3000, 1, 0x3000) /\
    get_mapped m 0x40000 = None /\
    get_mapped m 0x41000 = Some (0x8000, 4, 0x10).
Proof. eexists. split; [vm_compute; reflexivity|]. vm_compute. repeat split. Qed.

(** C12, finding: "an address resolves whenever some mapping covers it" is false. A
    later mapping that overlaps only a part of an older one makes all of the older
    one disappear, including addresses nobody mapped again. *)
Theorem C12_partial_overlap_drops_rest_refuted :
  exists h m x, Forall call_ok h /\ all_roomy (mkMapper [] 4096) h /\
    run_calls (mkMapper [] 4096) h = Some m /\
    last_covering h x <> None /\ get_mapped m x = None.
Proof.
  exists [mkCall 0x40000 0x2000 3 0; mkCall 0x41000 0x3000 4 0].
  exists (mkMapper [mkRange 0x41000 0 0x3000 4 0 0xffffffffffffcfff] 4096), 0x40000.
  split; [repeat constructor|]. split.
  { apply C12_bounded_histories_fit.
    - right. exists 12. split; reflexivity.
    - repeat constructor.
    - exists 0x3000. split; [|reflexivity]. intros c [<-|[<-|[]]]; discriminate. }
  vm_compute. repeat split. discriminate.
Qed.
Print Assumptions C12_partial_overlap_drops_rest_refuted.

(** C12, finding: a mapping inside a mapping that was split before can drop parts of
    the outer mapping that it does not touch. *)
Theorem C12_nested_mapping_drops_outer_refuted :
  exists c1 c2 c3 m x,
    c_start c1 < c_start c3 /\ c_end c3 < c_end c1 /\
    run_calls (mkMapper [] 4096) [c1; c2; c3] = Some m /\
    in_call x c1 /\ ~ in_call x c2 /\ ~ in_call x c3 /\ get_mapped m x = None.
Proof.
  exists (mkCall 0x10000 0x9000 1 0), (mkCall 0x14000 0x1000 2 0), (mkCall 0x13000 0x3000 3 0).
  exists (mkMapper [mkRange 0x13000 0 0x3000 3 0 0xffffffffffffcfff] 4096), 0x10000.
  vm_compute. repeat split; try discriminate; intros (? & ?); auto.
Qed.
Print Assumptions C12_nested_mapping_drops_outer_refuted.

(** C12, finding: a refused split (unaligned boundary, not allowed) returns false
    after the mapping to be split has already been removed. *)
Theorem C12_refused_split_loses_mapping_refuted :
  exists m m' x r, map_with_id (mkMapper [] 4096) 0x10000 0x4000 1 0 false = Ok (true, m) /\
    get_mapped m x = Some r /\
    map_with_id m 0x11010 0x1000 2 0 false = Ok (false, m') /\ get_mapped m' x = None.
Proof.
  exists (mkMapper [mkRange 0x10000 0 0x4000 1 0 0xffffffffffffbfff] 4096), (mkMapper [] 4096).
  exists 0x10000, (0, 1, 0). vm_compute. repeat split.
Qed.
Print Assumptions C12_refused_split_loses_mapping_refuted.

(** C12, finding: for a range ending exactly at 2^64 the end of the search wraps to
    0. Overlaps with existing mappings are then not noticed, or the search runs off
    the end of the map. *)
Theorem C12_range_to_end_of_memory_refuted :
  exists m m' x y a r, x <> y /\
    map_with_id (mkMapper [] 0) 0xfffffffffffff000 0x800 1 0 true = Ok (true, m) /\
    map_with_id m 0xffffffffffffe000 0x2000 2 0 true = Ok (true, m') /\
    get_mapped m' x = Some (a, 2, r) /\
    get_mapped m' 0xfffffffffffff000 = Some (0, 1, 0) /\
    map_with_id m' y 0x1000 3 0 true = UB.
Proof.
  exists (mkMapper [mkRange 0xfffffffffffff000 0 0x800 1 0 0xfffffffffffff7ff] 0).
  exists (mkMapper [mkRange 0xfffffffffffff000 0 0x800 1 0 0;
                    mkRange 0xffffffffffffe000 0x800 0x2000 2 0 0xffffffffffffd7ff] 0).
  exists 0xffffffffffffe000, 0xfffffffffffff000, 0x800, 0. vm_compute. repeat split. discriminate.
Qed.
Print Assumptions C12_range_to_end_of_memory_refuted.

(** C13, finding: without the room condition two live ranges can share synthetic
    addresses, because the end of the new range wraps. *)
Theorem C13_collision_when_full_refuted :
  exists h m x y a i o i' o', Forall call_ok h /\ x <> y /\
    run_calls (mkMapper [] 4096) h = Some m /\
    get_mapped m x = Some (a, i, o) /\ get_mapped m y = Some (a, i', o').
Proof.
  exists [mkCall 0 0xfffffffffffff800 1 0; mkCall 0xfffffffffffff800 0x100 2 0].
  exists (mkMapper [mkRange 0 0 0xfffffffffffff800 1 0 0x1000;
                    mkRange 0xfffffffffffff800 0x800 0x100 2 0 0xfffffffffffff6ff] 4096).
  exists 0x800, 0xfffffffffffff800, 0x800, 1, 0x800, 2, 0.
  split; [repeat constructor|]. vm_compute. repeat split. discriminate.
Qed.
Print Assumptions C13_collision_when_full_refuted.
