(** C36, C37, C38, C54: sorting, build-id injection and renaming by the
    PerfReader (src/quipper/perf_reader.cc). *)
From Coq Require Import String Permutation.
From Verif Require Import Base BytesModel TextModel TextSpec TextProofs Assoc
  ReaderOpsModel ReaderOpsSpec ReaderOpsProofs.
Local Open Scope N_scope.
Local Open Scope list_scope.

(** C36. When every attribute records times, the events are rearranged into time
    order, none lost or invented, events of equal time keeping their order. *)
Theorem C36_sorted (p : rproto) :
  all_record_time p ->
  let p' := sort_events_by_time p in
  in_time_order (rp_events p') /\ Permutation (rp_events p) (rp_events p') /\
  same_order_per_time (rp_events p) (rp_events p') /\
  rp_builds p' = rp_builds p /\ rp_sample_types p' = rp_sample_types p /\
  rp_mask p' = rp_mask p /\ rp_info_reader p' = rp_info_reader p.
Proof.
  intros H. cbn zeta. unfold sort_events_by_time. rewrite (proj2 (forallb_time p) H).
  cbn [set_events rp_events rp_builds rp_sample_types rp_mask rp_info_reader].
  split; [apply sort_sorted|]. split; [apply sort_perm|]. split; [apply sort_stable|]. auto.
Qed.
Print Assumptions C36_sorted.

(** C36. Otherwise nothing changes at all. *)
Theorem C36_untouched (p : rproto) :
  ~ all_record_time p -> sort_events_by_time p = p.
Proof.
  intros H. unfold sort_events_by_time. destruct (forallb _ _) eqn:E; [|reflexivity].
  exfalso. now apply H, forallb_time.
Qed.
Print Assumptions C36_untouched.

(** C36. Time order and the order among equal times determine the result, so
    any correct implementation of std::stable_sort gives the modelled list; in
    particular sorting again changes nothing. *)
Theorem C36_stable_sort_is_unique (p : rproto) (l : list revent) :
  in_time_order l -> same_order_per_time (rp_events p) l -> all_record_time p ->
  rp_events (sort_events_by_time p) = l.
Proof.
  intros S O H. destruct (C36_sorted p H) as (S' & _ & O' & _).
  apply sorted_unique; [now apply osorted_spec|now apply osorted_spec|].
  intros t. now rewrite <- O', O.
Qed.
Print Assumptions C36_stable_sort_is_unique.

Theorem C36_sorted_input_unchanged (p : rproto) :
  in_time_order (rp_events p) -> sort_events_by_time p = p.
Proof.
  intros S. unfold sort_events_by_time. destruct (forallb _ _) eqn:E; [|reflexivity].
  rewrite (sorted_unique (stable_sort (rp_events p)) (rp_events p)).
  - now destruct p.
  - apply osorted_spec, sort_sorted.
  - now apply osorted_spec.
  - intros t. now rewrite <- (sort_stable (rp_events p) t).
Qed.
Print Assumptions C36_sorted_input_unchanged.

Definition ex_event (ty ti : N) (f : list N) : revent :=
  mkREvent ty 2 (40 + aligned_string_length (len f)) ti f (Some f) [ty].
Definition ex_reader : rproto :=
  mkRProto 0 [7; 4] true
    [ex_event 1 30 (str "/lib/a"); ex_event 9 10 []; ex_event 3 30 []; ex_event 10 20 (str "/lib/b")]
    [mkRBuild 2 9 (str "/lib/a") (Some (str "/lib/a")) None [171; 205] false].

Example C36_nontrivial :
  all_record_time ex_reader /\
  map rv_type (rp_events (sort_events_by_time ex_reader)) = [9; 10; 1; 3].
Proof. split; [|reflexivity]. repeat constructor. Qed.

(** C36, finding: an event that carries no time (a round end, an auxtrace event)
    counts as time 0 and is moved before all others, away from the events it
    followed. *)
Theorem C36_untimed_events_move_refuted :
  exists p, all_record_time p /\
    map rv_type (rp_events p) = [1; 9; 68] /\ map rv_time (rp_events p) = [5; 7; 0] /\
    map rv_type (rp_events (sort_events_by_time p)) = [68; 1; 9].
Proof.
  exists (mkRProto 0 [4] true [ex_event 1 5 []; ex_event 9 7 []; ex_event 68 0 []] []).
  split; [repeat constructor|]. vm_compute. auto.
Qed.
Print Assumptions C36_untimed_events_move_refuted.

(** C37. After a successful request the reader gives every named file the
    requested id (zero-padded to 40 digits), and every other file the id it had. *)
Theorem C37_lookup (m : list (list N * list N)) (p : rproto) :
  injectable m ->
  exists p', inject_build_ids m p = (true, p') /\
    forall f, aget list_eqb f (filenames_to_build_ids p') =
      match aget list_eqb f m with
      | Some id => Some (perfize_build_id id)
      | None => aget list_eqb f (filenames_to_build_ids p)
      end.
Proof.
  intros J. destruct (new_entries m p J) as (new & E & _). eexists. split; [exact E|].
  exact (lookup_after m p _ J E).
Qed.
Print Assumptions C37_lookup.

(** C37. Whatever is requested, and whether or not it succeeds: events and
    attributes are untouched, the build-id feature is marked, no entry is
    removed or moved, an entry of a file not named is unchanged, and of a named
    one at most the id and the injected mark change. *)
Theorem C37_keeps_the_rest (m : list (list N * list N)) (p : rproto) ok p' :
  inject_build_ids m p = (ok, p') ->
  same_but_builds p p' /\ rp_mask p' = N.lor (rp_mask p) 4 /\
  exists old new, rp_builds p' = old ++ new /\
    Forall2 (fun b b' => same_but_id b b' /\ (aget list_eqb (rb_file b) m = None -> b' = b))
            (rp_builds p) old.
Proof. exact (inject_keeps m p ok p'). Qed.
Print Assumptions C37_keeps_the_rest.

(** C37. On success each existing entry of a named file holds exactly the bytes
    of the requested id and is marked injected; one new entry is added for each
    name that had none, in order, with the id cut or zero-extended to 20 bytes
    and without its trailing groups of four zero bytes. *)
Theorem C37_entries (m : list (list N * list N)) (p : rproto) :
  injectable m ->
  exists p' old new,
    inject_build_ids m p = (true, p') /\ rp_builds p' = old ++ new /\
    Forall2 (fun b b' => same_but_id b b' /\
        match aget list_eqb (rb_file b) m with
        | None => b' = b
        | Some id => raw_to_hex (rb_hash b') = id /\ rb_injected b' = true
        end) (rp_builds p) old /\
    Forall2 (fun fi b =>
        rb_file b = fst fi /\ rb_injected b = true /\ rb_pid b = 4294967295 /\
        rb_md5 b = Some (fst fi) /\
        rb_misc b = match last_mapping_of (fst fi) (rp_events p) with
                    | Some e => w16 (rv_misc e) | None => 1 end /\
        forall d, bytes_ok d = true -> snd fi = raw_to_hex d ->
           (exists k, firstn 20 d ++ repeat 0 (20 - length d) = rb_hash b ++ repeat 0 (4 * k)) /\
           (forall t, rb_hash b <> t ++ repeat 0 4))
      (filter (fun fi => negb (mem_by list_eqb (fst fi) (map rb_file (rp_builds p)))) m) new.
Proof.
  intros J. destruct (new_entries m p J) as (new & E & F). eexists _, (map (update_build m) (rp_builds p)), new.
  split; [exact E|]. split; [reflexivity|]. split.
  - apply Forall2_map_r. intros b. unfold update_build.
    destruct (aget list_eqb (rb_file b) m) as [id|] eqn:A; [|split; [now repeat split|reflexivity]].
    split; [now repeat split|]. split; [|reflexivity]. cbn [set_injected set_hash rb_hash].
    destruct (proj2 J _ _ (aget_in _ _ _ A)) as (_ & d & B & ->). now rewrite raw_id_hex.
  - eapply Forall2_weaken; [|exact F]. cbv beta. intros fi b (H1 & H2 & H3 & H4 & H5 & H6 & _).
    rewrite misc_of in H5. destruct (last_mapping_of (fst fi) (rp_events p)); cbn [option_map] in H5;
      (do 5 (split; [assumption|])); exact H6.
Qed.
Print Assumptions C37_entries.

(** C37. Injecting the same ids again adds no entry and changes no id a file is
    given; from the second time on it changes nothing at all. *)
Theorem C37_again (m : list (list N * list N)) (p p1 : rproto) :
  injectable m -> inject_build_ids m p = (true, p1) ->
  exists p2, inject_build_ids m p1 = (true, p2) /\
    length (rp_builds p2) = length (rp_builds p1) /\
    (forall f, aget list_eqb f (filenames_to_build_ids p2) =
               aget list_eqb f (filenames_to_build_ids p1)) /\
    inject_build_ids m p2 = (true, p2).
Proof.
  intros J E1. destruct (inject_again m p p1 J E1) as (p2 & E2 & B & _).
  exists p2. split; [exact E2|]. split; [rewrite B; apply map_length|].
  split; [|exact (inject_stable m p p1 p2 J E1 E2)].
  intros f. rewrite (lookup_after m p1 p2 J E2), (lookup_after m p p1 J E1).
  now destruct (aget list_eqb f m).
Qed.
Print Assumptions C37_again.

Definition ex_ids : list (list N * list N) :=
  [(str "/lib/a", str "00ff10"); (str "/lib/b", str "abcd"); (str "/lib/c", str "1234")].

Example C37_nontrivial :
  injectable ex_ids /\
  (let '(ok, p) := inject_build_ids ex_ids ex_reader in
   (ok, map (fun b => (rb_misc b, rb_file b, rb_hash b, rb_injected b)) (rp_builds p)) =
   (true, [(2, str "/lib/a", [0; 255; 16], true); (2, str "/lib/b", [171; 205; 0; 0], true);
           (1, str "/lib/c", [18; 52; 0; 0], true)])).
Proof.
  split; [|vm_compute; reflexivity]. split.
  - repeat constructor; cbn; intuition discriminate.
  - intros f id [E|[E|[E|[]]]]; injection E as <- <-; (split; [cbn; intuition discriminate|]).
    + exists [0; 255; 16]. now split.
    + exists [171; 205]. now split.
    + exists [18; 52]. now split.
Qed.

(** C37, finding: repeating an injection does change the stored bytes of an id
    that is not a whole number of 4-byte groups: the created entry is zero-padded,
    the updated one is not. *)
Theorem C37_again_refuted :
  exists m p p1 p2, injectable m /\ inject_build_ids m p = (true, p1) /\
    inject_build_ids m p1 = (true, p2) /\
    map rb_hash (rp_builds p1) = [[171; 205; 0; 0]] /\ map rb_hash (rp_builds p2) = [[171; 205]].
Proof.
  pose (m := [(str "/lib/b", str "abcd")]).
  pose (p1 := snd (inject_build_ids m (mkRProto 0 [] true [] []))).
  exists m, (mkRProto 0 [] true [] []), p1, (snd (inject_build_ids m p1)).
  split; [|split; [|split; [|split]]; vm_compute; reflexivity]. split.
  - repeat constructor. intros [].
  - intros f id [E|[]]; injection E as <- <-. split; [cbn; intuition discriminate|].
    exists [171; 205]. now split.
Qed.
Print Assumptions C37_again_refuted.

(** C37, finding: text that is not hex is refused for a file that has an entry,
    after earlier entries have been changed, but accepted for a new file, which
    gets a wrong id. *)
Theorem C37_bad_id_refuted :
  (exists p', inject_build_ids [(str "/lib/a", str "zz")] ex_reader = (false, p')) /\
  (exists p', inject_build_ids [(str "/lib/x", str "abzz")] ex_reader = (true, p') /\
     aget list_eqb (str "/lib/x") (filenames_to_build_ids p') =
     Some (perfize_build_id (str "ab"))) /\
  (exists p p', inject_build_ids [(str "/a", str "11"); (str "/b", str "zz")] p = (false, p') /\
     map rb_hash (rp_builds p) = [[1]; [2]] /\ map rb_hash (rp_builds p') = [[17]; [2]]).
Proof.
  split; [eexists; vm_compute; reflexivity|]. split; [eexists; split; vm_compute; reflexivity|].
  exists (mkRProto 0 [] true [] [mkRBuild 2 9 (str "/a") None None [1] false;
                                 mkRBuild 2 9 (str "/b") None None [2] false]).
  eexists. split; [vm_compute; reflexivity|]. split; reflexivity.
Qed.
Print Assumptions C37_bad_id_refuted.

(** C38. Renaming: mapping events and build ids of a listed file get the new
    name, and the event size follows the space of the name; everything else is
    unchanged. *)
Theorem C38_rename (m : list (list N * list N)) (p : rproto) :
  rp_info_reader p = true ->
  exists p', localize_using_filenames m p = Ok p' /\
    rp_mask p' = rp_mask p /\ rp_sample_types p' = rp_sample_types p /\
    rp_info_reader p' = true /\
    Forall2 (fun e e' =>
        same_but_name e e' /\
        (announces_mapping e = false -> e' = e) /\
        (aget list_eqb (rv_file e) m = None -> e' = e) /\
        (forall f, announces_mapping e = true -> aget list_eqb (rv_file e) m = Some f ->
           rv_file e' = f /\
           (sizes_fit m e ->
            rv_size e' + text_space (len (rv_file e)) = rv_size e + text_space (len f))))
      (rp_events p) (rp_events p') /\
    Forall2 (fun b b' =>
        (aget list_eqb (rb_file b) m = None -> b' = b) /\
        (forall f, aget list_eqb (rb_file b) m = Some f ->
           b' = mkRBuild (rb_misc b) (rb_pid b) f (rb_md5 b) (rb_size b) (rb_hash b) (rb_injected b)))
      (rp_builds p) (rp_builds p').
Proof.
  intros H. unfold localize_using_filenames. rewrite H. eexists. split; [reflexivity|].
  cbn [set_builds set_events rp_mask rp_sample_types rp_info_reader rp_events rp_builds].
  split; [reflexivity|]. split; [reflexivity|]. split; [exact H|].
  split; apply Forall2_map_r; [apply localize_event_spec|apply localize_build_spec].
Qed.
Print Assumptions C38_rename.

(** C38. Renaming by build id is renaming with the map that gives a file the
    name requested for its id, the last identified entry of the file counting. *)
Theorem C38_by_build_id (ids : list (list N * list N)) (p : rproto) :
  exists m, localize ids p = localize_using_filenames m p /\
    forall f g, aget list_eqb f m = Some g <->
      exists l1 b l2, rp_builds p = l1 ++ b :: l2 /\ rb_file b = f /\
        aget list_eqb (perfize_build_id (raw_to_hex (rb_hash b))) ids = Some g /\
        (forall b', In b' l2 -> rb_file b' = f ->
           aget list_eqb (perfize_build_id (raw_to_hex (rb_hash b'))) ids = None).
Proof.
  exists (localize_map ids (rp_builds p)). split; [reflexivity|].
  intros f g. apply localize_map_spec.
Qed.
Print Assumptions C38_by_build_id.

(** C38. Alternate names only add entries: for each entry and each alternate
    name of its file, one copy under that name. *)
Theorem C38_alternates (m : list (list N * list N)) (p : rproto) :
  let p' := alternate_build_id_filenames m p in
  rp_events p' = rp_events p /\ rp_mask p' = rp_mask p /\
  exists new, rp_builds p' = rp_builds p ++ new /\
    (forall b', In b' new <->
       exists b f, In b (rp_builds p) /\ In (rb_file b, f) m /\ b' = set_bfile f b) /\
    length new = list_sum (map (fun b =>
       length (filter (fun kv => list_eqb (fst kv) (rb_file b)) m)) (rp_builds p)).
Proof.
  cbn zeta. split; [reflexivity|]. split; [reflexivity|]. exact (alternate_spec m p).
Qed.
Print Assumptions C38_alternates.

Example C38_nontrivial :
  sizes_fit [(str "/lib/a", str "/usr/lib/longer")] (ex_event 1 30 (str "/lib/a")) /\
  match localize_using_filenames [(str "/lib/a", str "/usr/lib/longer")] ex_reader with
  | Ok p => map (fun e => (rv_size e, rv_file e)) (rp_events p) =
      [(56, str "/usr/lib/longer"); (48, []); (48, []); (48, str "/lib/b")] /\
      map rb_file (rp_builds p) = [str "/usr/lib/longer"]
  | _ => False
  end /\
  map rb_file (rp_builds (alternate_build_id_filenames
    [(str "/lib/a", str "x"); (str "/lib/a", str "y"); (str "z", str "w")] ex_reader)) =
    [str "/lib/a"; str "x"; str "y"].
Proof.
  split.
  - split; [vm_compute; split; [discriminate|reflexivity]|]. intros f [<-|[]]. reflexivity.
  - vm_compute. repeat split.
Qed.

(** C38, findings: the MD5 prefixes keep belonging to the old name, and without
    any attribute the process is terminated even if nothing is to be renamed. *)
Theorem C38_md5_stale_refuted :
  exists m p p', localize_using_filenames m p = Ok p' /\
    map (fun b => (rb_file b, rb_md5 b)) (rp_builds p') = [(str "new", Some (str "/lib/a"))] /\
    exists e, In e (rp_events p') /\ rv_file e = str "new" /\ rv_md5 e = Some (str "/lib/a").
Proof.
  exists [(str "/lib/a", str "new")], ex_reader. eexists. split; [reflexivity|].
  split; [reflexivity|]. eexists. split; [left; reflexivity|]. split; reflexivity.
Qed.
Print Assumptions C38_md5_stale_refuted.

Theorem C38_no_attributes_refuted (m : list (list N * list N)) (p : rproto) :
  rp_info_reader p = false -> localize_using_filenames m p = Abort.
Proof. intros H. unfold localize_using_filenames. now rewrite H. Qed.
Print Assumptions C38_no_attributes_refuted.

(** C54. The list of files: each mapped name once, sorted. *)
Theorem C54_filenames (p : rproto) :
  sorted_strings (get_filenames p) /\
  forall f, In f (get_filenames p) <->
    exists e, In e (rp_events p) /\ announces_mapping e = true /\ rv_file e = f.
Proof. exact (get_filenames_spec p). Qed.
Print Assumptions C54_filenames.

(** C54. The build id of a file is that of its last entry, as 40 digits. *)
Theorem C54_build_ids (p : rproto) (f id : list N) :
  aget list_eqb f (filenames_to_build_ids p) = Some id <->
  exists l1 b l2, rp_builds p = l1 ++ b :: l2 /\ rb_file b = f /\
    (forall b', In b' l2 -> rb_file b' <> f) /\
    id = firstn 40 (raw_to_hex (rb_hash b)) ++ zeros (40 - 2 * length (rb_hash b)).
Proof. exact (lookup_last p f id). Qed.
Print Assumptions C54_build_ids.

Example C54_nontrivial :
  get_filenames ex_reader = [str "/lib/a"; str "/lib/b"] /\
  aget list_eqb (str "/lib/a") (filenames_to_build_ids ex_reader) =
    Some (str "abcd000000000000000000000000000000000000").
Proof. vm_compute. split; reflexivity. Qed.
