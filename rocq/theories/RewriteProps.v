(** Reading a file and writing it again: C72. *)
From Coq Require Import Permutation.
From Verif Require Import Base BytesModel EventSizeModel EventSizeSpec EventSizeProofs Assoc ReaderOpsModel SampleModel SampleSpec
  FileModel FileSpec SerializerModel SerializerSpec AttrModel AttrSpec AttrProofs WriteModel WriteSpec RereadSpec PipelineModel RewriteModel RewriteSpec
  RewriteProofs SerializerProps WriteProps AttrProps RereadProps.
Local Open Scope N_scope.

(** *** C72: a file that is read and written again reads as the same recording *)

(** A file in the byte order of the machine whose events have nothing but what a
    message has: what a new reader holds after reading the file that is written is
    what the first reader held. *)
Theorem C72_same : forall ord room bytes st f,
  bytes_ok bytes = true -> len bytes < 2 ^ 31 -> file_header false bytes ->
  read_perf_data (new_reader (swapped bytes)) bytes = Ok st ->
  one_id_each st -> (forall m, Permutation m (ord m)) ->
  Forall (fun e => plain_event ord (serializer false st) (fe_raw e)) (fs_events st) ->
  room < two63 -> rewrite_file ord room bytes = Ok f ->
  exists st', read_perf_data (new_reader (swapped f)) f = Ok st' /\ same_recording st st'.
Proof.
  intros ord room bytes st f B L H Rd O Po P Rm W. rewrite (header_order bytes H) in Rd.
  destruct (rewritten bytes st ord room f B L H Rd O Po P Rm W) as (Sw & X). now rewrite Sw.
Qed.
Print Assumptions C72_same.

(** The attributes are the same to the last byte if they use only the bits a message
    has; the build ids are the same if the file has a table of them and no mapping
    with one. *)
Theorem C72_exact : forall st st', same_recording st st' ->
  (Forall (fun a => covered (fa_attr a)) (fs_attrs st) -> fs_attrs st' = fs_attrs st) /\
  (N.testbit (fs_mask st) 2 = true ->
   (forall e, In e (fs_events st) -> ev_type (fe_raw e) = R_MMAP2 -> N.testbit (ev_misc (fe_raw e)) 14 = false) ->
   Forall2 equal_build (fs_builds st) (fs_builds st')).
Proof.
  intros st st' [_ A _ _ _ (builds & extra & B1 & B2 & B3 & B4)]. split.
  - intros C. induction A as [|a a' l l' (A1 & A2 & A3 & A4) A IH]; [reflexivity|].
    inversion C as [|? ? C1 C2]; subst. f_equal; [|now apply IH].
    assert (fa_attr a' = fa_attr a) by (apply (kept_covered (fa_attr a)); [exact A2|apply A3|exact A4|exact C1]).
    destruct a as [x y], a' as [x' y']. cbn [fa_attr fa_ids] in *. congruence.
  - intros T No. destruct extra as [|x extra]; [rewrite B1, app_nil_r; auto|].
    destruct (B4 x (or_introl eq_refl)) as (e & E1 & E2 & E3 & _). rewrite (No e E1 E2) in E3. discriminate.
Qed.
Print Assumptions C72_exact.

(** It can be written: if the command line is not an empty one and the limit on the
    size allows it. [p] is the data that is written, whose image as a file is
    [file_image] ([C43]). *)
Theorem C72_written : forall ord room bytes st,
  bytes_ok bytes = true -> len bytes < 2 ^ 31 -> file_header false bytes ->
  read_perf_data (new_reader (swapped bytes)) bytes = Ok st ->
  one_id_each st -> (forall m, Permutation m (ord m)) ->
  Forall (fun e => plain_event ord (serializer false st) (fe_raw e)) (fs_events st) ->
  (N.testbit (fs_mask st) 11 = true -> fm_cmdline (fs_meta st) <> []) ->
  exists p, data_of false st = Ok (serializer false st, p) /\
    let size := len (file_image ord (serializer false st) p) + left_out p in
    (size < two63 -> size <= room -> exists f, rewrite_file ord room bytes = Ok f).
Proof.
  intros ord room bytes st B L H Rd O Po P C. rewrite (header_order bytes H) in Rd.
  exact (written_again bytes st ord room B L H Rd O Po P C).
Qed.
Print Assumptions C72_written.

(** *** A concrete file: the one of C59, with all the features *)
Definition again (p : wdata) : list N :=
  match write_to_vector in_order 4096 readers p with Ok f => f | _ => [] end.
Definition round_bytes : list N := again round_file.
Definition held_by (bytes : list N) : fstate :=
  match read_perf_data (new_reader (swapped bytes)) bytes with Ok st => st | _ => fs_new end.

Ltac shown e n := intros i H8 H48 Hi;
  assert (C : forallb (fun i => (i <? 8) || inside (fields e) i || (byte e i =? 0)) (map N.of_nat (List.seq 0 n)) = true) by reflexivity;
  rewrite forallb_forall in C; specialize (C i); rewrite Hi, orb_false_r in C; destruct (N.ltb_spec i 8); [lia|]; apply N.eqb_eq, C;
  apply in_map_iff; exists (N.to_nat i); rewrite N2Nat.id; split; [reflexivity|]; apply in_seq; lia.
Definition trace_event : list N := match deserialize in_order readers a_trace with Ok e => e | _ => [] end.
Lemma trace_plain : plain_event in_order readers trace_event.
Proof.
  exists 48. split; [vm_compute; reflexivity|]. split; [|split; [discriminate|]].
  - intros id a [H|[H|[H|[]]]]; injection H as <- <-; intros _ L; exfalso; revert L; vm_compute; intros L; now apply L.
  - split; try discriminate. shown trace_event 48%nat.
Qed.
Lemma round_plain : Forall (fun e => plain_event in_order readers (fe_raw e))
  [mkFEvent an_mmap []; mkFEvent trace_event [1; 2; 3; 4; 5; 6; 7; 8]; mkFEvent (a_sample 19) []].
Proof.
  destruct C44_mmap_hypotheses_met as (x & M1 & M2 & M3 & M4 & _). destruct C44_sample_hypotheses_met as (y & S1 & S2 & S3 & S4 & _).
  constructor; [|constructor; [|constructor; [|constructor]]]; cbn [fe_raw].
  - exists 48. split; [vm_compute; reflexivity|auto].
  - exact trace_plain.
  - exists 8. split; [vm_compute; reflexivity|auto].
Qed.
Example C72_hypotheses_met :
  bytes_ok round_bytes = true /\ len round_bytes = 1503 /\ file_header false round_bytes /\
  read_perf_data (new_reader (swapped round_bytes)) round_bytes = Ok (held_by round_bytes) /\
  one_id_each (held_by round_bytes) /\ serializer false (held_by round_bytes) = readers /\
  fs_events (held_by round_bytes) = [mkFEvent an_mmap []; mkFEvent trace_event [1; 2; 3; 4; 5; 6; 7; 8]; mkFEvent (a_sample 19) []] /\
  fm_cmdline (fs_meta (held_by round_bytes)) <> [] /\
  rewrite_file in_order 4096 round_bytes = Ok round_bytes.
Proof.
  split; [vm_compute; reflexivity|]. split; [vm_compute; reflexivity|]. split; [unfold file_header, section_inside; split; [vm_compute; discriminate|]; split; [vm_compute; reflexivity|]; split; [vm_compute; reflexivity|]; split; [vm_compute; discriminate|]; split; vm_compute; discriminate|].
  split; [vm_compute; reflexivity|]. split; [unfold one_id_each; vm_compute; repeat constructor|]. split; [vm_compute; reflexivity|].
  split; [vm_compute; reflexivity|]. split; [vm_compute; discriminate|]. vm_compute. reflexivity.
Qed.

(** *** What does not hold *)

(** A file with an empty command line, which the reader takes, cannot be written
    again if it has all the other features: the four bytes of its number of tokens
    are not in the size that is reserved. *)
Definition one_token : wdata :=
  mkWData (2 ^ 18 - 2 + 2 ^ 30) the_attrs [(3, [99; 121]); (3, [99; 122])] [message an_mmap] round_builds
    (mkFMeta (fm_strings round_meta) [[97]] [] (fm_u32 round_meta) (fm_u64 round_meta) (fm_cores round_meta) (fm_threads round_meta)
       (fm_cpus round_meta) (fm_numa round_meta) (fm_pmu round_meta) (fm_group round_meta) [] [1; 2; 3])
    [XHybrid [99; 111; 114; 101] None [0; 1; 2; 5]].
Definition patched (at_ : N) (d bytes : list N) : list N :=
  firstn (N.to_nat at_) bytes ++ d ++ skipn (N.to_nat (at_ + len d)) bytes.
Definition no_token_bytes : list N := patched 855 [0; 0; 0; 0] (again one_token).
Theorem C72_empty_cmdline_refuted : exists st,
  bytes_ok no_token_bytes = true /\ len no_token_bytes = 1275 /\
  read_perf_data (new_reader (swapped no_token_bytes)) no_token_bytes = Ok st /\
  N.testbit (fs_mask st) 11 = true /\ fm_cmdline (fs_meta st) = [] /\
  rewrite_file in_order (2 ^ 40) no_token_bytes = Fail /\
  rewrite_file in_order (2 ^ 40) (again one_token) = Ok (again one_token).
Proof.
  eexists. split; [vm_compute; reflexivity|]. split; [vm_compute; reflexivity|]. split; [vm_compute; reflexivity|].
  split; [vm_compute; reflexivity|]. split; [vm_compute; reflexivity|]. split; vm_compute; reflexivity.
Qed.
Print Assumptions C72_empty_cmdline_refuted.

(** An attribute loses the bits for BPF events (30), AUX output (31) and text poke
    events (33). *)
Definition odd_bits : list N := patched 171 [192; 2] (again (mapped_file [])).
Theorem C72_attr_bits_refuted : exists st f st',
  read_perf_data (new_reader (swapped odd_bits)) odd_bits = Ok st /\ rewrite_file in_order 4096 odd_bits = Ok f /\
  read_perf_data (new_reader (swapped f)) f = Ok st' /\
  map (fun a => map (bit_field (fa_attr a)) [30; 31; 33]) (fs_attrs st) = [[true; true; true]; [false; false; false]] /\
  map (fun a => map (bit_field (fa_attr a)) [30; 31; 33]) (fs_attrs st') = [[false; false; false]; [false; false; false]].
Proof.
  eexists. eexists. eexists. split; [vm_compute; reflexivity|]. split; [vm_compute; reflexivity|]. split; [vm_compute; reflexivity|].
  split; vm_compute; reflexivity.
Qed.
Print Assumptions C72_attr_bits_refuted.

(** Each time a file with a table of build ids and a mapping with one is read and
    written again, there is one more build id in it. *)
Definition builds_after (n : nat) : N :=
  len (fs_builds (held_by (Nat.iter n (fun f => match rewrite_file in_order 4096 f with Ok f' => f' | _ => [] end) (again (mapped_file []))))).
Theorem C72_builds_refuted : builds_after 0 = 1 /\ builds_after 1 = 2 /\ builds_after 2 = 3.
Proof. split; [vm_compute; reflexivity|]. split; vm_compute; reflexivity. Qed.
Print Assumptions C72_builds_refuted.
