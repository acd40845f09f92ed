(** Reading a file that was written: C59. *)
From Coq Require Import Permutation.
From Verif Require Import Base BytesModel BytesProofs EventSizeModel EventSizeSpec Assoc TextModel ReaderOpsModel SampleModel EventSizeProofs SampleSpec
  FileModel SerializerModel SerializerSpec AttrModel WriteModel WriteSpec WriteEventProofs WriteMainProofs SerializerProps WriteProps
  WriteLayoutProofs RereadSpec RereadAttrProofs RereadEventProofs RereadMainProofs.
Local Open Scope N_scope.

Lemma readers_order l : forall s s', create_readers l s = Ok s' -> ss_swap s' = ss_swap s.
Proof.
  induction l as [|(a, ids) l IH]; intros s s' H; cbn [create_readers] in H; [now injection H as <-|].
  destruct (create_reader a ids s) as [s1| | | |] eqn:E; cbn [obind] in H; try discriminate.
  rewrite (IH _ _ H). unfold create_reader, set_positions in E.
  repeat match type of E with
  | (let '(_, _) := ?x in _) = _ => destruct x
  | (if ?b then _ else _) = _ => destruct b
  end; try discriminate; now injection E as <-.
Qed.
Lemma messages_state p0 s p : from_messages p0 = Ok (s, p) ->
  create_readers (map reader_attr (wd_attrs p)) (new_serializer false) = Ok s /\ ss_swap s = false.
Proof.
  unfold from_messages. intros H.
  destruct (create_readers _ _) as [s1| | | |] eqn:C; cbn [obind] in H; try discriminate.
  destruct (populate_sizes s1 (wd_events p0)) as [evs| | | |]; cbn [obind] in H; try discriminate.
  apply Ok_inj in H. injection H as <- <-. split; [exact C|]. now rewrite (readers_order _ _ _ C).
Qed.
Lemma events_read ord s p (bad : bool) : representable p -> Forall (WriteFileProofs.event_ok ord s) (wd_events p) ->
  Forall (fun x => xe_type x = R_AUXTRACE -> xat_size (get_auxtrace (xe_body x)) = len (xat_trace (get_auxtrace (xe_body x)))) (wd_events p) ->
  Forall (fun x => exists e, deserialize ord s x = Ok e /\ event_ok s bad e) (wd_events p) ->
  Forall (event_read ord s bad) (wd_events p).
Proof.
  intros R F1 F2 F3. rewrite Forall_forall in *. intros x I. destruct (F1 x I) as (_ & X & _).
  destruct (proj1 (Forall_forall _ _) (rp_events _ R) x I) as [S1 S2].
  split; [exact S2|split; [exact X|split; [exact S1|split; [exact (F2 x I)|exact (F3 x I)]]]].
Qed.

(** *** C59: what was written to a file is read from it *)

(** Messages are given to a new reader, and written to a vector (string, file).
    Then the file can be read, and what is read is what was written: the same
    attributes and ids, the same events in the same order with their traces, the
    metadata that was asked for and no other, the same build ids (and those in
    mappings). *)
Theorem C59_reread : forall ord room cf p0 s p f,
  from_messages p0 = Ok (s, p) -> representable p -> room < two63 -> write_to_vector ord room s p = Ok f ->
  metadata_ok p -> attrs_ok p -> traces_ok p -> events_ok ord s p -> takes_all cf ->
  exists st, read_perf_data cf f = Ok st /\ reread ord s p st.
Proof.
  intros ord room cf p0 s p f M R H W Mk Ak Tk Ek All. destruct (messages_state p0 s p M) as [Cr Sw].
  destruct (vector_sound ord room s p f R H W) as (L & F & B & E1 & E2 & _).
  destruct (C43_layout ord room s p f R H W) as [_ Lo].
  apply (read_again f ltac:(clear - L B H; lia) ord s p Lo); auto.
  - rewrite F. apply at_start.
  - now apply events_read.
Qed.
Print Assumptions C59_reread.

(** The same with a buffer of the caller, whatever is behind the file in it. *)
Theorem C59_buffer : forall ord buf cf p0 s p f,
  from_messages p0 = Ok (s, p) -> representable p -> len buf < two63 -> write_to_pointer ord s p buf = Ok f ->
  metadata_ok p -> attrs_ok p -> traces_ok p -> events_ok ord s p -> takes_all cf ->
  exists st, read_perf_data cf f = Ok st /\ reread ord s p st.
Proof.
  intros ord buf cf p0 s p f M R H W Mk Ak Tk Ek All. destruct (messages_state p0 s p M) as [Cr Sw].
  destruct (pointer_sound ord s p buf f R H W) as (L & F & E1 & E2 & _).
  destruct (pointer_layout ord s p buf f R H W) as [Lf Lo].
  apply (read_again f ltac:(clear - Lf H; lia) ord s p Lo); auto.
  - rewrite F. apply at_start.
  - now apply events_read.
Qed.
Print Assumptions C59_buffer.

(** Messages made of events that have nothing but what a message has: the events
    read are those events, to the last byte. *)
Theorem C59_events : forall ord room cf p0 s p f raws st,
  from_messages p0 = Ok (s, p) -> representable p -> room < two63 -> write_to_vector ord room s p = Ok f ->
  metadata_ok p -> attrs_ok p -> traces_ok p -> events_ok ord s p -> takes_all cf ->
  native_serializer (map (fun a => (raw_attr (des_attr (fx_attr a)), fx_ids a)) (wd_attrs p)) s ->
  (forall m, Permutation m (ord m)) ->
  Forall2 (fun e x => serialize s e = Ok x /\ exists off, readable_event s e off /\ cpu_clear s e off /\ bpf_plain ord e /\
                      fully_represented s e off) raws (wd_events p) ->
  read_perf_data cf f = Ok st ->
  map fe_raw (fs_events st) = raws.
Proof.
  intros ord room cf p0 s p f raws st M R H W Mk Ak Tk Ek All Nv Po F2 Rd.
  destruct (C59_reread ord room cf p0 s p f M R H W Mk Ak Tk Ek All) as (st' & Rd' & RR).
  rewrite Rd in Rd'. apply Ok_inj in Rd'. subst st'.
  assert (E := rr_events _ _ _ _ RR). clear - Nv Po F2 E. revert raws F2.
  induction E as [|x e l evs (D & _) E IH]; intros raws F2; inversion F2 as [|r x' ? ? (S1 & off & S2 & S3 & S4 & S5) F2']; subst; [reflexivity|].
  cbn [map]. rewrite (IH _ F2'). f_equal.
  rewrite (C44_identical _ ord s r off x Nv S2 S3 S4 Po S1 S5) in D. apply Ok_inj in D. now symmetry.
Qed.
Print Assumptions C59_events.

(** *** A concrete file *)

Definition plain_config : fconfig :=
  mkFConfig (fun _ => false) false
    (fun st e => match serialize (mkSS (map (fun r => (fst r, raw_attr (snd r))) (fs_readers st)) false (fs_sample_pos st) (fs_other_pos st)) e with
                 | Ok _ => true | _ => false end).
Lemma plain_takes_all : takes_all plain_config.
Proof.
  split; [reflexivity|]. intros st s e x H1 H2 H3 H4 H5. cbn [plain_config cf_accept].
  rewrite H1, H2, H3, <- H4. destruct s as [a b c d]. cbn [ss_readers ss_sample_pos ss_other_pos ss_swap] in *. now rewrite H5.
Qed.

Definition round_meta : fmeta :=
  mkFMeta [(3, [104; 111]); (4, [52]); (5, [54]); (6, [120]); (8, [99]); (9, [105; 100])]
    [[112; 101; 114; 102]; [114]] [] [(7, [1; 8])] [(10, [1024])]
    [[48]] [[48; 45; 49]] [(0, 1)] [(0, 100, 50, [48])] [(4, [99; 112; 117])] [([103], 1, 2)] [] [1; 2; 3].
Definition round_builds : list rbuild := [mkRBuild 2 7 [97; 46; 115; 111] None None [1; 2; 3; 4; 5; 6; 7; 8] false].
Definition a_trace : x_event := XEvent R_AUXTRACE 0 48 (XBAuxtrace (XAuxtrace 8 0 0 0 0 0 [1; 2; 3; 4; 5; 6; 7; 8])) 0.
Definition round_file : wdata :=
  mkWData (2 ^ 18 - 2 + 2 ^ 30) the_attrs [(3, [99; 121]); (3, [99; 122])]
    [message an_mmap; a_trace; message (a_sample 19)] round_builds round_meta
    [XHybrid [99; 111; 114; 101] None [0; 1; 2; 5]].

Ltac no_nul := vm_compute; intros ?H; repeat (destruct H as [H|H]; [discriminate H|]); exact H.
Ltac texts := repeat first [apply Forall_nil | apply Forall_cons]; try (split; [no_nul|vm_compute; reflexivity]).
Example C59_hypotheses_met :
  from_messages round_file = Ok (readers, round_file) /\ representable round_file /\
  metadata_ok round_file /\ attrs_ok round_file /\ traces_ok round_file /\ events_ok in_order readers round_file /\
  exists f, write_to_vector in_order 4096 readers round_file = Ok f.
Proof.
  split; [vm_compute; reflexivity|]. split; [|split; [|split; [|split; [|split]]]].
  - split; each.
    + split; [vm_compute; reflexivity|split; vm_compute; reflexivity].
    + split; [vm_compute; discriminate|split; [no_nul|vm_compute; reflexivity]].
    + split; [vm_compute; reflexivity|]. vm_compute. discriminate.
    + split; [vm_compute; reflexivity|]. vm_compute. discriminate.
    + split; [vm_compute; reflexivity|]. intros _. split; vm_compute; reflexivity.
  - constructor.
    + texts.
    + split; [texts|vm_compute; reflexivity].
    + intros _. eexists. split; [reflexivity|]. split; [discriminate|]. each.
    + intros _. eexists. split; [reflexivity|]. split; [discriminate|]. each.
    + split; [texts|vm_compute; reflexivity].
    + split; [texts|vm_compute; reflexivity].
    + each; split; vm_compute; reflexivity.
    + intros _. right. split; [reflexivity|]. eexists. reflexivity.
    + split; [|vm_compute; reflexivity]. each. repeat (split; [vm_compute; reflexivity|]). split; [no_nul|vm_compute; reflexivity].
    + split; [|split; [vm_compute; reflexivity|discriminate]]. each. split; [vm_compute; reflexivity|]. split; [no_nul|vm_compute; reflexivity].
    + split; [|vm_compute; reflexivity]. each. split; [split; [no_nul|vm_compute; reflexivity]|]. split; vm_compute; reflexivity.
    + split; [|vm_compute; reflexivity]. each. split; (split; [no_nul|vm_compute; reflexivity]).
    + intros _. each. constructor; try (vm_compute; reflexivity); [split; [no_nul|vm_compute; reflexivity]|].
      split; [reflexivity|]. split; [vm_compute; discriminate|]. split; [reflexivity|].
      intros t E. apply (f_equal (@rev N)) in E. rewrite rev_app_distr in E. discriminate E.
  - constructor; [|vm_compute; reflexivity|].
    + repeat first [apply Forall_nil | apply Forall_cons]; (split; [reflexivity|split; [vm_compute; reflexivity|each]]).
    + intros _. split; [reflexivity|]. split; [texts|each].
  - each; discriminate.
  - repeat first [apply Forall_nil | apply Forall_cons]; (eexists; split; [vm_compute; reflexivity|]; constructor;
      [eexists; split; [split; [reflexivity|split; vm_compute; discriminate]|reflexivity|reflexivity|first [solve [intros H; vm_compute in H; discriminate H]|intros _; vm_compute; reflexivity]]
      |intros _; vm_compute; reflexivity|intros _ H; vm_compute in H; discriminate H|intros H; vm_compute in H; discriminate H
      |eexists; vm_compute; reflexivity]).
  - eexists. vm_compute. reflexivity.
Qed.

(** What is read from it: everything, and nothing else. *)
Example C59_round_file : exists f st,
  write_to_vector in_order 4096 readers round_file = Ok f /\ read_perf_data plain_config f = Ok st /\
  map fe_raw (fs_events st) = [an_mmap; match deserialize in_order readers a_trace with Ok e => e | _ => [] end; a_sample 19] /\
  map fe_trace (fs_events st) = [[]; [1; 2; 3; 4; 5; 6; 7; 8]; []] /\
  map fa_ids (fs_attrs st) = [[5; 6]; [7]] /\ fs_types st = [(3, [99; 121]); (3, [99; 122])] /\
  fm_cpus (fs_meta st) = [(0, 1)] /\ fm_hybrid (fs_meta st) = [([99; 111; 114; 101], [48; 45; 50; 44; 53])] /\
  map rb_hash (fs_builds st) = [[1; 2; 3; 4; 5; 6; 7; 8]].
Proof. eexists. eexists. split; [vm_compute; reflexivity|]. split; [vm_compute; reflexivity|]. repeat split; vm_compute; reflexivity. Qed.

(** *** What does not hold *)

(** An attribute whose size is not that of the struct (its first version has 64
    bytes) is written with that size and with all of its 96 bytes: its ids are looked
    for in the wrong place and lost. *)
Definition small_attr (size : N) : x_attr := XAttr 0 size 3 4000 0 id_bits 0 (2 ^ 18) 0 0 0 0 0 0 0 0 0.
Definition small_attr_file : wdata := mkWData 0 [XFAttr (small_attr 64) [5]] [] [] [] no_meta [].
Theorem C59_attr_size_refuted : exists s f st,
  from_messages small_attr_file = Ok (s, small_attr_file) /\ representable small_attr_file /\
  write_to_vector in_order 4096 s small_attr_file = Ok f /\
  read_perf_data plain_config f = Ok st /\ fs_attrs st = [mkFAttr (des_attr (small_attr 96)) []].
Proof.
  eexists. eexists. eexists. split; [vm_compute; reflexivity|]. split; [split; each|]. split; [vm_compute; reflexivity|].
  split; [vm_compute; reflexivity|]. vm_compute; reflexivity.
Qed.
Print Assumptions C59_attr_size_refuted.

(** PMU mappings that are asked for and empty, and CPUs with cores without the
    number of CPUs, are written to a file that is then refused. *)
Definition no_pmu_file : wdata := mkWData (2 ^ 16) [] [] [] [] no_meta [].
Definition no_count_file : wdata :=
  mkWData (2 ^ 13) [] [] [] [] (mkFMeta [] [] [] [] [] [[48]] [[48]] [(0, 1)] [] [] [] [] []) [].
Theorem C59_refused_refuted : forall p, p = no_pmu_file \/ p = no_count_file ->
  representable p /\ exists s f, from_messages p = Ok (s, p) /\ write_to_vector in_order 4096 s p = Ok f /\
    read_perf_data plain_config f = Fail.
Proof.
  intros p [-> | ->]; (split; [split; each|]); eexists; eexists; (split; [vm_compute; reflexivity|]);
    (split; [vm_compute; reflexivity|]); vm_compute; reflexivity.
Qed.
Print Assumptions C59_refused_refuted.

(** A build id that ends in four zero bytes loses them; one whose length is no
    multiple of four gets more. *)
Definition build_file (id : list N) : wdata := mkWData (2 ^ 2) [] [] [] [mkRBuild 2 7 [97] None None id false] no_meta [].
Theorem C59_build_id_refuted : forall id id',
  (id, id') = ([1; 2; 3; 4; 5; 6; 7; 8; 0; 0; 0; 0], [1; 2; 3; 4; 5; 6; 7; 8]) \/ (id, id') = ([1; 2; 3; 4; 5; 6; 7], [1; 2; 3; 4; 5; 6; 7; 0]) ->
  exists s f st, from_messages (build_file id) = Ok (s, build_file id) /\ representable (build_file id) /\
    write_to_vector in_order 4096 s (build_file id) = Ok f /\ read_perf_data plain_config f = Ok st /\
    map rb_hash (fs_builds st) = [id'].
Proof.
  intros id id' [E|E]; injection E as -> ->; (eexists; eexists; eexists; split; [vm_compute; reflexivity|]);
    (split; [split; each; split; [vm_compute; discriminate|split; [no_nul|vm_compute; reflexivity]]|]);
    (split; [vm_compute; reflexivity|]); (split; [vm_compute; reflexivity|]); vm_compute; reflexivity.
Qed.
Print Assumptions C59_build_id_refuted.

(** A mapping with a build id gives one more build id every time the file is read
    and written. *)
Definition an_mmap2 : list N :=
  [10;0;0;0; 2;64; 112;0] ++ [1;0;0;0; 2;0;0;0] ++ w8 4096 ++ w8 8192 ++ w8 0 ++ [8;0;0;0] ++ [1;2;3;4;5;6;7;8] ++ repeat 0 12
  ++ [5;0;0;0; 2;0;0;0] ++ [97;98;0;0;0;0;0;0] ++ [1;0;0;0; 2;0;0;0] ++ w8 99 ++ [3;0;0;0; 0;0;0;0] ++ w8 6.
Definition mapped_file (builds : list rbuild) : wdata := mkWData (2 ^ 2) the_attrs [] [message an_mmap2] builds no_meta [].
Definition mapped_builds (builds : list rbuild) : outcome (list rbuild) :=
  let! x := from_messages (mapped_file builds) in
  let! f := write_to_vector in_order 4096 (fst x) (snd x) in
  let! st := read_perf_data plain_config f in
  Ok (fs_builds st).
Theorem C59_more_builds_refuted : exists b1 b2 b3,
  mapped_builds [] = Ok b1 /\ mapped_builds b1 = Ok b2 /\ mapped_builds b2 = Ok b3 /\
  map rb_file b3 = [[97; 98]; [97; 98]; [97; 98]] /\ len b1 = 1 /\ len b2 = 2.
Proof.
  eexists. eexists. eexists. split; [vm_compute; reflexivity|]. split; [vm_compute; reflexivity|]. split; [vm_compute; reflexivity|].
  repeat split; vm_compute; reflexivity.
Qed.
Print Assumptions C59_more_builds_refuted.
