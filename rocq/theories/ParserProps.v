(** Properties of PerfParser: C41 (replacing addresses), C42 (branch stacks, thread
    ids), C56 (attribution to files) and C57 (counters, files, discarding). Events
    are numbered as in [kept evs]: finished rounds have no number. *)
From Verif Require Import Base BytesModel TextModel Assoc MapperModel MapperSpec MapperProofs MapperStepProofs
  ParserModel ParserSpec ParserMapperProofs ParserProofs ParserRunProofs ParserLoopProofs ParserOkProofs
  ParserEndProofs.
From Coq Require Import String.
Local Open Scope N_scope.
Local Open Scope list_scope.

(** ** Examples *)

Definition ex_cf (remap discard : bool) : pconfig := mkPConfig remap discard false 4096.
Definition ev_map2 (misc pid start length pgoff : N) (file : string) : pevent :=
  mkPEvent 10 misc (PMap (mkPMap pid start length pgoff (str file) 8 1 77)).
Definition ev_sample (pid tid ip : N) (chain : list N) (branch : list pbranch) : pevent :=
  mkPEvent 9 2 (PSample (mkPSample pid tid (Some ip) None chain branch)).

(** A kernel image, a process with a command and two mappings, a child, a sample of
    the parent and one of the child, a finished round, a mapping nobody uses. *)
Definition ex_events : list pevent :=
  [ev_map2 1 4294967295 0xffffffff80000000 0x10000000 0xffffffff81000000 "[kernel.kallsyms]_text";
   mkPEvent 3 0 (PComm 7 7 (str "cat"));
   ev_map2 2 7 0x400000 0x4000 0x1000 "/bin/cat";
   ev_map2 2 7 0x401000 0x1000 0 "/lib/plugin";
   mkPEvent 68 0 (POther []);
   mkPEvent 7 0 (PFork 8 7 8 7);
   ev_sample 7 7 0x400123 [0xffffffffffffff80; 0xffffffff81000010; 0x400123; 0x401004] [];
   ev_sample 8 8 0x402008 [] [mkPBranch 0x400008 0x999999 [1]; mkPBranch 0 0 []];
   ev_map2 2 8 0x700000 0x1000 0 "/lib/unused"].

(** A history of small calls can be entered in full. *)
Lemma ex_roomy (h : list call) (B : N) :
  Forall call_ok h -> forallb (fun c => c_size c <=? B) h = true ->
  (N.of_nat (List.length h) * (B + 6 * 4096) <? two64) = true -> all_roomy (mkMapper [] 4096) h.
Proof.
  intros F S L. apply fits_roomy; auto.
  - right. exists 12. split; reflexivity.
  - exists B. split; [|now apply N.ltb_lt]. rewrite forallb_forall in S. intros c Hc. now apply N.leb_le, S.
Qed.

Lemma ex_page (remap discard : bool) : page_ok (pc_page (ex_cf remap discard)).
Proof. exists 12. split; [discriminate|reflexivity]. Qed.

Lemma ex_mappings_ok (remap discard : bool) : mappings_ok (ex_cf remap discard) ex_events.
Proof.
  assert (T : forall h c m, Forall call_ok (h ++ [c]) -> forallb (fun c => c_size c <=? 0xf000000) (h ++ [c]) = true ->
              (N.of_nat (List.length (h ++ [c])) * (0xf000000 + 6 * 4096) <? two64) = true ->
              forallb (fun p => negb ((c_start p <=? c_start c) && (c_end c <=? c_end p) && (c_size c <? c_size p))
                                || ((c_start c mod 4096 =? 0) && (c_end c mod 4096 =? 0))) (pieces h) = true ->
              mapping_ok (ex_cf remap discard) h c m).
  { intros h c m F S L P. split; [exact F|]. split; [now apply (ex_roomy _ 0xf000000)|].
    intros _ p Hp (I1 & I2 & I3). rewrite forallb_forall in P. specialize (P p Hp).
    apply N.leb_le in I1, I2. apply N.ltb_lt in I3. rewrite I1, I2, I3 in P. cbn [negb andb orb] in P.
    apply andb_prop in P as (P1 & P2). apply N.eqb_eq in P1, P2. auto. }
  intros n e Hn Hm.
  destruct n as [|[|[|[|[|[|[|[|n]]]]]]]]; vm_compute in Hn; try (injection Hn as <-); try discriminate Hm;
    try discriminate Hn; try (destruct n; discriminate Hn).
  - apply T; [repeat constructor| | |]; reflexivity.
  - apply T; [repeat constructor| | |]; reflexivity.
  - apply T; [repeat constructor| | |]; reflexivity.
  - apply T; [repeat constructor| | |]; reflexivity.
Qed.

(** ** C56: addresses are attributed to the files mapped there *)

(** If every mapping event can be entered, all events are processed up to the first
    one of an unknown kind; nothing aborts. *)
Theorem C56_no_abort (cf : pconfig) (evs : list pevent) :
  page_ok (pc_page cf) -> mappings_ok cf evs ->
  exists s, process_events cf evs = Ok ((List.length (processed evs) =? List.length (kept evs))%nat, s).
Proof.
  intros Hp Hm. destruct (process_events_progress cf evs Hp Hm) as (b & s & E). exists s.
  rewrite E. f_equal. f_equal. apply (totals cf evs Hp b s E).
Qed.
Print Assumptions C56_no_abort.

(** The row of every event that is processed is as specified: of a sample, the
    command of its thread and, for its address, its data address, the entries of its
    call chain and branch stack, the file and offset; of a mapping, the moved
    mapping; any other event is unchanged. *)
Theorem C56_rows (cf : pconfig) (evs : list pevent) (b : bool) (s : pstate) :
  page_ok (pc_page cf) -> process_events cf evs = Ok (b, s) ->
  List.length (ps_rows s) = List.length (kept evs) /\
  forall n e, nth_error (processed evs) n = Some e ->
    exists row, nth_error (ps_rows s) n = Some row /\
      row_result cf evs n (world_before evs n) e row.
Proof.
  intros Hp E. destruct (rows_done cf evs Hp b s E) as (L & H & _). split; auto.
  intros n e He. pose proof (processed_nth evs n e He) as Hk.
  assert (Hn : (n < List.length (processed evs))%nat) by (apply nth_error_Some; congruence).
  assert (Hl : (n < List.length (ps_rows s))%nat) by (rewrite L; apply nth_error_Some; congruence).
  destruct (nth_error (ps_rows s) n) as [row|] eqn:Er; [|apply nth_error_None in Er; lia].
  specialize (H n row Er). apply Nat.ltb_lt in Hn. rewrite Hn in H. destruct H as (e' & He' & H).
  exists row. split; auto. congruence.
Qed.
Print Assumptions C56_rows.

(** Events from the first one of an unknown kind on are left alone. *)
Theorem C56_after_unknown (cf : pconfig) (evs : list pevent) (b : bool) (s : pstate) (n : nat) (e : pevent) :
  page_ok (pc_page cf) -> process_events cf evs = Ok (b, s) ->
  (List.length (processed evs) <= n)%nat -> nth_error (kept evs) n = Some e ->
  nth_error (ps_rows s) n = Some (e, new_info).
Proof.
  intros Hp E Hn He. destruct (rows_done cf evs Hp b s E) as (L & H & _).
  assert (Hl : (n < List.length (ps_rows s))%nat) by (rewrite L; apply nth_error_Some; congruence).
  destruct (nth_error (ps_rows s) n) as [(e' & i)|] eqn:Er; [|apply nth_error_None in Er; lia].
  specialize (H n _ Er). apply Nat.ltb_ge in Hn. rewrite Hn in H. cbn in H. destruct H. congruence.
Qed.
Print Assumptions C56_after_unknown.

(** The file and offset of an address are those of the pieces left by the mappings
    of the process so far: the latest mapping covering the address (C12). *)
Theorem C56_places (cf : pconfig) (evs : list pevent) (n : nat) (pid a : N) :
  page_ok (pc_page cf) -> mappings_ok cf evs -> (n <= List.length (processed evs))%nat -> a < two64 ->
  let h := space_of (world_before evs n) pid in
  place_of evs (pc_page cf) h a = place_in evs h a.
Proof. intros Hp Hm Hn Ha. exact (place_pieces cf evs Hp Hm n pid a Hn Ha). Qed.
Print Assumptions C56_places.

(** Such a place names a mapping event of the process's mappings whose range covers
    the address, with no later mapping of the process covering it. *)
Theorem C56_latest_mapping (cf : pconfig) (evs : list pevent) (n : nat) (pid a : N) (file : list N) (off : N) :
  page_ok (pc_page cf) -> mappings_ok cf evs -> (n <= List.length (processed evs))%nat -> a < two64 ->
  let h := space_of (world_before evs n) pid in
  place_of evs (pc_page cf) h a = (Some file, off) ->
  exists c, last_covering h a = Some c /\ file = file_of evs (c_id c) /\
    off = (a - c_start c + c_off c) mod two64.
Proof.
  intros Hp Hm Hn Ha h P. destruct (spaces_good cf evs Hm n pid Hn) as (F & R). fold h in F, R.
  pose proof (page_align cf Hp) as Al.
  destruct (history_succeeds (pc_page cf) h Al F R) as (m & E).
  unfold place_of in P. rewrite (lookup_known (pc_page cf) h m a E) in P.
  destruct (get_mapped m a) as [((x & i) & o)|] eqn:G; [|discriminate]. injection P as <- <-.
  destruct (history_not_stale _ h m a x i o Al F R E Ha G) as (c & C1 & -> & C3). exists c. auto.
Qed.
Print Assumptions C56_latest_mapping.

(** Processes do not influence each other: the mappings of a process that has been
    mentioned change only with its own mapping events. *)
Theorem C56_processes_apart (w : world) (i : N) (e : pevent) (pid : N) (h : list call) :
  w_space w pid = Some h ->
  (is_mmap e = true -> m_pid (the_map (e_body e)) <> pid) ->
  w_space (see i w e) pid = Some h.
Proof.
  intros H N. unfold see, note_space, note_command, space_of, known_or.
  destruct (sample_of e) as [sm|]; [cbn; destruct (pid =? s_pid sm) eqn:E; auto;
    apply N.eqb_eq in E; subst; now rewrite H|].
  destruct (is_mmap e); [cbn; destruct (pid =? _) eqn:E; auto; apply N.eqb_eq in E; symmetry in E; now apply N in E|].
  destruct (e_type e =? 7).
  - destruct (the_fork (e_body e)) as (((p & pp) & t) & pt).
    assert (A : forall w', w_space w' = w_space w ->
      w_space (if pp =? p then w' else mkWorld (fun q => if q =? p then
        Some (match w_space w p with Some h0 => h0 | None => match w_space w pp with Some h0 => h0
              | None => match w_space w kernel_pid with Some h0 => h0 | None => [] end end end)
        else w_space w' q) (w_command w') (w_no_kernel w')) pid = Some h).
    { intros w' Ew. destruct (pp =? p); [now rewrite Ew|]. cbn. destruct (pid =? p) eqn:E; [|now rewrite Ew].
      apply N.eqb_eq in E. subst. now rewrite H. }
    destruct (w_command w (pp, pt)); apply A; reflexivity.
  - destruct (e_type e =? 3); auto. destruct (the_comm (e_body e)) as ((p & t) & c). cbn.
    destruct (pid =? p) eqn:E; auto. apply N.eqb_eq in E. subst. now rewrite H.
Qed.
Print Assumptions C56_processes_apart.

Definition rows_where (cf : pconfig) (evs : list pevent) : outcome (list (option (list N) * loc * list loc * option N)) :=
  let! r := process_events cf evs in
  Ok (map (fun '(_, i) => (pi_command i, pi_code i, pi_chain i, pi_hits i)) (ps_rows (snd r))).

(** The parent's sample lies in the first mapping, its chain in the kernel and the
    plugin; the child has its parent's mappings and command. *)
Example C56_example :
  processed ex_events = kept ex_events /\
  rows_where (ex_cf true false) ex_events = Ok
    [(None, (None, 0), [], Some 1); (None, (None, 0), [], None); (None, (None, 0), [], Some 3);
     (None, (None, 0), [], Some 1); (None, (None, 0), [], None);
     (Some (str "cat"), (Some (str "/bin/cat"), 0x1123),
      [(Some (str "[kernel.kallsyms]_text"), 0x10); (Some (str "/lib/plugin"), 4)], None);
     (Some (str "cat"), (Some (str "/bin/cat"), 0x3008), [], None);
     (None, (None, 0), [], Some 0)].
Proof. split; vm_compute; reflexivity. Qed.

(** Finding: the code aborts on a mapping event of length 0, or one that runs past
    the end of the address space. *)
Theorem C56_bad_mapping_aborts_refuted :
  exists cf e, page_ok (pc_page cf) /\ is_mmap e = true /\ process_events cf [e] = Abort.
Proof.
  exists (ex_cf false false), (ev_map2 2 7 0x400000 0 0 "/bin/cat").
  split; [apply ex_page|]. split; [reflexivity|]. vm_compute. reflexivity.
Qed.
Print Assumptions C56_bad_mapping_aborts_refuted.

(** Finding: "with remapping on, no sample keeps its address" is false after an event
    of a kind the parser does not know, such as READ (8); the parser still reports
    success. (The file reader refuses such events, C39, a protobuf may hold them.) *)
Theorem C56_unknown_event_leaves_rest_refuted :
  exists cf evs out rows s e, pc_remap cf = true /\ mappings_ok cf evs /\
    parse_raw_events cf evs = Ok (out, rows, s) /\ nth_error evs 2 = Some e /\
    sample_of e <> None /\ nth_error out 2 = Some e /\ place_of evs 4096 [mkCall 0x400000 0x1000 0 0] 0x400010 <> (None, 0).
Proof.
  set (evs := [ev_map2 2 7 0x400000 0x1000 0 "/bin/cat"; mkPEvent 8 0 (POther []); ev_sample 7 7 0x400010 [] []]).
  assert (X : exists out rows s, parse_raw_events (ex_cf true false) evs = Ok (out, rows, s) /\
                nth_error out 2 = nth_error evs 2).
  { do 3 eexists. split; [vm_compute; reflexivity|reflexivity]. }
  destruct X as (out & rows & s & E1 & E2).
  exists (ex_cf true false), evs, out, rows, s, (ev_sample 7 7 0x400010 [] []).
  split; [reflexivity|]. split.
  { intros n e Hn Hm. destruct n as [|n]; vm_compute in Hn; [|destruct n; discriminate Hn]. injection Hn as <-.
    split; [repeat constructor|]. split; [apply (ex_roomy _ 0x1000); [repeat constructor| |]; reflexivity|].
    intros _ p []. }
  split; [exact E1|]. split; [reflexivity|]. split; [discriminate|]. split; [exact E2|]. vm_compute. discriminate.
Qed.
Print Assumptions C56_unknown_event_leaves_rest_refuted.

(** ** C41: replacing addresses *)

(** Whenever a sample is processed, one function [f] of addresses turns the sample
    into the new one: its address, data address, the addresses of its call chain and
    of the branches. Without remapping [f] changes nothing; with it, [f] keeps the
    offset in the page. *)
Theorem C41_page_offset (cf : pconfig) (evs : list pevent) (b : bool) (s : pstate) (n : nat) (e : pevent) (sm : psample) :
  page_ok (pc_page cf) -> process_events cf evs = Ok (b, s) ->
  nth_error (processed evs) n = Some e -> sample_of e = Some sm ->
  exists f at_ command e' i sm',
    nth_error (ps_rows s) n = Some (e', i) /\ e_body e' = PSample sm' /\
    sample_result f at_ command sm sm' i /\
    (forall a, f a mod pc_page cf = a mod pc_page cf) /\
    (pc_remap cf = false -> forall a, f a = a).
Proof.
  intros Hp E He Hs. destruct (C56_rows cf evs b s Hp E) as (_ & H).
  destruct (H n e He) as ((e' & i) & Hr & _ & _ & R). rewrite Hs in R. destruct R as (sm' & B & R).
  exists (translate cf (space_of (world_before evs n) (s_pid sm))),
         (place_of evs (pc_page cf) (space_of (world_before evs n) (s_pid sm))),
         (w_command (world_before evs n) (s_pid sm, s_tid sm)), e', i, sm'.
  split; [exact Hr|]. split; [exact B|]. split; [exact R|]. split.
  - intros a. now apply translate_page.
  - intros Rm a. unfold translate. now rewrite Rm.
Qed.
Print Assumptions C41_page_offset.

(** If moreover the mappings are in order, and with remapping: two different
    addresses that fall into mappings of the process become different; distances
    inside a piece of a mapping are kept; an address outside all mappings becomes
    its low 60 bits under the digit 8. *)
Theorem C41_remapped (cf : pconfig) (evs : list pevent) (b : bool) (s : pstate) (n : nat) (e : pevent) (sm : psample) :
  page_ok (pc_page cf) -> mappings_ok cf evs -> pc_remap cf = true -> process_events cf evs = Ok (b, s) ->
  nth_error (processed evs) n = Some e -> sample_of e = Some sm ->
  let ps := pieces (space_of (world_before evs n) (s_pid sm)) in
  exists f at_ command e' i sm',
    nth_error (ps_rows s) n = Some (e', i) /\ e_body e' = PSample sm' /\
    sample_result f at_ command sm sm' i /\
    (forall x y, x < two64 -> y < two64 -> resolve ps x <> None -> resolve ps y <> None -> f x = f y -> x = y) /\
    (forall c x y, In c ps -> in_call x c -> in_call y c -> x <= y -> y < two64 -> f y = f x + (y - x)) /\
    (forall x, x < two64 -> resolve ps x = None -> f x = x mod 2 ^ 60 + 8 * 2 ^ 60).
Proof.
  intros Hp Hm Rm E He Hs ps. destruct (C56_rows cf evs b s Hp E) as (_ & H).
  destruct (H n e He) as ((e' & i) & Hr & _ & _ & R). rewrite Hs in R. destruct R as (sm' & B & R).
  set (h := space_of (world_before evs n) (s_pid sm)) in *.
  assert (Hn : (n <= List.length (processed evs))%nat).
  { apply Nat.lt_le_incl, nth_error_Some. congruence. }
  destruct (spaces_good cf evs Hm n (s_pid sm) Hn) as (F & Ro). fold h in F, Ro.
  exists (translate cf h), (place_of evs (pc_page cf) h),
         (w_command (world_before evs n) (s_pid sm, s_tid sm)), e', i, sm'.
  split; [exact Hr|]. split; [exact B|]. split; [exact R|]. split; [|split].
  - intros x y Hx Hy Rx Ry. now apply translate_injective.
  - intros c x y Hc Ix Iy Hxy Hy. now apply (translate_distance cf Hp h F x y c).
  - intros x Hx Rx. now apply translate_marked.
Qed.
Print Assumptions C41_remapped.

(** Below 2^63 are exactly the addresses of mappings, if these are not too large; so
    a marked address is never confused with a mapped one. *)
Theorem C41_marks_apart (cf : pconfig) (h : list call) (a : N) :
  page_ok (pc_page cf) -> pc_remap cf = true -> Forall call_ok h -> small_history (pc_page cf) h -> a < two64 ->
  (translate cf h a < 2 ^ 63 <-> resolve (pieces h) a <> None).
Proof. intros Hp Rm F S Ha. now apply translate_low. Qed.
Print Assumptions C41_marks_apart.

(** The mapping events themselves are moved the same way: the new start is the new
    address of the old start, the length is kept. *)
Theorem C41_moved_mapping (cf : pconfig) (evs : list pevent) (b : bool) (s : pstate) (n : nat) (e : pevent) :
  page_ok (pc_page cf) -> pc_remap cf = true -> process_events cf evs = Ok (b, s) ->
  nth_error (processed evs) n = Some e -> is_mmap e = true ->
  let w := world_before evs n in
  let m := the_map (e_body e) in
  let c := call_of (N.of_nat n) (kernel_image w e) m in
  exists e' i, nth_error (ps_rows s) n = Some (e', i) /\
    e_body e' = PMap (mkPMap (m_pid m) (translate cf (space_of w (m_pid m) ++ [c]) (c_start c)) (c_size c) (c_off c)
                        (m_file m) (m_maj m) (m_min m) (m_ino m)).
Proof.
  intros Hp Rm E He Hm w m c. destruct (C56_rows cf evs b s Hp E) as (_ & H).
  destruct (H n e He) as ((e' & i) & Hr & _ & _ & R). exists e', i. split; [exact Hr|].
  rewrite (mmap_not_sample e Hm), Hm in R. destruct R as (_ & R). rewrite Rm in R. exact R.
Qed.
Print Assumptions C41_moved_mapping.

Definition out_addresses (cf : pconfig) (evs : list pevent) : outcome (list (list N)) :=
  let! r := process_events cf evs in
  Ok (map (fun '(e, _) => match e_body e with
                          | PSample s => sample_ip s :: s_chain s ++ flat_map (fun b => [b_from b; b_to b]) (s_branch s)
                          | PMap m => [m_start m; m_len m; m_pgoff m]
                          | _ => [] end) (ps_rows (snd r))).

Example C41_example :
  out_addresses (ex_cf true false) ex_events = Ok
    [[0; 0xf000000; 0]; []; [0xf000000; 0x4000; 0x1000]; [0xf001000; 0x1000; 0]; [];
     [0xf000123; 0xffffffffffffff80; 0x10; 0xf000123; 0xf001004];
     [0xf002008; 0xf000008; 0x8000000000999999; 0; 0];
     [0xf004000; 0x1000; 0]] /\
  out_addresses (ex_cf false false) ex_events = Ok
    [[0xffffffff80000000; 0x10000000; 0xffffffff81000000]; []; [0x400000; 0x4000; 0x1000]; [0x401000; 0x1000; 0]; [];
     [0x400123; 0xffffffffffffff80; 0xffffffff81000010; 0x400123; 0x401004];
     [0x402008; 0x400008; 0x999999; 0; 0]; [0x700000; 0x1000; 0]].
Proof. split; vm_compute; reflexivity. Qed.

(** Finding: with a huge mapping a marked address can equal a mapped one. *)
Theorem C41_mark_confused_refuted :
  exists cf h a x, page_ok (pc_page cf) /\ pc_remap cf = true /\ Forall call_ok h /\
    all_roomy (mkMapper [] (pc_page cf)) h /\
    resolve (pieces h) a <> None /\ resolve (pieces h) x = None /\ x < two64 /\
    translate cf h a = translate cf h x.
Proof.
  exists (ex_cf true false), [mkCall 0 0x9000000000000000 0 0], 0x8000000000001234, 0xf000000000001234.
  split; [apply ex_page|]. split; [reflexivity|]. split; [repeat constructor|].
  split; [apply (ex_roomy _ 0x9000000000000000); [repeat constructor| |]; reflexivity|].
  split; [discriminate|]. split; [reflexivity|]. split; [reflexivity|]. vm_compute. reflexivity.
Qed.
Print Assumptions C41_mark_confused_refuted.

(** Finding: two different addresses outside all mappings can become equal. *)
Theorem C41_marks_collide_refuted :
  exists cf h a x, a <> x /\ pc_remap cf = true /\ resolve (pieces h) a = None /\ resolve (pieces h) x = None /\
    translate cf h a = translate cf h x.
Proof.
  exists (ex_cf true false), [], 0x7000000000001234, 0xf000000000001234. vm_compute. repeat split. discriminate.
Qed.
Print Assumptions C41_marks_collide_refuted.

(** ** C42: branch stacks and thread ids *)

(** A branch stack that consists of non-null entries followed by null ones: each
    non-null entry is translated and gets a location, the null ones stay and get
    none. Any other branch stack is left as it is, without locations, and the sample
    does not count as mapped. *)
Theorem C42_branch_stack (cf : pconfig) (evs : list pevent) (b : bool) (s : pstate) (n : nat) (e : pevent) (sm : psample) :
  page_ok (pc_page cf) -> process_events cf evs = Ok (b, s) ->
  nth_error (processed evs) n = Some e -> sample_of e = Some sm ->
  let h := space_of (world_before evs n) (s_pid sm) in
  let f := translate cf h in
  let at_ := place_of evs (pc_page cf) h in
  exists e' i sm', nth_error (ps_rows s) n = Some (e', i) /\ e_body e' = PSample sm' /\
    ((exists real nulls, s_branch sm = real ++ nulls /\
        Forall (fun x => b_from x <> 0 \/ b_to x <> 0) real /\ Forall (fun x => b_from x = 0 /\ b_to x = 0) nulls /\
        s_branch sm' = map (fun x => mkPBranch (f (b_from x)) (f (b_to x)) (b_flags x)) real ++ nulls /\
        pi_branch i = map (fun x => (b_flags x, at_ (b_from x), at_ (b_to x))) real)
     \/ ((exists l1 x y l2, s_branch sm = l1 ++ x :: y :: l2 /\ b_from x = 0 /\ b_to x = 0 /\
            (b_from y <> 0 \/ b_to y <> 0)) /\
         s_branch sm' = s_branch sm /\ pi_branch i = [] /\
         adds (pc_page cf) (world_before evs n) e NSampleMapped = false)).
Proof.
  intros Hp E He Hs h f at_. destruct (C56_rows cf evs b s Hp E) as (_ & H).
  destruct (H n e He) as ((e' & i) & Hr & _ & _ & R). rewrite Hs in R. destruct R as (sm' & B & R).
  exists e', i, sm'. split; [exact Hr|]. split; [exact B|].
  destruct R as (_ & _ & _ & _ & _ & (S1 & S2) & _).
  destruct (real_entries (s_branch sm)) as [real|] eqn:Re.
  - left. pose proof (real_stack_is _ _ Re) as T. destruct (S1 _ _ T) as (X & Y). destruct T as (T1 & T2 & T3).
    exists real, (skipn (List.length real) (s_branch sm)). split; [exact T1|]. split; [|split; [exact T3|split; [exact X|exact Y]]].
    apply Forall_forall. intros x Hx. rewrite Forall_forall in T2. specialize (T2 x Hx). unfold null_entry in T2.
    destruct (N.eq_dec (b_from x) 0); [|now left]. destruct (N.eq_dec (b_to x) 0); [tauto|now right].
  - right. split.
    + clear - Re. revert Re. induction (s_branch sm) as [|x l IH]; intros Re; [discriminate|]. cbn in Re.
      destruct (is_null x) eqn:Hx.
      * apply is_null_spec in Hx as (X1 & X2).
        destruct (forallb is_null l) eqn:Fl; [discriminate|]. clear Re IH.
        revert x X1 X2. induction l as [|y l IH]; intros x X1 X2; [discriminate|]. cbn in Fl.
        destruct (is_null y) eqn:Hy.
        { apply is_null_spec in Hy as (Y1 & Y2). destruct (IH Fl y Y1 Y2) as (l1 & u & v & l2 & El & P).
          exists (x :: l1), u, v, l2. now rewrite El. }
        exists [], x, y, l. split; [reflexivity|]. split; [exact X1|]. split; [exact X2|].
        unfold is_null in Hy. apply andb_false_iff in Hy as [Hy|Hy]; apply N.eqb_neq in Hy; auto.
      * destruct (real_entries l); [discriminate|]. destruct (IH eq_refl) as (l1 & u & v & l2 & -> & P).
        exists (x :: l1), u, v, l2. auto.
    + destruct S2 as (X & Y).
      { intros real nulls T. apply stack_is_real in T. congruence. }
      split; [exact X|]. split; [exact Y|]. unfold adds. rewrite Hs, Re. now rewrite !andb_false_r.
Qed.
Print Assumptions C42_branch_stack.

(** A thread is one number, from which pid and tid can be read off again. *)
Theorem C42_merge_split (pid tid : N) :
  pid < 2 ^ 32 -> tid < 2 ^ 32 -> merge_u32 pid tid < two64 /\ split_u64 (merge_u32 pid tid) = (pid, tid).
Proof.
  intros Hp Ht. assert (M : merge_u32 pid tid = pid * 2 ^ 32 + tid).
  { unfold merge_u32. rewrite N.shiftl_mul_pow2, N.lor_comm, lor_low by auto. lia. }
  rewrite M. split.
  - unfold two64. change (2 ^ 32) with 4294967296 in *. lia.
  - unfold split_u64. rewrite N.shiftr_div_pow2.
    replace 4294967295 with (N.ones 32) by reflexivity. rewrite N.land_comm, N.land_ones.
    f_equal.
    + rewrite N.div_add_l by discriminate. rewrite (N.div_small tid) by auto. lia.
    + rewrite N.add_comm, N.mod_add by discriminate. now apply N.mod_small.
Qed.
Print Assumptions C42_merge_split.

Theorem C42_split_merge (v : N) : v < two64 -> merge_u32 (fst (split_u64 v)) (snd (split_u64 v)) = v.
Proof.
  intros Hv. unfold merge_u32, split_u64. cbn [fst snd]. rewrite N.shiftr_div_pow2, N.shiftl_mul_pow2.
  replace 4294967295 with (N.ones 32) by reflexivity. rewrite (N.land_comm (N.ones 32)), N.land_ones, N.lor_comm.
  rewrite lor_low by (apply N.mod_lt; discriminate).
  rewrite N.add_comm, (N.mul_comm (v / 2 ^ 32)). symmetry. apply N.div_mod. discriminate.
Qed.
Print Assumptions C42_split_merge.

(** The stack of the second sample above: one branch, then a null entry; and one
    that is rejected. *)
Example C42_example :
  let locs evs := let! r := process_events (ex_cf true false) evs in
                  Ok (map (fun '(_, i) => pi_branch i) (ps_rows (snd r)), ps_stats (snd r) NSampleMapped) in
  locs (firstn 8 ex_events) = Ok ([[]; []; []; []; []; []; [([1], (Some (str "/bin/cat"), 0x1008), (None, 0))]], 1) /\
  locs [ev_map2 2 7 0x400000 0x4000 0 "/bin/cat";
        ev_sample 7 7 0x400008 [] [mkPBranch 0x400000 0 []; mkPBranch 0 0 []; mkPBranch 0x400010 0x400020 []]]
  = Ok ([[]; []], 0) /\
  split_u64 (merge_u32 7 8) = (7, 8).
Proof. cbv zeta. split; [|split]; vm_compute; reflexivity. Qed.

(** ** C57: counters, files, and discarding unused mappings *)

(** Each counter is the number of events, modulo 2^32, that [adds] counts. *)
Theorem C57_counters (cf : pconfig) (evs : list pevent) (b : bool) (s : pstate) (c : counter) :
  page_ok (pc_page cf) -> process_events cf evs = Ok (b, s) ->
  ps_stats s c = total (pc_page cf) evs c (List.length (processed evs)) mod 2 ^ 32.
Proof. intros Hp E. apply (totals cf evs Hp b s E). Qed.
Print Assumptions C57_counters.

(** The number kept beside a mapping event is how often an address of a sample fell
    into it, modulo 2^32. *)
Theorem C57_hits (cf : pconfig) (evs : list pevent) (b : bool) (s : pstate) (n : nat) (e : pevent) (row : pevent * pinfo) :
  page_ok (pc_page cf) -> process_events cf evs = Ok (b, s) ->
  nth_error (processed evs) n = Some e -> nth_error (ps_rows s) n = Some row ->
  pi_hits (snd row) = if is_mmap e
                      then Some (hits_of (pc_page cf) evs (List.length (processed evs)) (N.of_nat n) mod 2 ^ 32)
                      else None.
Proof.
  intros Hp E He Hr. destruct (rows_done cf evs Hp b s E) as (_ & _ & H).
  apply (H n e row); auto; [apply nth_error_Some; congruence|now apply processed_nth].
Qed.
Print Assumptions C57_hits.

(** The table of files has an entry for each mapped file, with device and inode of its
    first mapping, and the threads whose addresses fell into it. *)
Theorem C57_files (cf : pconfig) (evs : list pevent) (b : bool) (s : pstate) (name : list N) :
  page_ok (pc_page cf) -> process_events cf evs = Ok (b, s) ->
  file_result (pc_page cf) evs (List.length (processed evs)) name (aget list_eqb name (ps_dsos s)).
Proof. intros Hp E. apply (totals cf evs Hp b s E). Qed.
Print Assumptions C57_files.

(** Without discarding, every event keeps its place and kind, finished rounds are
    unchanged, and the others are the events of the rows. *)
Theorem C57_keeps_all (cf : pconfig) (evs : list pevent) :
  page_ok (pc_page cf) -> mappings_ok cf evs -> pc_discard cf = false ->
  exists out rows s, parse_raw_events cf evs = Ok (out, rows, s) /\
    Forall2 (fun e e' => e_type e' = e_type e /\ (e_type e = 68 -> e' = e)) evs out /\
    kept out = map fst rows /\ List.length rows = List.length (kept evs) /\
    forall n e, nth_error (processed evs) n = Some e ->
      exists row, nth_error rows n = Some row /\ row_result cf evs n (world_before evs n) e row.
Proof.
  intros Hp Hm D. destruct (process_events_progress cf evs Hp Hm) as (b & s & E).
  destruct (parse_keeps cf evs Hp b s E D) as (out & P & F2 & Kp).
  destruct (C56_rows cf evs b s Hp E) as (L & R).
  exists out, (ps_rows s), s. auto.
Qed.
Print Assumptions C57_keeps_all.

(** With discarding, exactly the mapping events without a hit go; the rest keeps its
    order. Finished rounds go too. *)
Theorem C57_discards_unused (cf : pconfig) (evs : list pevent) :
  page_ok (pc_page cf) -> mappings_ok cf evs -> well_formed evs -> pc_discard cf = true ->
  exists rows s, parse_raw_events cf evs = Ok (map fst rows, rows, s) /\
    Forall2 (row_ok cf evs) (staying (pc_page cf) evs) rows.
Proof.
  intros Hp Hm W D. destruct (process_events_progress cf evs Hp Hm) as (b & s & E).
  destruct (parse_discards cf evs Hp b s E D W) as (rows & P & F2). exists rows, s. auto.
Qed.
Print Assumptions C57_discards_unused.

Lemma ex_well_formed : well_formed ex_events.
Proof.
  intros e He. vm_compute in He.
  repeat (destruct He as [<-|He]; [split; [reflexivity|first [reflexivity|exact I]]|]). destruct He.
Qed.

Example C57_example :
  staying 4096 ex_events = [0; 1; 2; 3; 4; 5; 6]%nat /\
  (let! r := parse_raw_events (ex_cf true true) ex_events in
   let '(out, _, s) := r in
   Ok (map e_type out, map (ps_stats s) [NSample; NMmap; NComm; NFork; NExit; NSampleMapped; NData],
       aget list_eqb (str "/bin/cat") (ps_dsos s)))
  = Ok ([10; 3; 10; 10; 7; 9; 9], [2; 4; 1; 1; 0; 1; 0],
        Some (mkDso 8 1 77 true [merge_u32 8 8; merge_u32 7 7] [])).
Proof. split; vm_compute; reflexivity. Qed.

(** Finding: with discarding, a mapping event behind an event of an unknown kind makes
    the parser decide on a counter that was never set. *)
Theorem C57_discard_unset_counter_refuted :
  exists cf evs, page_ok (pc_page cf) /\ mappings_ok cf evs /\ parse_raw_events cf evs = UB.
Proof.
  exists (ex_cf true true), [mkPEvent 8 0 (POther []); ev_map2 2 7 0x400000 0x1000 0 "/bin/cat"].
  split; [apply ex_page|]. split.
  - intros n e Hn. vm_compute in Hn. destruct n; discriminate Hn.
  - vm_compute. reflexivity.
Qed.
Print Assumptions C57_discard_unset_counter_refuted.
