(** C18-C22, C45, C48, C49: the Normalizer (src/perf_data_handler.cc) and the file
    name predicates (src/path_matching.cc). *)
From Coq Require Import String.
From Verif Require Import Base BytesModel TextModel Assoc SpeModel PerfProto NormalizerModel NormalizerSpec
  NormalizerProofs NormalizerStepProofs NormalizerMoreProofs NormalizerMainProofs NormalizerBuildProofs.
Local Open Scope N_scope.
Local Open Scope list_scope.

(** * Example stream *)

Definition ev (w : ev_body) : perf_event := {| ev_misc := Some 2; ev_what := w |}.
Definition kev (w : ev_body) : perf_event := {| ev_misc := Some 1; ev_what := w |}.
Definition mm (pid start len : N) (f : list N) : perf_event :=
  ev (EvMMap {| mm_pid := pid; mm_start := start; mm_len := len; mm_pgoff := 0; mm_file := f;
                mm_md5 := 0; mm_build := None |}).
Definition smp (pid ip : N) (chain : list N) (br : list branch) : sample_ev :=
  {| s_ip := ip; s_pid := Some pid; s_tid := Some pid; s_time := None; s_addr := Some (ip + 1);
     s_id := Some 7; s_period := 1; s_cpu := None; s_callchain := chain; s_branch := br;
     s_weight := None; s_wstruct := None; s_data_src := None; s_cgroup := None;
     s_data_page := None; s_code_page := None |}.
Definition proto (attrs : list file_attr) (version : list N) (evs : list perf_event) : perf_proto :=
  {| pp_attrs := attrs; pp_events := evs; pp_types := []; pp_build_ids := [];
     pp_version := Some version; pp_command := None |}.
Definition attr1 : list file_attr := [{| fa_ids := [7]; fa_comm_exec := false; fa_period := 1 |}].
Definition attr2 : list file_attr :=
  [{| fa_ids := [5; 7]; fa_comm_exec := false; fa_period := 1 |};
   {| fa_ids := [7; 8]; fa_comm_exec := false; fa_period := 1 |}].

(** A process maps a program and a library over part of it, forks, the child maps
    something else; both are sampled, and two samples are lost. *)
Definition br1 : branch :=
  {| br_from := 0x1010; br_to := 0x2010; br_mispred := true; br_pred := false; br_intx := false;
     br_abort := false; br_cycles := 3; br_spec := 0 |}.
Definition stream : list perf_event :=
  [mm 10 0x1000 0x3000 (str "/bin/a"); mm 10 0x2000 0x1000 (str "/lib/b.so");
   mm 4294967295 0xffff0000 0x1000 (str "[kernel.kallsyms]_text");
   ev (EvFork {| fk_pid := 11; fk_ppid := 10; fk_tid := 11 |});
   mm 11 0x1000 0x1000 (str "/bin/c");
   ev (EvSample (smp 10 0x1800 [0xFFFFFFFFFFFFFE00; 0x1800; 0x2800; 0xffff0010] [br1]));
   ev (EvSample (smp 11 0x1800 [] [])); kev (EvSample (smp 10 0xffff0010 [] []));
   ev (EvLost {| lo_id := 7; lo_lost := 2; lo_pid := 10; lo_tid := 10 |})].

(** * C18 *)

(** C18. For every stream the converter gets through, every mapping attached to an
    address (of the sample, its data address, its callchain or its branch stack)
    contains that address: lost samples excepted ... *)
Theorem C18_mappings_contain_addresses (p : perf_proto) (cs : list hcall) :
  process p = Ok cs ->
  forall c, In (HSample c) cs -> cx_lost c = false -> addresses_ok (HSample c).
Proof.
  unfold process. intros H c Hc Hl. ok_inv H. ok_inv H0. destruct a0 as (s, cs'). injection H as <-.
  destruct (run_inv a (pp_events p) nstate0 [] s cs' (inv0 a) E0) as (_ & F).
  rewrite Forall_forall in F. exact (F _ Hc Hl).
Qed.
Print Assumptions C18_mappings_contain_addresses.

(** C18. ... and with them included, if no process goes by the reserved name
    "[lost]". *)
Theorem C18_all_mappings_contain_addresses (p : perf_proto) (cs : list hcall) :
  process p = Ok cs -> Forall not_named_lost (pp_events p) -> Forall addresses_ok cs.
Proof.
  unfold process. intros H F. ok_inv H. ok_inv H0. destruct a0 as (s, cs'). injection H as <-.
  exact (run_addresses a (pp_events p) [] nstate0 s cs' (inv0 a) lost_inv0 F E0).
Qed.
Print Assumptions C18_all_mappings_contain_addresses.

(** C18. No assertion of the Normalizer fires and nothing else goes wrong on any
    stream whose mappings are proper ranges and whose build ids are text, as long
    as the perf version string does not hold a number above 2^31-1. *)
Theorem C18_never_aborts (p : perf_proto) (b : bool) :
  perf_version_61 (match pp_version p with Some v => v | None => [] end) = Ok b ->
  Forall proper (pp_events p) -> Forall text_build_id (pp_events p) ->
  exists cs, process p = Ok cs.
Proof.
  intros Hv Hp Ht.
  assert (He : exists e, normalizer_env p = Ok e).
  { unfold normalizer_env. destruct (fold_left add_build_id _ _). rewrite Hv. cbn [obind]. eauto. }
  destruct He as (e & He). unfold process. rewrite He. cbn [obind].
  destruct (run_ok e (env_build_text p e He) (pp_events p) nstate0 [] (inv0 e) Hp Ht) as (s & cs & ->).
  cbn. eauto.
Qed.
Print Assumptions C18_never_aborts.

(** C18. A pointer handed to two callbacks stands for one mapping: same range,
    offset, build id and name (a mapping at 0x400000 without a name can get one). *)
Theorem C18_pointers_are_stable (p : perf_proto) (cs : list hcall) (c1 c2 : hcall) (q : ptr) (m1 m2 : hmapping) :
  process p = Ok cs -> In c1 cs -> In c2 cs ->
  In (q, m1) (refs_of c1) -> In (q, m2) (refs_of c2) -> same_object m1 m2.
Proof. exact (process_pointers p cs c1 c2 q m1 m2). Qed.
Print Assumptions C18_pointers_are_stable.

Example C18_example :
  exists cs, process (proto attr1 (str "5.4") stream) = Ok cs /\ List.length cs = 9%nat /\
    Forall proper stream /\ Forall text_build_id stream /\ Forall not_named_lost stream /\
    exists c q m, In (HSample c) cs /\ cx_lost c = false /\ cx_map c = Some (q, m) /\ hm_file m = str "/bin/c".
Proof.
  eexists. split; [vm_compute; reflexivity|]. split; [reflexivity|].
  split; [|split; [|split]].
  - repeat constructor; intros m H Hl; vm_compute in H; try discriminate H; injection H as <-; vm_compute; reflexivity.
  - repeat constructor; intros m b H Hl; vm_compute in H; try discriminate H; injection H as <-; discriminate Hl.
  - repeat constructor; intros m H; vm_compute in H; discriminate H.
  - eexists _, _, _. split; [do 5 right; left; reflexivity|]. split; [reflexivity|]. split; reflexivity.
Qed.

(** Finding: an mmap event whose range wraps around the end of memory aborts the
    conversion. *)
Theorem C18_wrapping_mmap_refuted :
  exists p, process p = Abort /\
    pp_events p = [mm 10 (2 ^ 64 - 4096) 8192 (str "/bin/a")].
Proof.
  exists (proto attr1 (str "5.4") [mm 10 (2 ^ 64 - 4096) 8192 (str "/bin/a")]).
  split; [vm_compute|]; reflexivity.
Qed.
Print Assumptions C18_wrapping_mmap_refuted.

(** Finding: so does a kernel mapping whose offset, taken for its start, is not
    below its end. *)
Theorem C18_kernel_fixup_refuted :
  exists p m, process p = Abort /\ pp_events p = [ev (EvMMap m)] /\
    mm_start m < mm_start m + mm_len m < 2 ^ 64.
Proof.
  exists (proto attr1 (str "5.4") [ev (EvMMap {| mm_pid := 4294967295; mm_start := 2 ^ 62; mm_len := 2 ^ 63;
     mm_pgoff := 2 ^ 64 - 4096; mm_file := str "[kernel.kallsyms]"; mm_md5 := 0; mm_build := None |})]).
  eexists. split; [vm_compute; reflexivity|]. split; [reflexivity|]. split; reflexivity.
Qed.
Print Assumptions C18_kernel_fixup_refuted.

(** Finding: a process called "[lost]" that is sampled in the kernel takes over the
    mapping of lost samples, whose address then lies outside it. *)
Definition lost_stream : list perf_event :=
  [ev (EvComm {| cm_pid := 10; cm_tid := 10; cm_comm := lost_name; cm_md5 := lost_md5 |});
   kev (EvSample (smp 10 0xffff0010 [] []));
   ev (EvLost {| lo_id := 7; lo_lost := 1; lo_pid := 10; lo_tid := 10 |})].
Theorem C18_process_named_lost_refuted :
  exists cs c, process (proto attr1 (str "5.4") lost_stream) = Ok cs /\
    In (HSample c) cs /\ ~ addresses_ok (HSample c).
Proof.
  eexists _, _. split; [vm_compute; reflexivity|].
  split; [do 2 right; left; reflexivity|].
  cbn. unfold contains. cbn. intros ((_ & H) & _). vm_compute in H. discriminate H.
Qed.
Print Assumptions C18_process_named_lost_refuted.

(** Finding: a build id with a NUL character in an mmap event makes the comparison
    with the recorded build id throw. *)
Theorem C18_nul_in_build_id_refuted :
  exists p m, process p = Abort /\ pp_events p = [ev (EvMMap m)] /\ proper (ev (EvMMap m)).
Proof.
  exists {| pp_attrs := attr1; pp_events := [ev (EvMMap {| mm_pid := 10; mm_start := 0x1000; mm_len := 0x1000;
              mm_pgoff := 0; mm_file := str "/bin/a"; mm_md5 := 0; mm_build := Some [97; 98; 0; 99; 100] |})];
            pp_types := [];
            pp_build_ids := [{| bi_misc := 2; bi_hash := [0xab]; bi_file := str "/bin/a"; bi_md5 := 0;
                                bi_injected := false |}];
            pp_version := None; pp_command := None |}.
  eexists. split; [vm_compute; reflexivity|]. split; [reflexivity|].
  intros m H _. vm_compute in H. injection H as <-. vm_compute. reflexivity.
Qed.
Print Assumptions C18_nul_in_build_id_refuted.

(** Finding: a version string with a number of 2^31 or more ends the conversion. *)
Theorem C18_perf_version_refuted :
  process (proto attr1 (str "2147483648.1") []) = Abort.
Proof. vm_compute. reflexivity. Qed.
Print Assumptions C18_perf_version_refuted.

(** * C19 *)

(** C19. Every sample of the stream whose event is known is delivered once, and
    every address of it resolves to the latest mapping in force for it when the
    sample is seen: the ip and the data address in the context of the header, each
    callchain entry in the context of the last marker before it, branch addresses
    in no particular context. [resolve] and [owner] are functions of the events
    before the sample only. *)
Theorem C19_latest_mapping (p : perf_proto) (cs : list hcall) h misc (sm : sample_ev) t e :
  process p = Ok cs -> normalizer_env p = Ok e ->
  pp_events p = h ++ {| ev_misc := misc; ev_what := EvSample sm |} :: t ->
  event_index e sm <> (-1)%Z ->
  exists s0 cs0 c cs2, run_events e nstate0 h = Ok (s0, cs0) /\ cs = cs0 ++ HSample c :: cs2 /\
    cx_sample c = sm /\ cx_misc c = misc /\ cx_lost c = false /\ cx_attr c = event_index e sm /\
    agrees e (cx_map c) (resolve (rev h) (dflt (s_pid sm)) (s_ip sm) (context_from_header misc)) /\
    match s_addr sm with
    | None => cx_addr c = None
    | Some a => agrees e (cx_addr c) (resolve (rev h) (dflt (s_pid sm)) a (context_from_header misc))
    end /\
    List.length (cx_chain c) = List.length (s_callchain sm) /\
    (forall i ip m, nth_error (cx_chain c) i = Some (ip, m) ->
       nth_error (s_callchain sm) i = Some ip /\
       if marker ip then m = None
       else agrees e m (resolve (rev h) (dflt (s_pid sm)) ip (context_at (s_callchain sm) i))) /\
    Forall2 (fun b x =>
       bp_from x = br_from b /\ bp_to x = br_to b /\ bp_mispred x = br_mispred b /\
       bp_pred x = br_pred b /\ bp_intx x = br_intx b /\ bp_abort x = br_abort b /\
       bp_cycles x = br_cycles b /\ bp_spec x = br_spec b /\
       agrees e (bp_from_map x) (resolve (rev h) (dflt (s_pid sm)) (br_from b) CUnknown) /\
       agrees e (bp_to_map x) (resolve (rev h) (dflt (s_pid sm)) (br_to b) CUnknown))
      (s_branch sm) (cx_branch c).
Proof.
  intros H He Hp Hi. destruct (process_sample p cs h misc sm t H Hp) as (e' & s0 & cs0 & cs2 & He' & Hr & Hc).
  rewrite He in He'. injection He' as <-.
  destruct (Z.eqb_spec (event_index e sm) (-1)); [contradiction|].
  destruct Hc as (c & -> & D & _). exists s0, cs0, c, cs2. split; [exact Hr|]. split; [reflexivity|].
  destruct D as [D1 D2 D3 D4 D5 D6 D7 D8 D9 D10 D11].
  split; [exact D2|]. split; [exact D1|]. split; [exact D4|]. split; [exact D5|].
  split; [exact D6|]. split; [exact D7|]. split; [exact D8|]. split.
  - intros i ip m Hm. destruct (D9 i (ip, m) Hm) as (A & _ & B). split; [exact A|exact B].
  - destruct D10 as (l & F & ->). clear - F. induction F as [|b x bs xs Hb F IH]; constructor; [|exact IH].
    destruct Hb as (A1 & A2 & A3 & A4 & A5 & A6 & A7 & A8 & A9 & A10 & _ & _). repeat (split; [assumption|]). assumption.
Qed.
Print Assumptions C19_latest_mapping.

(** C19. The latest mapping covering the address wins, whatever happened before;
    unmapped, guest and hypervisor addresses resolve to nothing; user addresses
    never fall back to the kernel. *)
Theorem C19_resolve_reads_as_stated (h : list perf_event) (pid ip : N) (c : actx) :
  (forall m, resolve h pid ip c = Some m -> covers m ip = true) /\
  (ip / 2 ^ 60 = 8 -> resolve h pid ip c = None) /\
  (c = CGuestKernel \/ c = CGuestUser \/ c = CHypervisor -> resolve h pid ip c = None) /\
  (forall m mi, mm_pid m = pid -> covers m ip = true -> ip / 2 ^ 60 <> 8 ->
     c = CHostUser \/ c = CHostKernel \/ c = CUnknown ->
     resolve ({| ev_misc := mi; ev_what := EvMMap m |} :: h) pid ip c = Some m) /\
  (c = CHostUser -> owner h pid ip = None -> resolve h pid ip c = None) /\
  (c = CHostKernel \/ c = CUnknown -> ip / 2 ^ 60 <> 8 -> owner h pid ip = None ->
     resolve h pid ip c = owner h 4294967295 ip).
Proof.
  assert (O : forall h pid m, owner h pid ip = Some m -> covers m ip = true).
  { clear. induction h as [|ev h IH]; intros pid m; cbn [owner]; [easy|].
    destruct (announced ev) as [x|].
    - destruct ((mm_pid x =? pid) && covers x ip) eqn:E; [|apply IH].
      intros [= <-]. now apply andb_prop in E.
    - destruct (ev_what ev); try apply IH. destruct ((fk_pid f =? pid) && known h (fk_ppid f)); apply IH. }
  unfold resolve. split; [|split; [|split; [|split; [|split]]]].
  - intros m. destruct (ip / 2 ^ 60 =? 8); [easy|].
    destruct c; try easy; try apply O.
    all: destruct (owner h pid ip) eqn:E; [intros [= <-]; eapply O; eauto|apply O].
  - intros ->. reflexivity.
  - intros Hc. destruct (ip / 2 ^ 60 =? 8); [easy|]. destruct Hc as [->|[->| ->]]; reflexivity.
  - intros m mi Hp Hcv Hi Hc. apply N.eqb_neq in Hi. rewrite Hi.
    cbn [owner announced ev_what]. rewrite Hp, N.eqb_refl, Hcv. cbn [andb].
    destruct Hc as [->|[->| ->]]; reflexivity.
  - intros -> ->. now destruct (ip / 2 ^ 60 =? 8).
  - intros Hc Hi ->. apply N.eqb_neq in Hi. rewrite Hi. destruct Hc as [->| ->]; reflexivity.
Qed.
Print Assumptions C19_resolve_reads_as_stated.

Example C19_example :
  exists cs c, process (proto attr1 (str "5.4") stream) = Ok cs /\
    nth_error cs 4 = Some (HSample c) /\
    option_map (fun r => hm_file (snd r)) (cx_map c) = Some (str "/bin/a") /\
    map (fun x => option_map (fun r => hm_file (snd r)) (snd x)) (cx_chain c)
      = [None; Some (str "/bin/a"); Some (str "/lib/b.so"); None] /\
    map (fun x => option_map (fun r => hm_file (snd r)) (bp_to_map x)) (cx_branch c) = [Some (str "/lib/b.so")] /\
    stream = firstn 5 stream ++ ev (EvSample (smp 10 0x1800 [0xFFFFFFFFFFFFFE00; 0x1800; 0x2800; 0xffff0010] [br1]))
               :: skipn 6 stream.
Proof. eexists _, _. split; [vm_compute; reflexivity|]. split; [reflexivity|]. repeat split. Qed.

(** * C20 *)

(** C20. After a fork of a process with known mappings, the child resolves every
    user address as the parent did at that moment, whatever the parent or others
    do afterwards. *)
Theorem C20_child_sees_snapshot (p : perf_proto) (cs : list hcall) h f fm t misc (sm : sample_ev) r e :
  process p = Ok cs -> normalizer_env p = Ok e ->
  pp_events p = h ++ {| ev_misc := fm; ev_what := EvFork f |} :: t
                  ++ {| ev_misc := misc; ev_what := EvSample sm |} :: r ->
  known (rev h) (fk_ppid f) = true -> Forall (leaves_alone (fk_pid f)) t ->
  s_pid sm = Some (fk_pid f) -> context_from_header misc = CHostUser -> s_ip sm / 2 ^ 60 <> 8 ->
  event_index e sm <> (-1)%Z ->
  exists cs0 c cs2, cs = cs0 ++ HSample c :: cs2 /\ cx_sample c = sm /\
    agrees e (cx_map c) (owner (rev h) (fk_ppid f) (s_ip sm)).
Proof.
  intros H He Hp Hk F Hs Hc Hi Hx.
  assert (Hp' : pp_events p = (h ++ {| ev_misc := fm; ev_what := EvFork f |} :: t)
                 ++ {| ev_misc := misc; ev_what := EvSample sm |} :: r) by now rewrite <- app_assoc.
  destruct (process_sample p cs _ misc sm r H Hp') as (e' & s0 & cs0 & cs2 & He' & Hr & Hd).
  rewrite He in He'. injection He' as <-. destruct (Z.eqb_spec (event_index e sm) (-1)); [contradiction|].
  destruct Hd as (c & -> & D & _). exists cs0, c, cs2. split; [reflexivity|]. split; [apply D|].
  pose proof (dl_map _ _ _ _ _ _ D) as A. rewrite Hs, Hc in A. unfold resolve in A. cbn [dflt] in A.
  apply N.eqb_neq in Hi. rewrite Hi in A. rewrite rev_app_distr in A. cbn [rev] in A.
  rewrite <- !app_assoc in A. rewrite owner_alone in A by exact F. cbn [app owner announced ev_what] in A.
  rewrite N.eqb_refl, Hk in A. exact A.
Qed.
Print Assumptions C20_child_sees_snapshot.

(** C20. Events that are not about a process (mappings of it or forks creating it)
    never change how its user addresses resolve: in particular what its parent or
    children do after a fork. *)
Theorem C20_isolation (p : perf_proto) (cs : list hcall) h t misc (sm : sample_ev) r e pid :
  process p = Ok cs -> normalizer_env p = Ok e ->
  pp_events p = h ++ t ++ {| ev_misc := misc; ev_what := EvSample sm |} :: r ->
  Forall (leaves_alone pid) t ->
  s_pid sm = Some pid -> context_from_header misc = CHostUser -> s_ip sm / 2 ^ 60 <> 8 ->
  event_index e sm <> (-1)%Z ->
  exists cs0 c cs2, cs = cs0 ++ HSample c :: cs2 /\ cx_sample c = sm /\
    agrees e (cx_map c) (owner (rev h) pid (s_ip sm)).
Proof.
  intros H He Hp F Hs Hc Hi Hx. rewrite app_assoc in Hp.
  destruct (process_sample p cs _ misc sm r H Hp) as (e' & s0 & cs0 & cs2 & He' & Hr & Hd).
  rewrite He in He'. injection He' as <-. destruct (Z.eqb_spec (event_index e sm) (-1)); [contradiction|].
  destruct Hd as (c & -> & D & _). exists cs0, c, cs2. split; [reflexivity|]. split; [apply D|].
  pose proof (dl_map _ _ _ _ _ _ D) as A. rewrite Hs, Hc in A. unfold resolve in A. cbn [dflt] in A.
  apply N.eqb_neq in Hi. rewrite Hi, rev_app_distr, owner_alone in A by exact F. exact A.
Qed.
Print Assumptions C20_isolation.

(** C20. A fork with pid = ppid (a new thread) changes no address space. *)
Theorem C20_thread_fork_changes_nothing (h : list perf_event) (fm : option N) (f : fork_ev) (pid ip : N) (c : actx) :
  fk_pid f = fk_ppid f ->
  resolve ({| ev_misc := fm; ev_what := EvFork f |} :: h) pid ip c = resolve h pid ip c.
Proof.
  intros E. assert (O : forall q, owner ({| ev_misc := fm; ev_what := EvFork f |} :: h) q ip = owner h q ip).
  { intros q. cbn [owner announced ev_what]. rewrite E.
    destruct (N.eqb_spec (fk_ppid f) q) as [->|]; cbn [andb]; [|reflexivity].
    now destruct (known h q). }
  unfold resolve. now rewrite !O.
Qed.
Print Assumptions C20_thread_fork_changes_nothing.

Example C20_example :
  known (rev (firstn 3 stream)) 10 = true /\ Forall (leaves_alone 10) (firstn 2 (skipn 3 stream)) /\
  option_map mm_file (owner (rev (firstn 3 stream)) 10 0x2800) = Some (str "/lib/b.so") /\
  option_map mm_file (owner (rev (firstn 5 stream)) 11 0x2800) = Some (str "/lib/b.so") /\
  option_map mm_file (owner (rev (firstn 5 stream)) 11 0x1800) = Some (str "/bin/c").
Proof.
  split; [reflexivity|]. split; [|repeat split].
  repeat constructor; intros x H; vm_compute in H; try discriminate H; injection H as <-; discriminate.
Qed.

(** Finding: a fork from a process without known mappings leaves the child with the
    mappings of the earlier process of that number. *)
Theorem C20_fork_of_unknown_parent_refuted :
  exists cs c, process (proto attr1 (str "5.4")
    [mm 11 0x1000 0x1000 (str "/bin/old"); ev (EvFork {| fk_pid := 11; fk_ppid := 10; fk_tid := 11 |});
     ev (EvSample (smp 11 0x1800 [] []))]) = Ok cs /\
    In (HSample c) cs /\ option_map (fun r => hm_file (snd r)) (cx_map c) = Some (str "/bin/old").
Proof. eexists _, _. split; [vm_compute; reflexivity|]. split; [right; left; reflexivity|reflexivity]. Qed.
Print Assumptions C20_fork_of_unknown_parent_refuted.

(** * C21 *)

(** C21. A record of n lost samples (LOST_SAMPLES records from perf 6.1 on, LOST
    records before: [ne_lost_samples]) makes n equal deliveries, each at the
    reserved address 9 << 60 in the mapping "[lost]" that covers only it, with the
    record's pid, tid and id; the sample count grows by n. *)
Theorem C21_lost_samples_one_by_one (p : perf_proto) (cs : list hcall) h l misc t (kind : bool) e :
  process p = Ok cs -> normalizer_env p = Ok e ->
  pp_events p = h ++ {| ev_misc := misc; ev_what := if kind then EvLostSamples l else EvLost l |} :: t ->
  Forall not_named_lost h -> ne_lost_samples e = kind ->
  exists s0 cs0 s1 c1 cs2, run_events e nstate0 h = Ok (s0, cs0) /\
    run_events e nstate0 (h ++ [{| ev_misc := misc; ev_what := if kind then EvLostSamples l else EvLost l |}])
      = Ok (s1, cs0 ++ c1) /\
    cs = cs0 ++ c1 ++ cs2 /\
    nt_samples (ns_stat s1) = (nt_samples (ns_stat s0) + Z.of_N (lo_lost l))%Z /\
    forall sm, s_id sm = Some (lo_id l) ->
    if (event_index e sm =? -1)%Z then c1 = []
    else exists c, c1 = repeat (HSample c) (N.to_nat (lo_lost l)) /\
      cx_lost c = true /\ cx_attr c = event_index e sm /\ s_ip (cx_sample c) = 9 * 2 ^ 60 /\
      s_pid (cx_sample c) = Some (lo_pid l) /\ s_tid (cx_sample c) = Some (lo_tid l) /\
      s_id (cx_sample c) = Some (lo_id l) /\
      exists q m, cx_map c = Some (q, m) /\ hm_file m = str "[lost]" /\
        hm_start m = 9 * 2 ^ 60 /\ hm_limit m = 9 * 2 ^ 60 + 1.
Proof.
  intros H He Hp F Hk.
  destruct (process_lost p cs h l misc t kind e H He Hp F Hk) as (s0 & cs0 & s1 & c1 & cs2 & A1 & A2 & A3 & A4 & A5).
  exists s0, cs0, s1, c1, cs2. split; [exact A1|]. split; [exact A2|]. split; [exact A3|]. split; [exact A4|].
  intros sm Hs. specialize (A5 sm Hs). destruct (event_index e sm =? -1)%Z; [exact A5|].
  destruct A5 as (c & -> & B1 & B2 & B3 & B4 & B5 & B6 & _ & _ & _ & _ & _ & _ & _ & _ & _ & q & m & C1 & C2 & C3 & C4 & _).
  exists c. split; [reflexivity|]. do 6 (split; [assumption|]). exists q, m. repeat (split; [assumption|]). assumption.
Qed.
Print Assumptions C21_lost_samples_one_by_one.

(** C21. The other kind of lost record is ignored, so nothing is counted twice. *)
Theorem C21_other_kind_ignored (e : nenv) (s : nstate) (misc : option N) (l : lost_ev) :
  on_event e s {| ev_misc := misc; ev_what := if ne_lost_samples e then EvLost l else EvLostSamples l |}
  = Ok (s, []).
Proof. unfold on_event. cbn [ev_what]. destruct (ne_lost_samples e); reflexivity. Qed.
Print Assumptions C21_other_kind_ignored.

Example C21_example :
  exists cs c, process (proto attr1 (str "5.4") stream) = Ok cs /\
    skipn 7 cs = repeat (HSample c) 2 /\ cx_lost c = true /\
    stream = firstn 8 stream ++ [ev (EvLost {| lo_id := 7; lo_lost := 2; lo_pid := 10; lo_tid := 10 |})] /\
    perf_version_61 (str "5.4") = Ok false /\ perf_version_61 (str "6.1.7") = Ok true.
Proof. eexists _, _. split; [vm_compute; reflexivity|]. split; [reflexivity|]. repeat split. Qed.

(** * C22 *)

(** C22. With several attributes the event of a sample is the last attribute that
    owns the sample's id; without one, or without an id, there is none. *)
Theorem C22_event_of_sample (p : perf_proto) (e : nenv) (sm : sample_ev) :
  normalizer_env p = Ok e ->
  match pp_attrs p, s_id sm with
  | [_], _ => event_index e sm = 0%Z
  | _, None => event_index e sm = (-1)%Z
  | _, Some id =>
      (event_index e sm = (-1)%Z /\ forall a, In a (pp_attrs p) -> ~ In id (fa_ids a)) \/
      exists i a, event_index e sm = Z.of_nat i /\ nth_error (pp_attrs p) i = Some a /\
        In id (fa_ids a) /\
        forall j b, (i < j)%nat -> nth_error (pp_attrs p) j = Some b -> ~ In id (fa_ids b)
  end.
Proof.
  intros He. pose proof (event_index_single p e sm He) as H1.
  pose proof (event_index_no_id p e sm He) as H2.
  pose proof (fun id => event_index_spec p e sm id He) as H3.
  destruct (pp_attrs p) as [|a [|b r]]; destruct (s_id sm) as [id|];
    first [exact (H1 eq_refl) | exact (H2 ltac:(discriminate) eq_refl)
          | exact (H3 id ltac:(discriminate) eq_refl)].
Qed.
Print Assumptions C22_event_of_sample.

(** C22. The index is never outside the table. *)
Theorem C22_index_in_table (p : perf_proto) (e : nenv) (sm : sample_ev) :
  normalizer_env p = Ok e ->
  event_index e sm = (-1)%Z \/ (0 <= event_index e sm < Z.of_nat (List.length (pp_attrs p)))%Z.
Proof.
  intros He. pose proof (C22_event_of_sample p e sm He) as H.
  destruct (pp_attrs p) as [|a [|b r]] eqn:Ep; destruct (s_id sm) as [id|]; auto;
    try (right; rewrite H; cbn; lia);
    (destruct H as [(H & _)|(i & x & -> & Hn & _)]; [auto|]; right;
     assert (i < List.length (pp_attrs p))%nat by (apply nth_error_Some; rewrite Ep; congruence);
     rewrite Ep in H; lia).
Qed.
Print Assumptions C22_index_in_table.

Example C22_example :
  exists e, normalizer_env (proto attr2 (str "5.4") []) = Ok e /\
    event_index e (smp 1 0 [] []) = 1%Z /\
    event_index e {| s_ip := 0; s_pid := None; s_tid := None; s_time := None; s_addr := None;
      s_id := Some 9; s_period := 0; s_cpu := None; s_callchain := []; s_branch := []; s_weight := None;
      s_wstruct := None; s_data_src := None; s_cgroup := None; s_data_page := None; s_code_page := None |} = (-1)%Z.
Proof. eexists. split; [vm_compute; reflexivity|]. split; reflexivity. Qed.

(** * C45 *)

(** C45. Two (text) build ids are the same exactly if one is the other followed by
    zeros. *)
Theorem C45_same_build_id (a b : list N) :
  ~ In 0 a -> ~ In 0 b ->
  exists r, is_same_build_id a b = Ok r /\ (r = true <-> zero_extends a b \/ zero_extends b a).
Proof. exact (same_build_id_spec a b). Qed.
Print Assumptions C45_same_build_id.

Theorem C45_same_build_id_symmetric (a b : list N) :
  ~ In 0 a -> ~ In 0 b -> is_same_build_id a b = is_same_build_id b a.
Proof.
  intros Ha Hb. destruct (same_build_id_spec a b Ha Hb) as (x & -> & Hx).
  destruct (same_build_id_spec b a Hb Ha) as (y & -> & Hy). f_equal. destruct x, y; auto.
  - symmetry. apply Hy. apply or_comm. now apply Hx.
  - apply Hx. apply or_comm. now apply Hy.
Qed.
Print Assumptions C45_same_build_id_symmetric.

(** C45. Deleted and versioned shared objects are told by name: ".so" somewhere
    after the first character, then one of '.', '_' and ' ', and "(deleted)" later;
    respectively ".so." somewhere after the first character. *)
Theorem C45_deleted_shared_object (path : list N) :
  (forall u, path <> u ++ str ".so") ->
  exists b, is_deleted_so path = Ok b /\
    (b = true <-> exists u c v, path = u ++ str ".so" ++ c :: v /\ u <> [] /\
        (c = 46 \/ c = 95 \/ c = 32) /\ occurs (str "(deleted)") (c :: v)).
Proof.
  intros H. apply (is_deleted_so_spec path).
  destruct (has_suffix path (str ".so")) eqn:E; [|reflexivity].
  apply has_suffix_iff in E as (u & E). exfalso. exact (H u E).
Qed.
Print Assumptions C45_deleted_shared_object.

Theorem C45_versioned_shared_object (path : list N) :
  is_versioned_so path = true <-> exists u v, path = u ++ str ".so." ++ v /\ u <> [].
Proof. exact (is_versioned_so_spec path). Qed.
Print Assumptions C45_versioned_shared_object.

Example C45_example :
  is_same_build_id (str "abcd00") (str "abcd") = Ok true /\ is_same_build_id (str "abcd01") (str "abcd") = Ok false /\
  is_deleted_so (str "/lib/x.so.1 (deleted)") = Ok true /\ is_deleted_so (str "/lib/x.so.1") = Ok false /\
  is_versioned_so (str "/lib/x.so.1") = true.
Proof. repeat split. Qed.

(** Finding: asked about a plain shared object, IsDeletedSharedObject reads past
    the end of the name and throws. *)
Theorem C45_plain_shared_object_refuted :
  is_deleted_so (str "/lib/x.so") = Abort.
Proof. vm_compute. reflexivity. Qed.
Print Assumptions C45_plain_shared_object_refuted.

(** * C48 *)

(** C48. Every delivered sample carries the main executable of its process as the
    events before it determine it: the latest mapping at one of the two link
    addresses, or the first one since the last exec whose name can be a program's;
    copied by fork. Kernel samples of a process without one get a stand-in named
    after the process, and idle tasks the kernel. *)
Theorem C48_main_executable (p : perf_proto) (cs : list hcall) h misc (sm : sample_ev) t e :
  process p = Ok cs -> normalizer_env p = Ok e ->
  pp_events p = h ++ {| ev_misc := misc; ev_what := EvSample sm |} :: t ->
  event_index e sm <> (-1)%Z ->
  exists s0 cs0 c cs2, run_events e nstate0 h = Ok (s0, cs0) /\ cs = cs0 ++ HSample c :: cs2 /\
    main_ok (existsb fa_comm_exec (pp_attrs p)) e (rev h) (dflt (s_pid sm)) (context_from_header misc) (cx_main c).
Proof.
  intros H He Hp Hi. destruct (process_sample p cs h misc sm t H Hp) as (e' & s0 & cs0 & cs2 & He' & Hr & Hc).
  rewrite He in He'. injection He' as <-.
  destruct (Z.eqb_spec (event_index e sm) (-1)); [contradiction|].
  destruct Hc as (c & -> & _ & M). exists s0, cs0, c, cs2. split; [exact Hr|]. split; [reflexivity|].
  replace (existsb fa_comm_exec (pp_attrs p)) with (ne_comm_exec e); [exact M|].
  unfold normalizer_env in He. destruct (fold_left add_build_id _ _). ok_inv He. injection H0 as <-. reflexivity.
Qed.
Print Assumptions C48_main_executable.

Example C48_example :
  exists cs c1 c2, process (proto attr1 (str "5.4")
     ([ev (EvComm {| cm_pid := 10; cm_tid := 10; cm_comm := str "a"; cm_md5 := 3 |});
       mm 10 0x2000 0x1000 (str "/lib/b.so"); mm 10 0x1000 0x1000 (str "/bin/a");
       mm 10 0x5000 0x1000 (str "/bin/z"); ev (EvSample (smp 10 0x1800 [] []));
       ev (EvComm {| cm_pid := 12; cm_tid := 12; cm_comm := str "kworker"; cm_md5 := 4 |});
       kev (EvSample (smp 12 0xffff0010 [] []))])) = Ok cs /\
    nth_error cs 4 = Some (HSample c1) /\ option_map (fun r => hm_file (snd r)) (cx_main c1) = Some (str "/bin/a") /\
    nth_error cs 6 = Some (HSample c2) /\ option_map (fun r => hm_file (snd r)) (cx_main c2) = Some (str "kworker").
Proof. eexists _, _, _. split; [vm_compute; reflexivity|]. repeat split. Qed.

(** * C49 *)

(** C49. Every mapping reported to the handler has the build id the profile
    prescribes, and says where it comes from. *)
Theorem C49_build_id_of_mapping (p : perf_proto) (cs : list hcall) (pid : N) (q : ptr) (m : hmapping) :
  process p = Ok cs -> Forall text_build_id (pp_events p) -> In (HMMap pid (q, m)) cs ->
  exists ev mm, In ev (pp_events p) /\ announced ev = Some mm /\ pid = mm_pid mm /\
    hm_start m = start_of mm /\ hm_limit m = limit_of mm /\ hm_off m = mm_pgoff mm /\
    expected_build p mm (hm_build m).
Proof.
  unfold process. intros H F Hi. ok_inv H. ok_inv H0. destruct a0 as (s, cs'). injection H as <-.
  destruct (run_mmap_calls a (pp_events p) [] nstate0 s cs' pid q m (inv0 a) E0 Hi)
    as (ev0 & mm0 & Hin & Ha & Hp & D1 & D2 & D3 & D4 & D5 & D6).
  exists ev0, mm0. do 3 (split; [assumption|]). do 3 (split; [assumption|]).
  apply (get_build_id_spec p a mm0 _ E); [|exact D5].
  rewrite Forall_forall in F. intros x. exact (F ev0 Hin mm0 x Ha).
Qed.
Print Assumptions C49_build_id_of_mapping.

Definition bid_rec (misc : N) (hash : list N) (f : list N) : build_id_ev :=
  {| bi_misc := misc; bi_hash := hash; bi_file := f; bi_md5 := 0; bi_injected := false |}.
Example C49_example :
  exists cs, process
    {| pp_attrs := attr1; pp_types := []; pp_version := None; pp_command := None;
       pp_build_ids := [bid_rec 1 [1; 2] (str "[kernel.kallsyms]"); bid_rec 2 [0xab] (str "/bin/a");
                        bid_rec 2 [0xcd] (str "/bin/a")];
       pp_events := [mm 10 0x1000 0x1000 (str "/bin/a");
                     mm 4294967295 0xffff0000 0x1000 (str "[kernel.kallsyms]_text");
                     ev (EvMMap {| mm_pid := 10; mm_start := 0x3000; mm_len := 0x1000; mm_pgoff := 0;
                                   mm_file := str "/bin/a"; mm_md5 := 0; mm_build := Some (str "cd00") |})] |} = Ok cs /\
    flat_map (fun c => match c with HMMap _ (_, m) => [hm_build m] | _ => [] end) cs
      = [(str "cd", SrcAmbiguous); (str "0102", SrcKernelPrefix); (str "cd00", SrcMmapSame)].
Proof. eexists. split; [vm_compute; reflexivity|]. reflexivity. Qed.
