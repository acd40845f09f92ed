(** Theorems about the conversion of a perf recording into profiles: C23 to C29
    and C50 to C52. *)
From Coq Require Import String.
From Verif Require Import Base BytesModel TextModel Assoc ProfileModel BuilderModel BuilderSpec
  SpeModel PerfProto NormalizerModel NormalizerSpec NormalizerProps
  ConverterModel ConverterSpec ConverterFinalProofs.
Local Open Scope N_scope.
Local Open Scope list_scope.

(** * Example recording *)

Definition comm (pid tid : N) (name : list N) : perf_event :=
  ev (EvComm {| cm_pid := pid; cm_tid := tid; cm_comm := name; cm_md5 := 0 |}).
Definition at_time (pid tid ip t : N) (chain : list N) (period : N) : sample_ev :=
  {| s_ip := ip; s_pid := Some pid; s_tid := Some tid; s_time := Some t; s_addr := None;
     s_id := Some 7; s_period := period; s_cpu := None; s_callchain := chain; s_branch := [];
     s_weight := None; s_wstruct := None; s_data_src := None; s_cgroup := None;
     s_data_page := None; s_code_page := None |}.
Definition conf (labels opts : N) (evs : list perf_event) : cfg :=
  {| cf_data := proto attr1 (str "5.4") evs; cf_labels := labels; cf_options := opts; cf_types := [] |}.

(** Process 10 has two threads and is sampled three times, process 11 once; then
    10 execs another program and is sampled again, and two samples are lost. *)
Definition history : list perf_event :=
  [comm 10 10 (str "a"); comm 10 12 (str "worker"); mm 10 0x1000 0x3000 (str "/bin/a");
   ev (EvSample (at_time 10 12 0x1800 100 [0xFFFFFFFFFFFFFE00; 0x1800; 0x2800] 5));
   ev (EvSample (at_time 11 11 0x1800 120 [] 1));
   ev (EvSample (at_time 10 12 0x1800 90 [0x1800; 0x2800] 3));
   ev (EvSample (at_time 10 10 0x1800 110 [0x1800; 0x2800] 0));
   comm 10 10 (str "b"); mm 10 0x1000 0x1000 (str "/bin/b");
   ev (EvSample (at_time 10 10 0x1800 130 [] 1));
   ev (EvLost {| lo_id := 7; lo_lost := 2; lo_pid := 10; lo_tid := 10 |})].
(** Labels tid and thread_comm; one profile per process. *)
Definition example : cfg := conf 66 1 history.

Example C23_example :
  exists hs ps, process (cf_data example) = Ok hs /\ convert example = Ok ps /\ (0 < events example)%nat /\
    List.length (filter (sample_of example 0) hs) = 7%nat /\
    sum (map (weight example 0) (filter (sample_of example 0) hs)) = 13%Z /\
    total ps 0 = 7%Z /\ total ps 1 = 13%Z /\ map pr_pid ps = [10; 11; 10] /\
    map (fun p => map ps_val (pf_sample (pr_data p))) ps = [[[2; 8]; [1; 1]]; [[1; 1]]; [[1; 1]; [2; 2]]]%Z.
Proof.
  eexists _, _. split; [vm_compute; reflexivity|]. split; [vm_compute; reflexivity|]. split; [vm_compute; lia|].
  repeat split; vm_compute; reflexivity.
Qed.

(** * C23: conservation of counts *)
Theorem C23_counts_conserved : forall c hs ps i,
  process (cf_data c) = Ok hs -> convert c = Ok ps -> (i < events c)%nat ->
  total ps (2 * i) = Z.of_nat (List.length (filter (sample_of c i) hs)).
Proof. intros c hs ps i P C _. exact (proj1 (convert_totals c hs ps i P C)). Qed.
Print Assumptions C23_counts_conserved.

(** Each sample of the recording is counted in exactly one profile sample. *)
Theorem C23_samples_placed_once : forall c hs ps,
  process (cf_data c) = Ok hs -> convert c = Ok ps -> exists os, counted c hs ps os.
Proof. exact convert_counted. Qed.
Print Assumptions C23_samples_placed_once.

(** * C24: conservation of weights *)
Theorem C24_weights_conserved : forall c hs ps i,
  process (cf_data c) = Ok hs -> convert c = Ok ps -> (i < events c)%nat ->
  total ps (2 * i + 1) = sum (map (weight c i) (filter (sample_of c i) hs)).
Proof. intros c hs ps i P C _. exact (proj2 (convert_totals c hs ps i P C)). Qed.
Print Assumptions C24_weights_conserved.

(** * C25: locations lie inside their mappings *)
Theorem C25_locations_inside_mappings : forall c hs ps p,
  Forall not_named_lost (pp_events (cf_data c)) ->
  process (cf_data c) = Ok hs -> never_reset c hs -> convert c = Ok ps -> In p ps ->
  locations_inside (pr_data p).
Proof.
  intros c hs ps p N P NR C Hp.
  exact (convert_inside c hs ps p P (C18_all_mappings_contain_addresses _ _ P N) NR C Hp).
Qed.
Print Assumptions C25_locations_inside_mappings.

Example C25_example :
  exists hs ps p, process (cf_data example) = Ok hs /\ convert example = Ok ps /\ never_reset example hs /\
    Forall not_named_lost (pp_events (cf_data example)) /\ nth_error ps 2 = Some p /\
    map lc_mapping (pf_location (pr_data p)) = [1; 2] /\ map mp_id (pf_mapping (pr_data p)) = [1; 2].
Proof.
  eexists _, _, _. split; [vm_compute; reflexivity|]. split; [vm_compute; reflexivity|].
  split; [left; reflexivity|]. split.
  - apply Forall_forall. intros e He m H (_ & Hm).
    repeat (destruct He as [<-|He]; [try discriminate H; injection H as <-; discriminate Hm|]). destruct He.
  - split; [reflexivity|]. split; reflexivity.
Qed.

(** * C26: soundness of the profiles *)
Theorem C26_profiles_sound : forall c hs ps p,
  process (cf_data c) = Ok hs -> never_reset c hs -> convert c = Ok ps -> In p ps -> sound c (pr_data p).
Proof. exact convert_sound. Qed.
Print Assumptions C26_profiles_sound.

(** Finding: without grouping by process, an exec of process 0 starts a second
    profile, against the documented single one. The caches of the other processes
    still refer to the first profile, so the second has no mappings and no
    locations; finalizing it takes the ids in its samples for addresses, and the
    sample at 0x1800 is reported at address 1. *)
Definition reset_history : list perf_event :=
  [mm 10 0x1000 0x3000 (str "/bin/a"); ev (EvSample (at_time 10 10 0x1800 100 [] 1));
   comm 0 0 (str "a"); ev (EvSample (at_time 10 12 0x1800 200 [] 1))].
Theorem C26_exec_of_process_0_refuted :
  exists ps p l, convert (conf 2 0 reset_history) = Ok ps /\ List.length ps = 2%nat /\ nth_error ps 1 = Some p /\
    pf_mapping (pr_data p) = [] /\ map ps_loc (pf_sample (pr_data p)) = [[1]] /\
    pf_location (pr_data p) = [l] /\ lc_id l = 1 /\ lc_addr l = 1.
Proof.
  eexists _, _, _. split; [vm_compute; reflexivity|]. repeat split.
Qed.

(** Finding: two attributes with the same event name give a profile that its own
    validity check refuses; it is returned all the same. *)
Definition twin_events : cfg :=
  {| cf_data := {| pp_attrs := attr2; pp_events := history;
                   pp_types := [Some (str "cycles"); Some (str "cycles")]; pp_build_ids := [];
                   pp_version := None; pp_command := None |};
     cf_labels := 0; cf_options := 1; cf_types := [] |}.
Theorem C26_invalid_profile_returned_refuted :
  exists ps, convert twin_events = Ok ps /\ ps <> [] /\ forall p, In p ps -> check_valid (pr_data p) = false.
Proof.
  eexists. split; [vm_compute; reflexivity|]. split; [discriminate|].
  intros p H. repeat (destruct H as [<-|H]; [vm_compute; reflexivity|]). destruct H.
Qed.

(** * C27: which samples are merged *)
Theorem C27_merged_iff_alike : forall c hs ps,
  process (cf_data c) = Ok hs -> never_reset c hs -> convert c = Ok ps ->
  exists os, counted c hs ps os /\ map (option_map fst) os = assigned c hs /\
    forall i j cx cy r r', (i < j)%nat -> placed_at hs os i cx r -> placed_at hs os j cy r' ->
      (r = r' <-> alike c hs i j cx cy).
Proof.
  intros c hs ps P NR C. destruct (convert_samples c hs ps P NR C) as (os & A & B & D & _). exists os. auto.
Qed.
Print Assumptions C27_merged_iff_alike.

(** The two samples of thread 12 agree and are merged; that of thread 10 differs
    in its label from them; the last one comes after an exec. *)
Example C27_example :
  exists hs c3 c5 c6 c9, process (cf_data example) = Ok hs /\
    nth_error hs 3 = Some (HSample c3) /\ nth_error hs 5 = Some (HSample c5) /\
    nth_error hs 6 = Some (HSample c6) /\ nth_error hs 9 = Some (HSample c9) /\
    alike example hs 3 5 c3 c5 /\ ~ alike example hs 3 6 c3 c6 /\ ~ alike example hs 6 9 c6 c9 /\
    assigned example hs = [None; None; None; Some 0; Some 1; Some 0; Some 0; None; None; Some 2; Some 2; Some 2]%nat.
Proof.
  eexists _, _, _, _, _. split; [vm_compute; reflexivity|]. do 4 (split; [reflexivity|]). split; [|split; [|split]].
  - split; [vm_compute; reflexivity|]. split; [vm_compute; reflexivity|]. split; [vm_compute; reflexivity|].
    split; [vm_compute; reflexivity|]. vm_compute. repeat constructor.
  - intros (_ & _ & V & _). vm_compute in V. discriminate V.
  - intros (_ & E & _). vm_compute in E. discriminate E.
  - vm_compute. reflexivity.
Qed.

(** Finding: the total latency is kept in 32 bits, so two samples whose weights
    differ by 2^32 are merged, under the smaller latency. *)
Definition weighted (w : N) : perf_event :=
  ev (EvSample {| s_ip := 0x1800; s_pid := Some 10; s_tid := Some 10; s_time := None; s_addr := None;
     s_id := Some 7; s_period := 1; s_cpu := None; s_callchain := []; s_branch := [];
     s_weight := Some w; s_wstruct := None; s_data_src := None; s_cgroup := None;
     s_data_page := None; s_code_page := None |}).
Theorem C27_latency_truncated_refuted :
  exists ps p s l, convert (conf 8192 1 [weighted 4294967301; weighted 5]) = Ok ps /\ ps = [p] /\
    pf_sample (pr_data p) = [s] /\ ps_val s = [2; 2]%Z /\ ps_label s = [l] /\ lb_num l = 5%Z.
Proof.
  eexists _, _, _, _. split; [vm_compute; reflexivity|]. split; [reflexivity|]. repeat split.
Qed.

(** * C28: the frames of a sample *)
Theorem C28_stack_of_each_sample : forall c hs ps,
  process (cf_data c) = Ok hs -> never_reset c hs -> convert c = Ok ps ->
  exists os, counted c hs ps os /\
    forall i cx r, placed_at hs os i cx r -> exists p s,
      nth_error ps (fst r) = Some p /\ nth_error (pf_sample (pr_data p)) (snd r) = Some s /\
      Forall2 (fun a id => location_at (pr_data p) id a) (map fst (stack_frames c cx)) (ps_loc s).
Proof.
  intros c hs ps P NR C. destruct (convert_samples c hs ps P NR C) as (os & A & _ & _ & B & _). exists os. auto.
Qed.
Print Assumptions C28_stack_of_each_sample.

Example C28_example :
  exists hs c3 c9, process (cf_data example) = Ok hs /\
    nth_error hs 3 = Some (HSample c3) /\ map fst (stack_frames example c3) = [0x1800; 0x27ff] /\
    nth_error hs 9 = Some (HSample c9) /\ map fst (stack_frames example c9) = [0x1800].
Proof. eexists _, _, _. split; [vm_compute; reflexivity|]. repeat split. Qed.

(** Finding: a mapping of the kernel (pid -1) drops cached locations of pid -1
    only. After a module is unloaded and another loaded in its place, samples of
    a process which saw the first are still attributed to it. *)
Definition kernel_remap : list perf_event :=
  [comm 10 10 (str "a"); mm 4294967295 0xffff0000 0x1000 (str "[old]");
   kev (EvSample (at_time 10 10 0xffff0010 100 [] 1));
   mm 4294967295 0xffff0000 0x1000 (str "[new]");
   kev (EvSample (at_time 10 10 0xffff0010 200 [] 1))].
Theorem C28_kernel_remap_stale_refuted :
  exists hs ps p l m cx q h,
    process (cf_data (conf 2 1 kernel_remap)) = Ok hs /\ convert (conf 2 1 kernel_remap) = Ok ps /\ ps = [p] /\
    nth_error hs 4 = Some (HSample cx) /\ cx_map cx = Some (q, h) /\ hm_file h = str "[new]" /\
    map ps_loc (pf_sample (pr_data p)) = [[1]] /\ pf_location (pr_data p) = [l] /\
    nth_error (pf_mapping (pr_data p)) 1 = Some m /\ lc_mapping l = mp_id m /\ string_of (pr_data p) (mp_file m) = Some (str "[old]").
Proof.
  eexists _, _, _, _, _, _, _, _. split; [vm_compute; reflexivity|]. split; [vm_compute; reflexivity|]. split; [reflexivity|].
  do 7 (split; [reflexivity|]). reflexivity.
Qed.

(** * C29: pid and time span of a profile *)
Theorem C29_pid_and_span : forall c hs ps k p,
  process (cf_data c) = Ok hs -> convert c = Ok ps -> nth_error ps k = Some p ->
  let l := filed k hs (assigned c hs) in
  l <> [] /\ (forall cx, In cx l -> filed_under c cx = pr_pid p) /\
  (times l = [] -> pr_min p = 0 /\ pr_max p = 0)%Z /\
  (times l <> [] -> In (pr_min p) (times l) /\ In (pr_max p) (times l) /\
     forall t, In t (times l) -> (pr_min p <= t <= pr_max p)%Z).
Proof. exact convert_times. Qed.
Print Assumptions C29_pid_and_span.

Theorem C29_every_sample_has_a_profile : forall c hs ps k,
  process (cf_data c) = Ok hs -> convert c = Ok ps -> filed k hs (assigned c hs) <> [] -> (k < List.length ps)%nat.
Proof. exact convert_profile_count. Qed.
Print Assumptions C29_every_sample_has_a_profile.

Example C29_example :
  exists hs ps p, process (cf_data example) = Ok hs /\ convert example = Ok ps /\ nth_error ps 0 = Some p /\
    times (filed 0 hs (assigned example hs)) = [100; 90; 110]%Z /\ pr_min p = 90%Z /\ pr_max p = 110%Z.
Proof. eexists _, _, _. split; [vm_compute; reflexivity|]. split; [vm_compute; reflexivity|]. repeat split. Qed.

(** * C50: statistics of build id sources *)
Theorem C50_stats_count_sources : forall c hs ps p,
  process (cf_data c) = Ok hs -> convert c = Ok ps -> In p ps ->
  pr_stats p = flat_map (sources c (pr_pid p)) hs.
Proof. exact convert_stats. Qed.
Print Assumptions C50_stats_count_sources.

(** Finding: the header documents that the statistics of a profile add up to its
    number of frames weighted by sample count. After an exec each profile of the
    process carries the statistics of all of them; without grouping, of process 0
    only; and data address frames are not counted. *)
Definition frames_in (p : profile) : Z :=
  sum (map (fun s => (Z.of_nat (List.length (ps_loc s)) * nth 0 (ps_val s) 0)%Z) (pf_sample p)).
Theorem C50_documented_sum_refuted :
  (exists ps p, convert example = Ok ps /\ nth_error ps 0 = Some p /\
     List.length (pr_stats p) = 9%nat /\ frames_in (pr_data p) = 6%Z) /\
  (exists ps p, convert (conf 0 0 history) = Ok ps /\ ps = [p] /\
     List.length (pr_stats p) = 0%nat /\ frames_in (pr_data p) = 10%Z) /\
  (exists ps p, convert (conf 0 9 [mm 10 0x1000 0x3000 (str "/bin/a"); ev (EvSample (smp 10 0x1800 [] []))]) = Ok ps /\
     ps = [p] /\ List.length (pr_stats p) = 1%nat /\ frames_in (pr_data p) = 2%Z).
Proof.
  split; [|split]; eexists _, _; (split; [vm_compute; reflexivity|]); (split; [reflexivity|]); split; vm_compute; reflexivity.
Qed.

(** * C51: labels *)
Theorem C51_labels_of_each_sample : forall c hs ps,
  process (cf_data c) = Ok hs -> never_reset c hs -> convert c = Ok ps ->
  exists os, counted c hs ps os /\
    forall i cx r, placed_at hs os i cx r -> (forall j, (j < i)%nat -> nth_error os j <> Some (Some r)) ->
      exists p s, nth_error ps (fst r) = Some p /\ nth_error (pf_sample (pr_data p)) (snd r) = Some s /\
        Forall2 (reads (pr_data p)) (ps_label s) (expected_labels c (before i hs) cx).
Proof.
  intros c hs ps P NR C. destruct (convert_samples c hs ps P NR C) as (os & A & _ & _ & _ & B). exists os. auto.
Qed.
Print Assumptions C51_labels_of_each_sample.

Example C51_example :
  exists hs cx, process (cf_data example) = Ok hs /\ nth_error hs 3 = Some (HSample cx) /\
    expected_labels example (before 3 hs) cx =
      [{| rl_key := str "tid"; rl_str := []; rl_num := 12; rl_unit := [] |};
       {| rl_key := str "thread_comm"; rl_str := str "worker"; rl_num := 0; rl_unit := [] |}].
Proof. eexists _, _. split; [vm_compute; reflexivity|]. split; [reflexivity|]. vm_compute. reflexivity. Qed.

(** Finding: a thread id of 0 and a missing one are not told apart, so a sample
    without thread id can be merged into one that carries the label. *)
Definition maybe_tid (tid : option N) : perf_event :=
  ev (EvSample {| s_ip := 0x1800; s_pid := Some 10; s_tid := tid; s_time := None; s_addr := None;
     s_id := Some 7; s_period := 1; s_cpu := None; s_callchain := []; s_branch := [];
     s_weight := None; s_wstruct := None; s_data_src := None; s_cgroup := None;
     s_data_page := None; s_code_page := None |}).
Theorem C51_absent_is_zero_refuted :
  exists hs ps p s cx, let c := conf 2 1 [maybe_tid (Some 0); maybe_tid None] in
    process (cf_data c) = Ok hs /\ convert c = Ok ps /\ ps = [p] /\ pf_sample (pr_data p) = [s] /\
    ps_val s = [2; 2]%Z /\ List.length (ps_label s) = 1%nat /\
    nth_error hs 1 = Some (HSample cx) /\ expected_labels c (before 1 hs) cx = [].
Proof.
  eexists _, _, _, _, _. split; [vm_compute; reflexivity|]. split; [vm_compute; reflexivity|]. split; [reflexivity|].
  do 4 (split; [reflexivity|]). vm_compute. reflexivity.
Qed.

(** * C52: the conversion succeeds *)
Theorem C52_conversion_succeeds : forall c hs,
  Forall not_named_lost (pp_events (cf_data c)) ->
  process (cf_data c) = Ok hs -> never_reset c hs ->
  option_on c 2 = false -> fits c hs ->
  exists ps, convert c = Ok ps.
Proof.
  intros c hs N P. exact (convert_total c hs P (C18_all_mappings_contain_addresses _ _ P N)).
Qed.
Print Assumptions C52_conversion_succeeds.

Example C52_example :
  exists hs, process (cf_data example) = Ok hs /\ never_reset example hs /\ option_on example 2 = false /\
    fits example hs /\ sum (map (load example) hs) = 13%Z.
Proof.
  eexists. split; [vm_compute; reflexivity|]. split; [left; reflexivity|]. split; [reflexivity|].
  split; vm_compute; reflexivity.
Qed.

(** Findings: a process named like the synthetic lost mapping makes the converter
    abort; two large periods overflow a signed addition. *)
Theorem C52_process_named_lost_refuted : convert (conf 0 1 lost_stream) = Abort.
Proof. vm_compute. reflexivity. Qed.
Theorem C52_overflow_refuted :
  convert (conf 0 1 [ev (EvSample (at_time 10 10 0 1 [] (2 ^ 63 - 1))); ev (EvSample (at_time 10 10 0 1 [] 1))]) = UB.
Proof. vm_compute. reflexivity. Qed.
