(** Theorems about the mapping a profile shows for each frame: C64. *)
From Coq Require Import String.
From Verif Require Import Base BytesModel TextModel Assoc ProfileModel BuilderModel BuilderSpec
  SpeModel PerfProto NormalizerModel NormalizerSpec NormalizerProps
  ConverterModel ConverterSpec ConverterFinalProofs ConverterProps ConverterHeadSpec ConverterPlaceSpec ConverterPlaceProofs.
Local Open Scope N_scope.
Local Open Scope list_scope.

(** * C64: the mapping shown for a frame *)

(** The location of each frame of each sample shows the mapping with which the address
    was first seen in the process since its last exec and the last mapping over it. *)
Theorem C64_mapping_first_seen : forall c hs ps,
  process (cf_data c) = Ok hs -> never_reset c hs -> convert c = Ok ps ->
  exists os, counted c hs ps os /\ forall i cx r, placed_at hs os i cx r -> exists p s,
    nth_error ps (fst r) = Some p /\ nth_error (pf_sample (pr_data p)) (snd r) = Some s /\
    Forall2 (fun f id => exists o,
        first_seen c (dflt (s_pid (cx_sample cx))) (fst f) (before (S i) hs) = Some o /\
        placed_in (pr_data p) id (fst f) o) (stack_frames c cx) (ps_loc s).
Proof.
  intros c hs ps P NR C. destruct (convert_placed c hs ps P NR C) as (os & CO & H). exists os. split; [exact CO|].
  intros i cx r Hi. destruct (H i cx r Hi) as (p & s & A & B & F). exists p, s. split; [exact A|]. split; [exact B|].
  clear - F. induction F as [|f id l m (o & X & Y & _) F IH]; constructor; eauto.
Qed.
Print Assumptions C64_mapping_first_seen.

(** A settled frame is shown in its own mapping. *)
Theorem C64_own_mapping : forall c hs ps,
  process (cf_data c) = Ok hs -> never_reset c hs -> convert c = Ok ps ->
  exists os, counted c hs ps os /\ forall i cx r, placed_at hs os i cx r -> exists p s,
    nth_error ps (fst r) = Some p /\ nth_error (pf_sample (pr_data p)) (snd r) = Some s /\
    Forall2 (fun f id => settled c hs i cx f -> placed_in (pr_data p) id (fst f) (snd f)) (stack_frames c cx) (ps_loc s).
Proof. exact convert_own. Qed.
Print Assumptions C64_own_mapping.

(** For each location of each profile: its address, and the name of its mapping. *)
Definition where_shown (ps : list process_profile) : list (list (N * option (list N))) :=
  map (fun p => map (fun l => (lc_addr l,
    match nth_error (pf_mapping (pr_data p)) (N.to_nat (lc_mapping l - 1)) with
    | Some m => string_of (pr_data p) (mp_file m) | None => None end)) (pf_location (pr_data p))) ps.

(** In the example recording process 10 is sampled in /bin/a, execs /bin/b at the same
    address and is sampled again: the frames of both samples are settled. *)
Example C64_example :
  exists hs ps c3 c9, process (cf_data example) = Ok hs /\ never_reset example hs /\ convert example = Ok ps /\
    nth_error hs 3 = Some (HSample c3) /\ Forall (settled example hs 3 c3) (stack_frames example c3) /\
    nth_error hs 9 = Some (HSample c9) /\ Forall (settled example hs 9 c9) (stack_frames example c9) /\
    where_shown ps = [[(0x1800, Some (str "/bin/a")); (0x27ff, Some (str "/bin/a"))]; [(0, Some [])];
      [(0x1800, Some (str "/bin/b")); (10376293541461622784, Some (str "[lost]"))]].
Proof.
  eexists _, _, _, _. split; [vm_compute; reflexivity|]. split; [left; reflexivity|]. split; [vm_compute; reflexivity|].
  split; [reflexivity|]. split; [|split; [reflexivity|split; [|vm_compute; reflexivity]]].
  - rewrite Forall_forall. intros f Hf. vm_compute in Hf.
    destruct Hf as [<-|[<-|[]]]; intros j cy o Hj Hn K Hp Hx Hr Hin;
      do 4 (destruct j as [|j]; [try discriminate Hn; injection Hn as <-; vm_compute in Hin;
        repeat (destruct Hin as [Hin|Hin]; [try discriminate Hin; injection Hin as <-; reflexivity|]); destruct Hin|]);
      exfalso; lia.
  - rewrite Forall_forall. intros f Hf. vm_compute in Hf.
    destruct Hf as [<-|[]]; intros j cy o Hj Hn K Hp Hx Hr Hin;
      do 10 (destruct j as [|j]; [try discriminate Hn; injection Hn as <-; try discriminate Hp; try discriminate Hx; vm_compute in Hin;
        repeat (destruct Hin as [Hin|Hin]; [try discriminate Hin; injection Hin as <-; reflexivity|]); destruct Hin|]);
      exfalso; lia.
Qed.

(** Finding: a return address stands for the call before it, one byte lower, but its
    mapping is looked up at the return address itself. If a smaller mapping ends there,
    the caller's frame is shown in the mapping behind it, and so is from then on a
    program counter at that last byte. *)
Definition spill : list perf_event :=
  [comm 10 10 (str "a"); mm 10 0x1000 0x3000 (str "/bin/a"); mm 10 0x2000 0x1000 (str "/lib/y");
   ev (EvSample (at_time 10 10 0x1800 100 [0x1800; 0x3000] 1));
   ev (EvSample (at_time 10 10 0x2fff 200 [] 1))].
Theorem C64_return_address_spills_refuted :
  exists hs ps cx q h,
    process (cf_data (conf 2 1 spill)) = Ok hs /\ never_reset (conf 2 1 spill) hs /\ convert (conf 2 1 spill) = Ok ps /\
    nth_error hs 4 = Some (HSample cx) /\ stack_frames (conf 2 1 spill) cx = [(0x2fff, Some (q, h))] /\
    hm_file h = str "/lib/y" /\
    map (fun p => map ps_loc (pf_sample (pr_data p))) ps = [[[1; 2]; [2]]] /\
    where_shown ps = [[(0x1800, Some (str "/bin/a")); (0x2fff, Some (str "/bin/a"))]].
Proof.
  eexists _, _, _, _, _. split; [vm_compute; reflexivity|]. split; [left; reflexivity|]. split; [vm_compute; reflexivity|].
  split; [reflexivity|]. split; [reflexivity|]. split; [reflexivity|]. split; vm_compute; reflexivity.
Qed.
Print Assumptions C64_return_address_spills_refuted.

(** Finding: a fork onto a process id which was used before replaces the mappings of
    that id, but nothing drops its cached locations: the child's samples are shown in
    the mappings of the process which had the id before. *)
Definition reuse : list perf_event :=
  [comm 10 10 (str "a"); mm 10 0x1000 0x3000 (str "/bin/a");
   comm 11 11 (str "b"); mm 11 0x1000 0x3000 (str "/bin/b");
   ev (EvSample (at_time 11 11 0x1800 100 [] 1));
   ev (EvFork {| fk_pid := 11; fk_ppid := 10; fk_tid := 11 |});
   ev (EvSample (at_time 11 11 0x1800 200 [] 1))].
Theorem C64_reused_pid_refuted :
  exists hs ps cx q h,
    process (cf_data (conf 2 1 reuse)) = Ok hs /\ never_reset (conf 2 1 reuse) hs /\ convert (conf 2 1 reuse) = Ok ps /\
    nth_error hs 5 = Some (HSample cx) /\ stack_frames (conf 2 1 reuse) cx = [(0x1800, Some (q, h))] /\
    hm_file h = str "/bin/a" /\
    map (fun p => map ps_val (pf_sample (pr_data p))) ps = [[[2; 2]%Z]] /\
    where_shown ps = [[(0x1800, Some (str "/bin/b"))]].
Proof.
  eexists _, _, _, _, _. split; [vm_compute; reflexivity|]. split; [left; reflexivity|]. split; [vm_compute; reflexivity|].
  split; [reflexivity|]. split; [reflexivity|]. split; [reflexivity|]. split; vm_compute; reflexivity.
Qed.
Print Assumptions C64_reused_pid_refuted.
