(** The perf protobuf messages (src/quipper/perf_data.proto) as far as
    src/perf_data_handler.cc and src/perf_data_converter.cc read them. uint32 and
    uint64 fields are N, strings are byte lists; an optional field whose has_
    accessor is called is an option, any other absent field is its default. *)
From Verif Require Import Base SpeModel.
Local Open Scope N_scope.

(** perf_data.proto:252-301, MMapEvent. *)
Record mmap_ev := {
  mm_pid : N; mm_start : N; mm_len : N; mm_pgoff : N;
  mm_file : list N; mm_md5 : N; mm_build : option (list N) }.

(** perf_data.proto:229-248, CommEvent. *)
Record comm_ev := { cm_pid : N; cm_tid : N; cm_comm : list N; cm_md5 : N }.

(** perf_data.proto:503-521, ForkEvent. *)
Record fork_ev := { fk_pid : N; fk_ppid : N; fk_tid : N }.

(** perf_data.proto:362-397, BranchStackEntry. *)
Record branch := {
  br_from : N; br_to : N; br_mispred : bool; br_pred : bool; br_intx : bool;
  br_abort : bool; br_cycles : N; br_spec : N }.

(** perf_data.proto:412-500, SampleEvent. [s_wstruct] is (var1_dw, var2_w) of
    weight_struct. *)
Record sample_ev := {
  s_ip : N; s_pid : option N; s_tid : option N; s_time : option N;
  s_addr : option N; s_id : option N; s_period : N; s_cpu : option N;
  s_callchain : list N; s_branch : list branch;
  s_weight : option N; s_wstruct : option (option N * option N);
  s_data_src : option N; s_cgroup : option N;
  s_data_page : option N; s_code_page : option N }.

Definition sample0 : sample_ev :=
  {| s_ip := 0; s_pid := None; s_tid := None; s_time := None; s_addr := None;
     s_id := None; s_period := 0; s_cpu := None; s_callchain := []; s_branch := [];
     s_weight := None; s_wstruct := None; s_data_src := None; s_cgroup := None;
     s_data_page := None; s_code_page := None |}.

(** A getter of an optional number: 0 when absent. *)
Definition dflt (o : option N) : N := match o with Some x => x | None => 0 end.

(** perf_data.proto:527-537 LostEvent and :712-718 LostSamplesEvent with the id,
    pid and tid of their sample_info (0 when absent). *)
Record lost_ev := { lo_id : N; lo_lost : N; lo_pid : N; lo_tid : N }.

(** perf_data.proto:310-329, KsymbolEvent. *)
Record ksym_ev := { ks_addr : N; ks_len : N; ks_type : N; ks_flags : N; ks_name : list N }.

(** perf_data.proto:868-898, the oneof of PerfEvent. [EvAuxtrace] carries the
    trace data if present and the address that string is stored at, on which the
    Arm SPE decoder's alignment packets depend. [EvOther]: every kind the
    normalizer ignores (including auxtrace_error, which is only logged). *)
Inductive ev_body :=
| EvMMap (m : mmap_ev)
| EvComm (c : comm_ev)
| EvFork (f : fork_ev)
| EvCgroup (id : N) (path : list N)
| EvLostSamples (l : lost_ev)
| EvLost (l : lost_ev)
| EvSample (s : sample_ev)
| EvAuxInfo (type : N)
| EvAuxtrace (trace : option (list N)) (base : N)
| EvKsymbol (k : ksym_ev)
| EvOther.

(** perf_data.proto:864-901, PerfEvent: header.misc (absent or present) and body. *)
Record perf_event := { ev_misc : option N; ev_what : ev_body }.

(** perf_data.proto:953-977, PerfBuildID. *)
Record build_id_ev := {
  bi_misc : N; bi_hash : list N; bi_file : list N; bi_md5 : N; bi_injected : bool }.

(** perf_data.proto:181-187 PerfFileAttr and the fields of its attr used here. *)
Record file_attr := { fa_ids : list N; fa_comm_exec : bool; fa_period : N }.

(** perf_data.proto:17 and 1060-1134, PerfDataProto. [pp_types]: the name of each event
    type; [pp_version], [pp_command]: string_metadata. *)
Record perf_proto := {
  pp_attrs : list file_attr;
  pp_events : list perf_event;
  pp_types : list (option (list N));
  pp_build_ids : list build_id_ev;
  pp_version : option (list N);
  pp_command : option (list N) }.
