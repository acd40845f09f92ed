(** C69: how the records of an Arm SPE trace are shown. Histories have the newest event
    first. *)
From Coq Require Import String.
From Verif Require Import Base BytesModel TextModel Assoc ProfileModel SpeModel PerfProto SerializerModel NormalizerModel NormalizerSpec ConverterModel
  ConverterSpec RecordSpec.
From Verif Require HugePageModel.
Local Open Scope N_scope.
Local Open Scope list_scope.

(** The thread of a record is its context; its process is the one last given to the
    thread in the whole recording, by a fork or a name; 0 if it was given none, and for
    thread 0. *)
Definition trace_tid (r : spe_rec) : N := sc_id (sr_ctx r) mod 2 ^ 32.
Definition gives_pid (ev : perf_event) : option (N * N) :=
  match ev_what ev with
  | EvFork f => Some (fk_tid f, fk_pid f)
  | EvComm c => Some (cm_tid c, cm_pid c)
  | _ => None
  end.
Fixpoint last_pid (h : list perf_event) (tid : N) : N :=
  match h with
  | [] => 0
  | ev :: h =>
      match gives_pid ev with
      | Some (t, p) => if t =? tid then p else last_pid h tid
      | None => last_pid h tid
      end
  end.
Definition trace_pid (all : list perf_event) (r : spe_rec) : N :=
  if trace_tid r =? 0 then 0 else last_pid (rev all) (trace_tid r).
(** The same, by the messages of a file. *)
Fixpoint last_pid_told (h : list mapped_message) (tid : N) : N :=
  match h with
  | [] => 0
  | (x, m) :: h =>
      match m, xe_body x with
      | None, XBFork f => if xf_tid f =? tid then xf_pid f else last_pid_told h tid
      | None, XBComm c => if xc_tid c =? tid then xc_pid c else last_pid_told h tid
      | _, _ => last_pid_told h tid
      end
  end.
Definition trace_pid_told (all : list mapped_message) (r : spe_rec) : N :=
  if trace_tid r =? 0 then 0 else last_pid_told (rev all) (trace_tid r).

(** What a record says. *)
Definition trace_facts (pid : N) (r : spe_rec) : facts :=
  {| f_pid := Some pid; f_tid := Some (trace_tid r); f_time := None; f_cpu := None; f_ip := ip_addr (sr_ip r); f_addr := None;
     f_chain := []; f_sources := []; f_code_page := 0; f_data_page := 0; f_cache_latency := 0;
     f_total_latency := sr_total_lat r; f_data_src := None; f_cgroup := None |}.

(** Its addresses: where the instruction is; with data frames, first a 0. *)
Definition trace_stack (data : bool) (h : list perf_event) (pid : N) (r : spe_rec) : list N :=
  (if data then [0] else []) ++
  [match resolve h pid (ip_addr (sr_ip r)) CUnknown with Some _ => ip_addr (sr_ip r) | None => 0 end].

(** Its labels: those of its process and thread, and the latencies. *)
Definition trace_labels (labels : N) (types : list (N * list N)) (name : N -> N -> list N) (pid : N) (r : spe_rec)
    : list read_label :=
  shown_labels labels types name (fun _ => None) None (trace_facts pid r) ++
  num (asks labels 16384 && nonzero (sr_issue_lat r)) (str "issue_latency") (sr_issue_lat r) (str "cycles") ++
  num (asks labels 32768 && nonzero (sr_trans_lat r)) (str "translation_latency") (sr_trans_lat r) (str "cycles").

(** [n] is at most the number of the records of the trace that are equal to [r]. *)
Definition occurs (n : nat) (r : spe_rec) (rs : list spe_rec) : Prop :=
  exists at_, NoDup at_ /\ List.length at_ = n /\ forall j, In j at_ -> nth_error rs j = Some r.

(** Profile [p], which is that of process [pid], shows [r] of the trace [rs] in its
    sample [s], as often as it occurs, as samples of the first event. *)
Definition shows_trace (p : process_profile) (s : psample) (pid : N) (r : spe_rec) (rs : list spe_rec) (addrs : list N) : Prop :=
  pr_pid p = pid /\ In s (pf_sample (pr_data p)) /\
  (forall n, occurs n r rs -> Z.of_nat n <= nth 0 (ps_val s) 0)%Z /\
  Forall2 (fun a id => location_at (pr_data p) id a) addrs (ps_loc s).
