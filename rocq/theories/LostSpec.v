(** C67: how the samples a recording lost are shown. *)
From Coq Require Import String.
From Verif Require Import Base BytesModel TextModel Assoc ProfileModel PerfProto SerializerModel ConverterModel ConverterSpec RecordSpec.
Local Open Scope N_scope.
Local Open Scope list_scope.

(** What is known of a lost sample: its process and thread. It is taken to be at the
    reserved address 9 * 2^60. *)
Definition lost_facts (pid tid : N) : facts :=
  {| f_pid := Some pid; f_tid := Some tid; f_time := None; f_cpu := None; f_ip := 9 * 2 ^ 60; f_addr := None;
     f_chain := []; f_sources := []; f_code_page := 0; f_data_page := 0; f_cache_latency := 0; f_total_latency := 0;
     f_data_src := None; f_cgroup := None |}.

(** Its addresses: the reserved one; with data frames, first that of the data, which is
    not known. *)
Definition lost_stack (data : bool) : list N := (if data then [0] else []) ++ [9 * 2 ^ 60].

(** Profile [p], which is that of process [pid], shows [n] lost samples of event [i] in
    its sample [s]. *)
Definition shows_lost (p : process_profile) (s : psample) (i : nat) (pid n : N) (addrs : list N) : Prop :=
  pr_pid p = pid /\ In s (pf_sample (pr_data p)) /\ (Z.of_N n <= nth (2 * i) (ps_val s) 0)%Z /\
  Forall2 (fun a id => location_at (pr_data p) id a) addrs (ps_loc s).

(** A report of lost samples as a record of a file has it: event id, number, process
    and thread. [new]: by perf 6.1 or later, which counts by other records. *)
Definition lost_report (new : bool) (b : x_body) : option (N * N * N * N) :=
  match b, new with
  | XBLostSamples l, true =>
      Some (dflt (xi_id (xls_info l)), xls_lost l, dflt (xi_pid (xls_info l)), dflt (xi_tid (xls_info l)))
  | XBLost l, false => Some (xl_id l, xl_lost l, dflt (xi_pid (xl_info l)), dflt (xi_tid (xl_info l)))
  | _, _ => None
  end.
