(** What it means for the sample fields of an event to be stored and recovered. *)
From Verif Require Import Base BytesModel EventSizeModel EventSizeSpec SampleModel.
Local Open Scope N_scope.

(** Does an event of type [ty], recorded under [a], carry the field with bit [b]?
    Samples carry what the attribute asks for; other events carry a sample id of
    up to six fields if the attribute has sample_id_all. *)
Definition sample_id_bits : list N := [B_TID; B_TIME; B_ID; B_STREAM_ID; B_CPU; B_IDENTIFIER].
Definition carries (a : attr) (ty b : N) : bool :=
  N.testbit (at_sample_type a) b &&
  ((ty =? R_SAMPLE) || at_sample_id_all a && existsb (N.eqb b) sample_id_bits).

Definition formats (a : attr) (b : N) : bool := N.testbit (at_read_format a) b.

(** The attribute is a 64-bit mask and, for a sample, asks for no field quipper
    cannot handle. *)
Definition readable (a : attr) (ty : N) : Prop :=
  at_sample_type a < two64 /\
  (ty = R_SAMPLE ->
   at_sample_type a < 2 ^ 25 /\
   N.testbit (at_sample_type a) B_REGS_USER = false /\
   N.testbit (at_sample_type a) B_STACK_USER = false /\
   N.testbit (at_sample_type a) B_REGS_INTR = false /\
   (N.testbit (at_sample_type a) B_WEIGHT && N.testbit (at_sample_type a) B_WEIGHT_STRUCT) = false).

(** The arrays of a sample, a null pointer being an empty one. *)
Definition chain_of (s : psample) : list N :=
  match s_callchain s with Some l => l | None => [] end.
Definition group_of (s : psample) : list read_value :=
  match s_group s with Some l => l | None => [] end.
Definition branches_of (s : psample) : list branch_entry :=
  match s_branch s with Some bs => bs_entries bs | None => [] end.
Definition hw_idx_of (s : psample) : N :=
  match s_branch s with Some bs => bs_hw_idx bs | None => 0 end.

(** The members of a sample are numbers of their C++ types, and the arrays are not
    gigabytes long (an event has at most 64 KiB). *)
Definition sample_ok (s : psample) : Prop :=
  s_ip s < two64 /\ s_pid s < two32 /\ s_tid s < two32 /\ s_time s < two64 /\
  s_addr s < two64 /\ s_id s < two64 /\ s_stream_id s < two64 /\ s_period s < two64 /\
  s_weight s < two64 /\ s_transaction s < two64 /\ s_cpu s < two32 /\
  s_data_src s < two64 /\ s_time_enabled s < two64 /\ s_time_running s < two64 /\
  s_phys_addr s < two64 /\ s_cgroup s < two64 /\ s_data_page s < two64 /\
  s_code_page s < two64 /\
  bytes_ok (s_raw s) = true /\ Forall (fun ip => ip < two64) (chain_of s) /\
  Forall (fun v => rv_value v < two64 /\ rv_id v < two64 /\ rv_lost v < two64)
    (s_one s :: group_of s) /\
  Forall (fun b => be_from b < two64 /\ be_to b < two64 /\ be_flags b < two64) (branches_of s) /\
  hw_idx_of s < two64 /\
  len (s_raw s) < 2 ^ 30 /\ len (chain_of s) < 2 ^ 32 /\ len (group_of s) < 2 ^ 32 /\
  len (branches_of s) < 2 ^ 32.

(** The sample says the same about the hardware index of its branch stack as the
    attribute. *)
Definition hw_idx_agrees (a : attr) (ty : N) (s : psample) : Prop :=
  carries a ty B_BRANCH_STACK = true ->
  s_no_hw_idx s = Some (negb (N.testbit (at_branch_type a) BR_HW_INDEX)).

(** Number of bytes the sample fields take. *)
Definition words (l : list bool) : N := len (filter (fun b => b) l).
Definition field_bytes (a : attr) (ty : N) (s : psample) : N :=
  let has := carries a ty in
  let fmt := formats a in
  8 * words (map has [B_IDENTIFIER; B_IP; B_TID; B_TIME; B_ADDR; B_ID; B_STREAM_ID; B_CPU;
                      B_PERIOD; B_DATA_SRC; B_TRANSACTION; B_PHYS_ADDR; B_CGROUP;
                      B_DATA_PAGE_SIZE; B_CODE_PAGE_SIZE]
             ++ [has B_WEIGHT || has B_WEIGHT_STRUCT])
  + (if has B_READ then
       if fmt F_GROUP
       then 8 * (1 + words (map fmt [F_TIME_ENABLED; F_TIME_RUNNING])
                 + len (group_of s) * (1 + words (map fmt [F_ID; F_LOST])))
       else 8 * (1 + words (map fmt [F_TIME_ENABLED; F_TIME_RUNNING; F_ID; F_LOST]))
     else 0)
  + (if has B_CALLCHAIN then 8 * (1 + len (chain_of s)) else 0)
  + (if has B_RAW then 8 * ((4 + len (s_raw s) + 7) / 8) else 0)
  + (if has B_BRANCH_STACK
     then 8 * (1 + (if N.testbit (at_branch_type a) BR_HW_INDEX then 1 else 0)
               + 3 * len (branches_of s))
     else 0).

(** [s'] is what an event of type [ty] can tell about the sample [s]: the fields
    it carries as they are, everything else as in a new sample. *)
Record recovered (a : attr) (ty : N) (s s' : psample) : Prop := {
  rc_ip : s_ip s' = if carries a ty B_IP then s_ip s else 0;
  rc_pid : s_pid s' = if carries a ty B_TID then s_pid s else 0;
  rc_tid : s_tid s' = if carries a ty B_TID then s_tid s else 0;
  rc_time : s_time s' = if carries a ty B_TIME then s_time s else 0;
  rc_addr : s_addr s' = if carries a ty B_ADDR then s_addr s else 0;
  rc_id : s_id s' = if carries a ty B_ID || carries a ty B_IDENTIFIER then s_id s else 0;
  rc_stream_id : s_stream_id s' = if carries a ty B_STREAM_ID then s_stream_id s else 0;
  rc_cpu : s_cpu s' = if carries a ty B_CPU then s_cpu s else 0;
  rc_period : s_period s' = if carries a ty B_PERIOD then s_period s else 0;
  rc_weight : s_weight s' =
    if carries a ty B_WEIGHT || carries a ty B_WEIGHT_STRUCT then s_weight s else 0;
  rc_data_src : s_data_src s' = if carries a ty B_DATA_SRC then s_data_src s else 0;
  rc_transaction : s_transaction s' = if carries a ty B_TRANSACTION then s_transaction s else 0;
  rc_phys_addr : s_phys_addr s' = if carries a ty B_PHYS_ADDR then s_phys_addr s else 0;
  rc_cgroup : s_cgroup s' = if carries a ty B_CGROUP then s_cgroup s else 0;
  rc_data_page : s_data_page s' = if carries a ty B_DATA_PAGE_SIZE then s_data_page s else 0;
  rc_code_page : s_code_page s' = if carries a ty B_CODE_PAGE_SIZE then s_code_page s else 0;
  rc_raw : s_raw s' = if carries a ty B_RAW then s_raw s else [];
  rc_callchain : s_callchain s' = if carries a ty B_CALLCHAIN then Some (chain_of s) else None;
  rc_branch : s_branch s' =
    if carries a ty B_BRANCH_STACK
    then Some (mkBs (if N.testbit (at_branch_type a) BR_HW_INDEX then hw_idx_of s else 0)
                    (branches_of s))
    else None;
  rc_time_enabled : s_time_enabled s' =
    if carries a ty B_READ && formats a F_TIME_ENABLED then s_time_enabled s else 0;
  rc_time_running : s_time_running s' =
    if carries a ty B_READ && formats a F_TIME_RUNNING then s_time_running s else 0;
  rc_no_group : carries a ty B_READ && formats a F_GROUP = false -> s_group s' = None;
  rc_group : carries a ty B_READ && formats a F_GROUP = true ->
    Forall2 (fun v v' => rv_value v' = rv_value v /\
                         (formats a F_ID = true -> rv_id v' = rv_id v) /\
                         (formats a F_LOST = true -> rv_lost v' = rv_lost v))
      (group_of s) (group_of s');
  rc_one : carries a ty B_READ && negb (formats a F_GROUP) = true ->
    s_one s' = mkRv (rv_value (s_one s))
                    (if formats a F_ID then rv_id (s_one s) else 0)
                    (if formats a F_LOST then rv_lost (s_one s) else 0)
}.

(** Where, behind the event's own data, the word with the CPU starts. *)
Definition cpu_word (a : attr) (ty : N) : N :=
  8 * (words (map (carries a ty) [B_IP; B_TID; B_TIME; B_ADDR; B_ID; B_STREAM_ID])
       + (if (ty =? R_SAMPLE) && carries a ty B_IDENTIFIER then 1 else 0)).
