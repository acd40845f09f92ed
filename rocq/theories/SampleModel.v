(** Model of src/quipper/sample_info_reader.cc: reading and writing the sample
    fields at the end of raw perf events. *)
From Verif Require Import Base BytesModel BufferModel EventSizeModel.
Local Open Scope N_scope.

(** ** Data *)

(** kernel/perf_event.h, enum perf_event_sample_format: bit numbers. *)
Definition B_IP : N := 0.
Definition B_TID : N := 1.
Definition B_TIME : N := 2.
Definition B_ADDR : N := 3.
Definition B_READ : N := 4.
Definition B_CALLCHAIN : N := 5.
Definition B_ID : N := 6.
Definition B_CPU : N := 7.
Definition B_PERIOD : N := 8.
Definition B_STREAM_ID : N := 9.
Definition B_RAW : N := 10.
Definition B_BRANCH_STACK : N := 11.
Definition B_REGS_USER : N := 12.
Definition B_STACK_USER : N := 13.
Definition B_WEIGHT : N := 14.
Definition B_DATA_SRC : N := 15.
Definition B_IDENTIFIER : N := 16.
Definition B_TRANSACTION : N := 17.
Definition B_REGS_INTR : N := 18.
Definition B_PHYS_ADDR : N := 19.
Definition B_CGROUP : N := 21.
Definition B_DATA_PAGE_SIZE : N := 22.
Definition B_CODE_PAGE_SIZE : N := 23.
Definition B_WEIGHT_STRUCT : N := 24.

(** kernel/perf_event.h, enum perf_event_read_format: bit numbers. *)
Definition F_TIME_ENABLED : N := 0.
Definition F_TIME_RUNNING : N := 1.
Definition F_ID : N := 2.
Definition F_GROUP : N := 3.
Definition F_LOST : N := 4.

(** kernel/perf_event.h:192, PERF_SAMPLE_BRANCH_HW_INDEX. *)
Definition BR_HW_INDEX : N := 17.

(** The members of struct perf_event_attr that matter here. *)
Record attr := mkAttr {
  at_sample_type : N;
  at_read_format : N;
  at_branch_type : N;
  at_sample_id_all : bool
}.

(** kernel/perf_internals.h:270-291, struct sample_read_value. *)
Record read_value := mkRv { rv_value : N; rv_id : N; rv_lost : N }.

(** kernel/perf_internals.h:298-319: a branch entry (the eight bytes of flags as
    one number) and a branch stack. *)
Record branch_entry := mkBe { be_from : N; be_to : N; be_flags : N }.
Record branch_stack := mkBs { bs_hw_idx : N; bs_entries : list branch_entry }.

(** kernel/perf_internals.h:333-392, struct perf_sample, without the members this
    file never touches (flags, insn_len, user_stack, ksymbol). Arrays carry their
    counts (raw_size, callchain->nr, branch_stack->nr, read.group.nr); [None] is
    a null pointer. The constructor leaves no_hw_idx uninitialised: [None]. *)
Record psample := mkSample {
  s_ip : N; s_pid : N; s_tid : N; s_time : N; s_addr : N; s_id : N;
  s_stream_id : N; s_period : N; s_weight : N; s_transaction : N; s_cpu : N;
  s_data_src : N; s_no_hw_idx : option bool; s_raw : list N;
  s_callchain : option (list N); s_branch : option branch_stack;
  s_time_enabled : N; s_time_running : N;
  s_group : option (list read_value); s_one : read_value;
  s_phys_addr : N; s_cgroup : N; s_data_page : N; s_code_page : N
}.

(** kernel/perf_internals.h:361-386, the constructor. *)
Definition fresh_sample : psample :=
  mkSample 0 0 0 0 0 0 0 0 0 0 0 0 None [] None None 0 0 None (mkRv 0 0 0) 0 0 0 0.

(** Assignments to members. *)
Definition set_ip v s := let 'mkSample a b c d e f g h i j k l m n o p q r t u w x y z := s in
  mkSample v b c d e f g h i j k l m n o p q r t u w x y z.
Definition set_pid v s := let 'mkSample a b c d e f g h i j k l m n o p q r t u w x y z := s in
  mkSample a v c d e f g h i j k l m n o p q r t u w x y z.
Definition set_tid v s := let 'mkSample a b c d e f g h i j k l m n o p q r t u w x y z := s in
  mkSample a b v d e f g h i j k l m n o p q r t u w x y z.
Definition set_time v s := let 'mkSample a b c d e f g h i j k l m n o p q r t u w x y z := s in
  mkSample a b c v e f g h i j k l m n o p q r t u w x y z.
Definition set_addr v s := let 'mkSample a b c d e f g h i j k l m n o p q r t u w x y z := s in
  mkSample a b c d v f g h i j k l m n o p q r t u w x y z.
Definition set_id v s := let 'mkSample a b c d e f g h i j k l m n o p q r t u w x y z := s in
  mkSample a b c d e v g h i j k l m n o p q r t u w x y z.
Definition set_stream_id v s := let 'mkSample a b c d e f g h i j k l m n o p q r t u w x y z := s in
  mkSample a b c d e f v h i j k l m n o p q r t u w x y z.
Definition set_period v s := let 'mkSample a b c d e f g h i j k l m n o p q r t u w x y z := s in
  mkSample a b c d e f g v i j k l m n o p q r t u w x y z.
Definition set_weight v s := let 'mkSample a b c d e f g h i j k l m n o p q r t u w x y z := s in
  mkSample a b c d e f g h v j k l m n o p q r t u w x y z.
Definition set_transaction v s := let 'mkSample a b c d e f g h i j k l m n o p q r t u w x y z := s in
  mkSample a b c d e f g h i v k l m n o p q r t u w x y z.
Definition set_cpu v s := let 'mkSample a b c d e f g h i j k l m n o p q r t u w x y z := s in
  mkSample a b c d e f g h i j v l m n o p q r t u w x y z.
Definition set_data_src v s := let 'mkSample a b c d e f g h i j k l m n o p q r t u w x y z := s in
  mkSample a b c d e f g h i j k v m n o p q r t u w x y z.
Definition set_no_hw_idx v s := let 'mkSample a b c d e f g h i j k l m n o p q r t u w x y z := s in
  mkSample a b c d e f g h i j k l v n o p q r t u w x y z.
Definition set_raw v s := let 'mkSample a b c d e f g h i j k l m n o p q r t u w x y z := s in
  mkSample a b c d e f g h i j k l m v o p q r t u w x y z.
Definition set_callchain v s := let 'mkSample a b c d e f g h i j k l m n o p q r t u w x y z := s in
  mkSample a b c d e f g h i j k l m n v p q r t u w x y z.
Definition set_branch v s := let 'mkSample a b c d e f g h i j k l m n o p q r t u w x y z := s in
  mkSample a b c d e f g h i j k l m n o v q r t u w x y z.
Definition set_time_enabled v s := let 'mkSample a b c d e f g h i j k l m n o p q r t u w x y z := s in
  mkSample a b c d e f g h i j k l m n o p v r t u w x y z.
Definition set_time_running v s := let 'mkSample a b c d e f g h i j k l m n o p q r t u w x y z := s in
  mkSample a b c d e f g h i j k l m n o p q v t u w x y z.
Definition set_group v s := let 'mkSample a b c d e f g h i j k l m n o p q r t u w x y z := s in
  mkSample a b c d e f g h i j k l m n o p q r v u w x y z.
Definition set_one v s := let 'mkSample a b c d e f g h i j k l m n o p q r t u w x y z := s in
  mkSample a b c d e f g h i j k l m n o p q r t v w x y z.
Definition set_phys_addr v s := let 'mkSample a b c d e f g h i j k l m n o p q r t u w x y z := s in
  mkSample a b c d e f g h i j k l m n o p q r t u v x y z.
Definition set_cgroup v s := let 'mkSample a b c d e f g h i j k l m n o p q r t u w x y z := s in
  mkSample a b c d e f g h i j k l m n o p q r t u w v y z.
Definition set_data_page v s := let 'mkSample a b c d e f g h i j k l m n o p q r t u w x y z := s in
  mkSample a b c d e f g h i j k l m n o p q r t u w x v z.
Definition set_code_page v s := let 'mkSample a b c d e f g h i j k l m n o p q r t u w x y z := s in
  mkSample a b c d e f g h i j k l m n o p q r t u w x y v.

(** ** Which events and which fields *)

(** sample_info_reader.cc:826-849, IsSupportedEventType. *)
Definition supported_type (ty : N) : bool :=
  existsb (N.eqb ty)
    [R_SAMPLE; R_MMAP; R_MMAP2; R_KSYMBOL; R_BPF_METADATA; R_FORK; R_EXIT; R_COMM;
     R_LOST; R_THROTTLE; R_UNTHROTTLE; R_AUX; R_ITRACE_START; R_LOST_SAMPLES;
     R_SWITCH; R_SWITCH_CPU_WIDE; R_NAMESPACES; R_CGROUP].

(** sample_info_reader.cc:913-944, GetSampleFieldsForEventType. *)
Definition sample_fields (ty sample_type : N) : outcome N :=
  if existsb (N.eqb ty)
       [R_MMAP; R_LOST; R_COMM; R_EXIT; R_THROTTLE; R_UNTHROTTLE; R_FORK; R_MMAP2;
        R_KSYMBOL; R_BPF_METADATA; R_AUX; R_ITRACE_START; R_LOST_SAMPLES; R_SWITCH;
        R_SWITCH_CPU_WIDE; R_NAMESPACES; R_CGROUP]
  then Ok (N.land sample_type
             (2 ^ B_TID + 2 ^ B_TIME + 2 ^ B_ID + 2 ^ B_STREAM_ID + 2 ^ B_CPU + 2 ^ B_IDENTIFIER))
  else if ty =? R_SAMPLE then Ok (N.land sample_type max64)
  else Abort.

(** ** Reading *)

Definition step := psample -> rcall psample.
Definition rabort {A} : rcall A := fun r => (Abort, r).

(** if (cond && !Read...(...)) return false; *)
Definition on (b : bool) (f : step) : step := fun s => if b then f s else rret s.

(** reader.ReadUint64(&sample->member), reader.ReadUint32(&sample->member) *)
Definition rd64 (set : N -> psample -> psample) : step :=
  fun s => rlet v := read_u64 in rret (set v s).
Definition rd32 (set : N -> psample -> psample) : step :=
  fun s => rlet v := read_u32 in rret (set v s).

Definition seq (f g : step) : step := fun s => rlet s' := f s in g s'.
Definition run_steps (l : list step) : step := fold_right seq rret l.

(** for (i = 0; i < n; ++i) read one element *)
Fixpoint read_n {A} (n : nat) (f : rcall A) : rcall (list A) :=
  match n with
  | O => rret []
  | S n' => rlet a := f in rlet l := read_n n' f in rret (a :: l)
  end.

(** reader->size() - reader->Tell() *)
Definition remaining (r : reader) : N := sub64 (len (rbuf r)) (roff r).

(** sample_info_reader.cc:25-47, ReadReadInfo. *)
Definition rd_value (s : psample) : rcall psample :=
  rlet v := read_u64 in rret (set_one (mkRv v (rv_id (s_one s)) (rv_lost (s_one s))) s).
Definition rd_one_id (s : psample) : rcall psample :=
  rlet v := read_u64 in rret (set_one (mkRv (rv_value (s_one s)) v (rv_lost (s_one s))) s).
Definition rd_one_lost (s : psample) : rcall psample :=
  rlet v := read_u64 in rret (set_one (mkRv (rv_value (s_one s)) (rv_id (s_one s)) v) s).
Definition read_read_info (rf : N) : step :=
  run_steps [ rd_value;
              on (N.testbit rf F_TIME_ENABLED) (rd64 set_time_enabled);
              on (N.testbit rf F_TIME_RUNNING) (rd64 set_time_running);
              on (N.testbit rf F_ID) rd_one_id;
              on (N.testbit rf F_LOST) rd_one_lost ].

(** sample_info_reader.cc:92-103: one element of the group. The members that are
    not read stay uninitialised in C++; they are 0 here and no theorem speaks of
    them. *)
Definition read_group_value (rf : N) : rcall read_value :=
  rlet v := read_u64 in
  rlet i := (if N.testbit rf F_ID then read_u64 else rret 0) in
  rlet l := (if N.testbit rf F_LOST then read_u64 else rret 0) in
  rret (mkRv v i l).

(** sample_info_reader.cc:72-80, entry_size. *)
Definition group_entry_size (rf : N) : N :=
  8 + (if N.testbit rf F_ID then 8 else 0) + (if N.testbit rf F_LOST then 8 else 0).

(** sample_info_reader.cc:52-107, ReadGroupReadInfo. *)
Definition read_group_info (rf : N) : step :=
  fun s =>
    rlet num := read_u64 in
    rlet s := on (N.testbit rf F_TIME_ENABLED) (rd64 set_time_enabled) s in
    rlet s := on (N.testbit rf F_TIME_RUNNING) (rd64 set_time_running) s in
    match s_group s with
    | Some _ => rabort
    | None =>
        fun r =>
          if remaining r / group_entry_size rf <? num then (Fail, r)
          else (rlet vs := read_n (N.to_nat num) (read_group_value rf) in
                rret (set_group (Some vs) s)) r
    end.

(** sample_info_reader.cc:112-147, ReadCallchain. *)
Definition read_callchain : step :=
  fun s =>
    match s_callchain s with
    | Some _ => rabort
    | None =>
        rlet nr := read_u64 in
        fun r =>
          if remaining r / 8 <? nr then (Fail, r)
          else (rlet ips := read_n (N.to_nat nr) read_u64 in
                rret (set_callchain (Some ips) s)) r
    end.

(** sample_info_reader.cc:152-177, ReadRawData. *)
Definition read_raw : step :=
  fun s r =>
    let offset := roff r in
    (rlet size := read_u32 in
     fun r1 =>
       if remaining r1 <? size then (Fail, r1)
       else (rlet d := read_data size in
             rlet _ := seek_set (w64 (offset + align 8 (4 + size))) in
             rret (set_raw d s)) r1) r.

(** sample_info_reader.cc:221-234, one branch entry. *)
Definition read_branch_entry : rcall branch_entry :=
  rlet f := read_u64 in
  rlet t := read_u64 in
  rlet d := read_data 8 in
  fun r => if rswap r then (Fail, r) else (Ok (mkBe f t (of_le d)), r).

(** sample_info_reader.cc:182-236, ReadBranchStack; no_hw_idx has been set by the
    caller. *)
Definition read_branch_stack : step :=
  fun s =>
    match s_branch s, s_no_hw_idx s with
    | Some _, _ => rabort
    | None, None => fun r => (UB, r)
    | None, Some no_hw =>
        rlet nr := read_u64 in
        rlet hw := (if no_hw then rret 0 else read_u64) in
        fun r =>
          if remaining r / 24 <? nr then (Fail, r)
          else (rlet es := read_n (N.to_nat nr) read_branch_entry in
                rret (set_branch (Some (mkBs hw es)) s)) r
    end.

(** sample_info_reader.cc:399-407. *)
Definition rd_branch (a : attr) : step :=
  fun s =>
    read_branch_stack (set_no_hw_idx (Some (negb (N.testbit (at_branch_type a) BR_HW_INDEX))) s).

(** sample_info_reader.cc:326-343: the reserved word is dropped. *)
Definition rd_cpu : step :=
  fun s => rlet v := read_u32 in rlet _ := read_u32 in rret (set_cpu v s).

(** sample_info_reader.cc:454-465: the three parts of the weight; the members of
    the union overlay the 64-bit word (little-endian). *)
Definition rd_weight_struct : step :=
  fun s r =>
    if rswap r then (Fail, r)
    else (rlet v1 := read_u32 in
          rlet v2 := read_u16 in
          rlet v3 := read_u16 in
          rret (set_weight (v1 + two32 * (v2 + two16 * v3)) s)) r.

Definition rd_fail : step := fun _ => rfail.

(** sample_info_reader.cc:276-520: the fields in order. [~(PERF_SAMPLE_MAX - 1)]
    is taken as the 64-bit complement (the enumeration promotes to int). *)
Definition read_fields (a : attr) (ty f : N) : step :=
  let has b := N.testbit f b in
  run_steps
    [ on ((ty =? R_SAMPLE) && has B_IDENTIFIER) (rd64 set_id);
      on (has B_IP) (rd64 set_ip);
      on (has B_TID) (seq (rd32 set_pid) (rd32 set_tid));
      on (has B_TIME) (rd64 set_time);
      on (has B_ADDR) (rd64 set_addr);
      on (has B_ID) (rd64 set_id);
      on (has B_STREAM_ID) (rd64 set_stream_id);
      on (has B_CPU) rd_cpu;
      on (negb (ty =? R_SAMPLE) && has B_IDENTIFIER) (rd64 set_id);
      on (has B_PERIOD) (rd64 set_period);
      on (has B_READ)
         (if N.testbit (at_read_format a) F_GROUP
          then read_group_info (at_read_format a) else read_read_info (at_read_format a));
      on (has B_CALLCHAIN) read_callchain;
      on (has B_RAW) read_raw;
      on (has B_BRANCH_STACK) (rd_branch a);
      on (has B_REGS_USER) rd_fail;
      on (has B_STACK_USER) rd_fail;
      on (has B_WEIGHT && has B_WEIGHT_STRUCT) rd_fail;
      on (has B_WEIGHT) (rd64 set_weight);
      on (negb (has B_WEIGHT) && has B_WEIGHT_STRUCT) rd_weight_struct;
      on (has B_DATA_SRC) (rd64 set_data_src);
      on (has B_TRANSACTION) (rd64 set_transaction);
      on (has B_REGS_INTR) rd_fail;
      on (has B_PHYS_ADDR) (rd64 set_phys_addr);
      on (has B_CGROUP) (rd64 set_cgroup);
      on (has B_DATA_PAGE_SIZE) (rd64 set_data_page);
      on (has B_CODE_PAGE_SIZE) (rd64 set_code_page);
      on (negb (N.shiftr f 25 =? 0)) rd_fail ].

(** sample_info_reader.cc:246-524, ReadPerfSampleFromData: the sample and the
    offset where reading stopped. The reader covers header.size bytes of the
    event. *)
Definition read_from_data (a : attr) (swap : bool) (e : list N) (s : psample)
  : outcome (psample * N) :=
  let! seek := event_data_size e in
  let! buf := mem_read e 0 (ev_size e) in
  match seek_set seek (mkReader buf 0 swap) with
  | (Ok _, r) =>
      if negb ((ev_type e =? R_SAMPLE) || at_sample_id_all a) then Ok (s, roff r)
      else
        let! f := sample_fields (ev_type e) (at_sample_type a) in
        match read_fields a (ev_type e) f s r with
        | (Ok s', r') => Ok (s', roff r')
        | (Fail, _) => Fail | (Abort, _) => Abort | (UB, _) => UB | (Hang, _) => Hang
        end
  | _ => Fail
  end.

(** sample_info_reader.cc:851-872, SampleInfoReader::ReadPerfSampleInfo. On
    failure the contents of the sample are not modelled. *)
Definition read_sample_info (a : attr) (swap : bool) (e : list N) (s : psample)
  : outcome psample :=
  if negb (supported_type (ev_type e)) then Fail
  else
    let! (s', size) := read_from_data a swap e s in
    if size =? ev_size e then Ok s' else Fail.

(** ** Writing *)

(** What one call of WriteData / WriteSizeAndData stores at the current position,
    and by how much it moves the position and the written size. *)
Record chunk := mkChunk { ck_bytes : list N; ck_move : N }.

(** sample_info_reader.cc:546-549. *)
Definition put64 (v : N) : chunk := mkChunk (le_bytes 8 v) 8.

(** int num_bytes = ...; size_ += num_bytes: through a 32-bit signed integer,
    whose sign is extended. *)
Definition through_int (x : N) : N :=
  let y := w32 x in if y <? 2 ^ 31 then y else y + (two64 - two32).

(** sample_info_reader.cc:551-563, WriteSizeAndData: the padding is not written. *)
Definition put_sized (d : list N) : chunk :=
  mkChunk (le_bytes 4 (len d) ++ d) (through_int (align 8 (4 + len d))).

(** sample_info_reader.cc:565-575, WriteData(size, data). *)
Definition put_data (d : list N) : chunk := mkChunk d (through_int (align 8 (len d))).

(** val32[0] = a; val32[1] = b; WriteData(val64) *)
Definition put32_32 (a b : N) : chunk := mkChunk (le_bytes 4 a ++ le_bytes 4 b) 8.

Definition when (b : bool) (l : list chunk) : list chunk := if b then l else [].

(** sample_info_reader.cc:677-700. *)
Definition write_read (a : attr) (s : psample) : list chunk :=
  let rf := at_read_format a in
  let fmt b := N.testbit rf b in
  if fmt F_GROUP then
    let vs := match s_group s with Some vs => vs | None => [] end in
    [put64 (len vs)]
    ++ when (fmt F_TIME_ENABLED) [put64 (s_time_enabled s)]
    ++ when (fmt F_TIME_RUNNING) [put64 (s_time_running s)]
    ++ flat_map (fun v => [put64 (rv_value v)]
                          ++ when (fmt F_ID) [put64 (rv_id v)]
                          ++ when (fmt F_LOST) [put64 (rv_lost v)]) vs
  else
    [put64 (rv_value (s_one s))]
    ++ when (fmt F_TIME_ENABLED) [put64 (s_time_enabled s)]
    ++ when (fmt F_TIME_RUNNING) [put64 (s_time_running s)]
    ++ when (fmt F_ID) [put64 (rv_id (s_one s))]
    ++ when (fmt F_LOST) [put64 (rv_lost (s_one s))].

(** sample_info_reader.cc:704-714. *)
Definition write_callchain (s : psample) : list chunk :=
  match s_callchain s with
  | None => [put64 0]
  | Some ips => put64 (len ips) :: map put64 ips
  end.

(** sample_info_reader.cc:725-741. Reading the uninitialised no_hw_idx is
    undefined. *)
Definition write_branch (s : psample) : outcome (list chunk) :=
  let bs := match s_branch s with Some bs => bs | None => mkBs 0 [] end in
  match s_no_hw_idx s with
  | None => UB
  | Some no_hw =>
      Ok ([put64 (len (bs_entries bs))]
          ++ when (negb no_hw) [put64 (bs_hw_idx bs)]
          ++ flat_map (fun b => [put64 (be_from b); put64 (be_to b);
                                 put_data (le_bytes 8 (be_flags b))]) (bs_entries bs))
  end.

(** sample_info_reader.cc:610-741: up to the branch stack. *)
Definition write_first (a : attr) (ty f : N) (s : psample) : outcome (list chunk) :=
  let has b := N.testbit f b in
  let! branch := if has B_BRANCH_STACK then write_branch s else Ok [] in
  Ok (when ((ty =? R_SAMPLE) && has B_IDENTIFIER) [put64 (s_id s)]
      ++ when (has B_IP) [put64 (s_ip s)]
      ++ when (has B_TID) [put32_32 (s_pid s) (s_tid s)]
      ++ when (has B_TIME) [put64 (s_time s)]
      ++ when (has B_ADDR) [put64 (s_addr s)]
      ++ when (has B_ID) [put64 (s_id s)]
      ++ when (has B_STREAM_ID) [put64 (s_stream_id s)]
      ++ when (has B_CPU) [put32_32 (s_cpu s) 0]
      ++ when (negb (ty =? R_SAMPLE) && has B_IDENTIFIER) [put64 (s_id s)]
      ++ when (has B_PERIOD) [put64 (s_period s)]
      ++ when (has B_READ) (write_read a s)
      ++ when (has B_CALLCHAIN) (write_callchain s)
      ++ when (has B_RAW) [put_sized (s_raw s)]
      ++ branch).

(** sample_info_reader.cc:778-792 and 801-819. *)
Definition write_second (f : N) (s : psample) : list chunk :=
  let has b := N.testbit f b in
  when (has B_WEIGHT || has B_WEIGHT_STRUCT) [put64 (s_weight s)]
  ++ when (has B_DATA_SRC) [put64 (s_data_src s)]
  ++ when (has B_TRANSACTION) [put64 (s_transaction s)].
Definition write_third (f : N) (s : psample) : list chunk :=
  let has b := N.testbit f b in
  when (has B_PHYS_ADDR) [put64 (s_phys_addr s)]
  ++ when (has B_CGROUP) [put64 (s_cgroup s)]
  ++ when (has B_DATA_PAGE_SIZE) [put64 (s_data_page s)]
  ++ when (has B_CODE_PAGE_SIZE) [put64 (s_code_page s)].

(** sample_info_reader.cc:590-822, PerfSampleDataWriter::Write: everything it
    stores, in order. Unsupported fields end it early. *)
Definition write_chunks (a : attr) (ty : N) (s : psample) : outcome (list chunk) :=
  if negb ((ty =? R_SAMPLE) || at_sample_id_all a) then Ok []
  else
    let! f := sample_fields ty (at_sample_type a) in
    let! first := write_first a ty f s in
    if N.testbit f B_REGS_USER || N.testbit f B_STACK_USER then Ok first
    else if N.testbit f B_REGS_INTR then Ok (first ++ write_second f s)
    else Ok (first ++ write_second f s ++ write_third f s).

(** The written size, size_. *)
Definition chunks_size (cs : list chunk) : N :=
  fold_left (fun n c => w64 (n + ck_move c)) cs 0.

(** Storing the chunks from position [pos] (bytes) of the block [e]; [pos] moves
    in whole 64-bit words. *)
Fixpoint store_chunks (e : list N) (pos : N) (cs : list chunk) : outcome (list N * N) :=
  match cs with
  | [] => Ok (e, pos)
  | c :: cs' =>
      let! e' := mem_write e pos (ck_bytes c) in
      store_chunks e' (w64 (pos + 8 * (ck_move c / 8))) cs'
  end.

(** sample_info_reader.cc:905-910, GetPerfSampleDataSize. *)
Definition sample_data_size (a : attr) (s : psample) (ty : N) : outcome N :=
  let! cs := write_chunks a ty s in Ok (chunks_size cs).

(** sample_info_reader.cc:874-903, WritePerfSampleInfo: the event afterwards and
    whether the call succeeded. The CHECK is GetWrittenSize (577-582). *)
Definition write_sample_info (a : attr) (s : psample) (e : list N)
  : outcome (list N * bool) :=
  if negb (supported_type (ev_type e)) then Ok (e, false)
  else
    match event_data_size e with
    | Fail => Ok (e, false)
    | Ok offset =>
        let start := 8 * (offset / 8) in
        let! cs := write_chunks a (ev_type e) s in
        let! (e', pos) := store_chunks e start cs in
        if negb (sub64 pos start =? chunks_size cs) then Abort
        else Ok (e', w64 (offset + chunks_size cs) =? ev_size e)
    | Abort => Abort | UB => UB | Hang => Hang
    end.
