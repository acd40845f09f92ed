(** Model of src/quipper/arm_spe_decoder.{h,cc} (class ArmSpeDecoder). *)
From Verif Require Import Base BytesModel.
Local Open Scope N_scope.

(** arm_spe_decoder.h:16-34, RecordEvent. *)
Record spe_event := {
  ev_gen_exception : bool; ev_retired : bool; ev_l1d_access : bool; ev_l1d_refill : bool;
  ev_tlb_access : bool; ev_tlb_walk : bool; ev_cond_not_taken : bool; ev_br_mis_pred : bool;
  ev_llc_access : bool; ev_llc_miss : bool; ev_remote_access : bool; ev_ldst_alignment : bool;
  ev_sve_partial_pred : bool; ev_sve_empty_pred : bool }.

(** arm_spe_decoder.h:36-69, RecordOp: the three groups. *)
Record spe_other := { oo_cond : bool; oo_sve : bool; oo_sve_pred : bool }.
Record spe_ldst := {
  lo_ld : bool; lo_st : bool; lo_gp_reg : bool; lo_atomic : bool; lo_atomic_at : bool;
  lo_atomic_excl : bool; lo_atomic_ar : bool; lo_simd_fp : bool; lo_sve : bool;
  lo_unsp_reg : bool; lo_mrs : bool; lo_alloc_tag : bool; lo_memcpy : bool; lo_memset : bool }.
Record spe_br := { bo_cond : bool; bo_indirect : bool }.
Record spe_op := {
  op_is_other : bool; op_other : spe_other;
  op_is_ldst : bool; op_ldst : spe_ldst;
  op_is_br : bool; op_br : spe_br }.

(** arm_spe_decoder.h:71-99: RecordIP, RecordVA, RecordPA, RecordContext. *)
Record spe_ip := { ip_addr : N; ip_el : N; ip_ns : N }.
Record spe_va := { va_addr : N; va_tag : N }.
Record spe_pa := { pa_addr : N; pa_ns : N; pa_ch : N; pa_pat : N }.
Record spe_ctx := { sc_id : N; sc_el1 : bool; sc_el2 : bool }.

(** arm_spe_decoder.h:101-115, Record. *)
Record spe_rec := {
  sr_event : spe_event; sr_op : spe_op;
  sr_total_lat : N; sr_issue_lat : N; sr_trans_lat : N;
  sr_ip : spe_ip; sr_tgt_br : spe_ip; sr_prev_br : spe_ip;
  sr_virt : spe_va; sr_phys : spe_pa;
  sr_time : N; sr_ctx : spe_ctx; sr_source : option N }.

(** arm_spe_decoder.cc:61, [Record record{}]. *)
Definition spe_event0 : spe_event := Build_spe_event false false false false false false false
  false false false false false false false.
Definition spe_ldst0 : spe_ldst := Build_spe_ldst false false false false false false false
  false false false false false false false.
Definition spe_op0 : spe_op := Build_spe_op false (Build_spe_other false false false) false spe_ldst0
  false (Build_spe_br false false).
Definition spe_ip0 : spe_ip := Build_spe_ip 0 0 0.
Definition spe_rec0 : spe_rec :=
  Build_spe_rec spe_event0 spe_op0 0 0 0 spe_ip0 spe_ip0 spe_ip0 (Build_spe_va 0 0)
    (Build_spe_pa 0 0 0 0) 0 (Build_spe_ctx 0 false false) None.

(** Field updates. *)
Definition sr_set_event x r := Build_spe_rec x (sr_op r) (sr_total_lat r) (sr_issue_lat r) (sr_trans_lat r) (sr_ip r) (sr_tgt_br r) (sr_prev_br r) (sr_virt r) (sr_phys r) (sr_time r) (sr_ctx r) (sr_source r).
Definition sr_set_op x r := Build_spe_rec (sr_event r) x (sr_total_lat r) (sr_issue_lat r) (sr_trans_lat r) (sr_ip r) (sr_tgt_br r) (sr_prev_br r) (sr_virt r) (sr_phys r) (sr_time r) (sr_ctx r) (sr_source r).
Definition sr_set_total x r := Build_spe_rec (sr_event r) (sr_op r) x (sr_issue_lat r) (sr_trans_lat r) (sr_ip r) (sr_tgt_br r) (sr_prev_br r) (sr_virt r) (sr_phys r) (sr_time r) (sr_ctx r) (sr_source r).
Definition sr_set_issue x r := Build_spe_rec (sr_event r) (sr_op r) (sr_total_lat r) x (sr_trans_lat r) (sr_ip r) (sr_tgt_br r) (sr_prev_br r) (sr_virt r) (sr_phys r) (sr_time r) (sr_ctx r) (sr_source r).
Definition sr_set_trans x r := Build_spe_rec (sr_event r) (sr_op r) (sr_total_lat r) (sr_issue_lat r) x (sr_ip r) (sr_tgt_br r) (sr_prev_br r) (sr_virt r) (sr_phys r) (sr_time r) (sr_ctx r) (sr_source r).
Definition sr_set_ip x r := Build_spe_rec (sr_event r) (sr_op r) (sr_total_lat r) (sr_issue_lat r) (sr_trans_lat r) x (sr_tgt_br r) (sr_prev_br r) (sr_virt r) (sr_phys r) (sr_time r) (sr_ctx r) (sr_source r).
Definition sr_set_tgt x r := Build_spe_rec (sr_event r) (sr_op r) (sr_total_lat r) (sr_issue_lat r) (sr_trans_lat r) (sr_ip r) x (sr_prev_br r) (sr_virt r) (sr_phys r) (sr_time r) (sr_ctx r) (sr_source r).
Definition sr_set_prev x r := Build_spe_rec (sr_event r) (sr_op r) (sr_total_lat r) (sr_issue_lat r) (sr_trans_lat r) (sr_ip r) (sr_tgt_br r) x (sr_virt r) (sr_phys r) (sr_time r) (sr_ctx r) (sr_source r).
Definition sr_set_virt x r := Build_spe_rec (sr_event r) (sr_op r) (sr_total_lat r) (sr_issue_lat r) (sr_trans_lat r) (sr_ip r) (sr_tgt_br r) (sr_prev_br r) x (sr_phys r) (sr_time r) (sr_ctx r) (sr_source r).
Definition sr_set_phys x r := Build_spe_rec (sr_event r) (sr_op r) (sr_total_lat r) (sr_issue_lat r) (sr_trans_lat r) (sr_ip r) (sr_tgt_br r) (sr_prev_br r) (sr_virt r) x (sr_time r) (sr_ctx r) (sr_source r).
Definition sr_set_time x r := Build_spe_rec (sr_event r) (sr_op r) (sr_total_lat r) (sr_issue_lat r) (sr_trans_lat r) (sr_ip r) (sr_tgt_br r) (sr_prev_br r) (sr_virt r) (sr_phys r) x (sr_ctx r) (sr_source r).
Definition sr_set_ctx x r := Build_spe_rec (sr_event r) (sr_op r) (sr_total_lat r) (sr_issue_lat r) (sr_trans_lat r) (sr_ip r) (sr_tgt_br r) (sr_prev_br r) (sr_virt r) (sr_phys r) (sr_time r) x (sr_source r).
Definition sr_set_source x r := Build_spe_rec (sr_event r) (sr_op r) (sr_total_lat r) (sr_issue_lat r) (sr_trans_lat r) (sr_ip r) (sr_tgt_br r) (sr_prev_br r) (sr_virt r) (sr_phys r) (sr_time r) (sr_ctx r) x.

(** arm_spe_decoder.h:155-165: the trace buffer, the address it is stored at
    ([buf_.data()], which decides the size of alignment packets) and the byte
    order flag. seen_pk_idx_mask_ only suppresses repeated log lines and is left
    out. *)
Record spe_trace := { st_buf : list N; st_base : N; st_swap : bool }.

(** [buf_[i]] of a string_view: undefined outside. *)
Definition byte_at (buf : list N) (i : N) : outcome N :=
  match nth_error buf (N.to_nat i) with Some b => Ok b | None => UB end.

(** arm_spe_decoder.cc:44-46, GetPayloadSize. *)
Definition payload_size (header : N) : N := N.shiftl 1 (N.shiftr (N.land header 0x30) 4).

(** arm_spe_decoder.cc:380-429, SetPayloadAndSize: payload and packet size. *)
Definition set_payload (t : spe_trace) (i : N) (ext : N) : outcome (N * N) :=
  let header_size := if ext =? 0 then 1 else 2 in
  let! hb := byte_at (st_buf t) (i + header_size - 1) in
  let psize := payload_size hb in
  if len (st_buf t) - i <? header_size + psize then Fail
  else
    let! d := mem_read (st_buf t) (i + header_size) psize in
    let! p := maybe_swap (N.to_nat psize) (of_le d) (st_swap t) in
    Ok (p, header_size + psize).

(** arm_spe_decoder.cc:203-216. *)
Definition decode_event (p : N) : spe_event :=
  {| ev_gen_exception := N.testbit p 0; ev_retired := N.testbit p 1;
     ev_l1d_access := N.testbit p 2; ev_l1d_refill := N.testbit p 3;
     ev_tlb_access := N.testbit p 4; ev_tlb_walk := N.testbit p 5;
     ev_cond_not_taken := N.testbit p 6; ev_br_mis_pred := N.testbit p 7;
     ev_llc_access := N.testbit p 8; ev_llc_miss := N.testbit p 9;
     ev_remote_access := N.testbit p 10; ev_ldst_alignment := N.testbit p 11;
     ev_sve_partial_pred := N.testbit p 17; ev_sve_empty_pred := N.testbit p 18 |}.

(** arm_spe_decoder.cc:247-293, the operation packet: class from the header. *)
Definition decode_op (header p : N) (o : spe_op) : outcome spe_op :=
  match N.land header 3 with
  | 0 => Ok {| op_is_other := true;
               op_other := {| oo_cond := N.testbit p 0;
                              oo_sve := N.land p 0x89 =? 8;
                              oo_sve_pred := N.testbit p 2 |};
               op_is_ldst := op_is_ldst o; op_ldst := op_ldst o;
               op_is_br := op_is_br o; op_br := op_br o |}
  | 1 => let l := op_ldst o in
         let atomic := N.land p 0xe2 =? 2 in
         Ok {| op_is_other := op_is_other o; op_other := op_other o;
               op_is_ldst := true;
               op_ldst := {| lo_ld := negb (N.testbit p 0); lo_st := N.testbit p 0;
                  lo_gp_reg := N.land p 0xfe =? 0; lo_atomic := atomic;
                  lo_atomic_at := if atomic then N.testbit p 2 else lo_atomic_at l;
                  lo_atomic_excl := if atomic then N.testbit p 3 else lo_atomic_excl l;
                  lo_atomic_ar := if atomic then N.testbit p 4 else lo_atomic_ar l;
                  lo_simd_fp := N.land p 0xfe =? 4; lo_sve := N.land p 0xa =? 8;
                  lo_unsp_reg := N.land p 0xfe =? 0x10; lo_mrs := N.land p 0xfe =? 0x30;
                  lo_alloc_tag := N.land p 0xfe =? 0x12; lo_memcpy := N.land p 0xfe =? 0x20;
                  lo_memset := N.land p 0xff =? 0x25 |};
               op_is_br := op_is_br o; op_br := op_br o |}
  | 2 => Ok {| op_is_other := op_is_other o; op_other := op_other o;
               op_is_ldst := op_is_ldst o; op_ldst := op_ldst o;
               op_is_br := true;
               op_br := {| bo_cond := N.land p 1 =? 1; bo_indirect := N.land p 0xfe =? 2 |} |}
  | _ => Fail
  end.

(** arm_spe_decoder.cc:311-320. *)
Definition decode_ip (p : N) : spe_ip :=
  let el := N.shiftr (N.land p (N.shiftl 3 61)) 61 in
  let ns := N.shiftr (N.land p (N.shiftl 1 63)) 63 in
  {| ip_addr := if negb (ns =? 0) && ((el =? 1) || (el =? 2))
                then N.lor p (N.shiftl 0xff 56)
                else N.land p (N.ones 56);
     ip_el := el; ip_ns := ns |}.

(** arm_spe_decoder.cc:331-337. *)
Definition decode_va (p : N) : spe_va :=
  let value := N.shiftr (N.land p (N.ones 56)) 48 in
  {| va_addr := if N.land value 0xf0 =? 0xf0 then N.lor p (N.shiftl 0xff 56)
                else N.land p (N.ones 56);
     va_tag := N.shiftr (N.land p (N.shiftl 0xff 56)) 56 |}.

(** arm_spe_decoder.cc:340-343. *)
Definition decode_pa (p : N) : spe_pa :=
  {| pa_addr := N.land p (N.ones 56);
     pa_ns := N.shiftr (N.land p (N.shiftl 1 63)) 63;
     pa_ch := N.shiftr (N.land p (N.shiftl 1 62)) 62;
     pa_pat := N.shiftr (N.land p (N.shiftl 0xf 56)) 56 |}.

(** arm_spe_decoder.cc:31-34, HdrIndex and HdrExtendedIndex, as used at 304-306
    and 358-360. *)
Definition hdr_index (header ext : N) : N :=
  if ext =? 0 then N.land header 7
  else N.lor (N.shiftl (N.land header 3) 3) (N.land ext 7).

(** arm_spe_decoder.cc:308-349. *)
Definition handle_address (header ext p : N) (r : spe_rec) : spe_rec :=
  match hdr_index header ext with
  | 0 => sr_set_ip (decode_ip p) r
  | 1 => sr_set_tgt (decode_ip p) r
  | 4 => sr_set_prev (decode_ip p) r
  | 2 => sr_set_virt (decode_va p) r
  | 3 => sr_set_phys (decode_pa p) r
  | _ => r
  end.

(** arm_spe_decoder.cc:362-377; the counters are uint32_t. *)
Definition handle_counter (header ext p : N) (r : spe_rec) : spe_rec :=
  match hdr_index header ext with
  | 0 => sr_set_total (w32 p) r
  | 1 => sr_set_issue (w32 p) r
  | 2 => sr_set_trans (w32 p) r
  | _ => r
  end.

(** arm_spe_decoder.cc:124-169: what follows the fixed headers: extended header,
    alignment, address and counter packets. *)
Definition spe_tail (t : spe_trace) (i header ext : N) (r : spe_rec)
  : outcome (N * bool * spe_rec) :=
  let hdr := if ext =? 0 then header else ext in
  if N.land hdr 0xf8 =? 0xb0 then
    let! (p, sz) := set_payload t i ext in Ok (sz, false, handle_address header ext p r)
  else if N.land hdr 0xf8 =? 0x98 then
    let! (p, sz) := set_payload t i ext in Ok (sz, false, handle_counter header ext p r)
  else Fail.

(** arm_spe_decoder.cc:64-170, one iteration of the loop: size of the packet,
    whether it is an end type, the updated record. [buf_i_ < buf_.size()]. *)
Definition spe_packet (t : spe_trace) (i : N) (r : spe_rec) : outcome (N * bool * spe_rec) :=
  let! header := byte_at (st_buf t) i in
  if header =? 0 then Ok (1, false, r)
  else if header =? 1 then Ok (1, true, r)
  else if header =? 0x71 then
    let! (p, sz) := set_payload t i 0 in Ok (sz, true, sr_set_time p r)
  else if N.land header 0xcf =? 0x42 then
    let! (p, sz) := set_payload t i 0 in Ok (sz, false, sr_set_event (decode_event p) r)
  else if N.land header 0xcf =? 0x43 then
    let! (p, sz) := set_payload t i 0 in Ok (sz, false, sr_set_source (Some p) r)
  else if N.land header 0xfc =? 0x64 then
    let! (p, sz) := set_payload t i 0 in
    Ok (sz, false, sr_set_ctx {| sc_id := p; sc_el1 := N.land header 3 =? 0;
                                 sc_el2 := N.land header 3 =? 1 |} r)
  else if N.land header 0xfc =? 0x48 then
    let! (p, sz) := set_payload t i 0 in
    let! o := decode_op header p (sr_op r) in
    Ok (sz, false, sr_set_op o r)
  else if N.land header 0xfc =? 0x20 then
    if len (st_buf t) - i =? 1 then Fail
    else
      let! ext := byte_at (st_buf t) (i + 1) in
      if ext =? 0 then
        let alignment := N.shiftl 1 (N.land header 0xf + 1) in
        if len (st_buf t) - i <? alignment then Fail
        else Ok (alignment - N.land (w64 (st_base t + i)) (alignment - 1), false, r)
      else spe_tail t i header ext r
  else spe_tail t i header 0 r.

(** arm_spe_decoder.cc:64-173: the loop. The result is the record, or [None] when
    the call returns false, and the position buf_i_ it leaves behind. The fuel
    only bounds the recursion: running out is [Hang]. Positions do not wrap
    (theorem C40_memory_safe keeps them within the buffer). *)
Fixpoint spe_loop (fuel : nat) (t : spe_trace) (i : N) (r : spe_rec)
  : outcome (option spe_rec * N) :=
  if len (st_buf t) <=? i then Ok (Some r, i)
  else
    match fuel with
    | O => Hang
    | S f =>
        match spe_packet t i r with
        | Ok (sz, is_end, r') =>
            if is_end : bool then Ok (Some r', i + sz) else spe_loop f t (i + sz) r'
        | Fail => Ok (None, i)
        | Abort => Abort
        | UB => UB
        | Hang => Hang
        end
    end.

(** arm_spe_decoder.cc:56-174, NextRecord at position [i]. *)
Definition next_record (t : spe_trace) (i : N) : outcome (option spe_rec * N) :=
  if len (st_buf t) <=? i then Ok (None, i)
  else spe_loop (length (st_buf t)) t i spe_rec0.

(** perf_data_handler.cc:963-965: [while (decoder.NextRecord(&record))]: the
    records of the whole trace. *)
Fixpoint all_records (fuel : nat) (t : spe_trace) (i : N) : outcome (list spe_rec) :=
  match fuel with
  | O => Hang
  | S f =>
      match next_record t i with
      | Ok (Some r, i') => let! rs := all_records f t i' in Ok (r :: rs)
      | Ok (None, _) => Ok []
      | Fail => Fail
      | Abort => Abort
      | UB => UB
      | Hang => Hang
      end
  end.

Definition decode_trace (t : spe_trace) : outcome (list spe_rec) :=
  all_records (S (length (st_buf t))) t 0.
