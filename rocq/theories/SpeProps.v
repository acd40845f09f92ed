(** C40: the Arm SPE decoder (src/quipper/arm_spe_decoder.cc). *)
From Verif Require Import Base BytesModel SpeModel SpeSpec SpeProofs.
Local Open Scope N_scope.

(** C40. From any position inside any buffer, a call of NextRecord neither reads
    outside the buffer nor loops for ever; it leaves the position inside the
    buffer, and if it delivers a record it has consumed at least one byte. *)
Theorem C40_memory_safe (t : spe_trace) (i : N) :
  i <= len (st_buf t) ->
  exists res i', next_record t i = Ok (res, i') /\ i <= i' <= len (st_buf t) /\
    (res <> None -> i < i').
Proof. exact (next_record_safe t i). Qed.
Print Assumptions C40_memory_safe.

(** C40. The decode loop ends on every buffer, after at most as many records as
    bytes. *)
Theorem C40_decode_loop_terminates (t : spe_trace) :
  exists rs, decode_trace t = Ok rs /\ len rs <= len (st_buf t).
Proof.
  destruct (all_records_safe (S (length (st_buf t))) t 0) as (rs & E & H).
  - apply N.le_0_l.
  - unfold len. lia.
  - exists rs. split; [exact E|]. rewrite N.sub_0_r in H. exact H.
Qed.
Print Assumptions C40_decode_loop_terminates.

(** C40. Once a call fails, calling again fails at the same position. *)
Theorem C40_failure_is_final (t : spe_trace) (i i' : N) :
  next_record t i = Ok (None, i') -> next_record t i' = Ok (None, i').
Proof. exact (next_record_sticky t i i'). Qed.
Print Assumptions C40_failure_is_final.

(** C40. Any sequence of well-formed records, in either byte order and wherever
    the buffer lies in memory, is decoded to the records it encodes. *)
Theorem C40_decodes_what_was_encoded (base : N) (swap : bool) (bs : list spe_block) :
  Forall block_ok bs ->
  decode_trace {| st_buf := flat_map (encode_block swap) bs; st_base := base; st_swap := swap |}
  = Ok (map block_record bs).
Proof. exact (decode_blocks base swap bs). Qed.
Print Assumptions C40_decodes_what_was_encoded.

(** C40. A record in the middle of arbitrary other bytes is decoded on its own. *)
Theorem C40_decodes_record_in_context (base : N) (swap : bool) (b : spe_block) (pre post : list N) :
  block_ok b ->
  next_record {| st_buf := pre ++ encode_block swap b ++ post; st_base := base; st_swap := swap |} (len pre)
  = Ok (Some (block_record b), len pre + len (encode_block swap b)).
Proof. exact (next_record_block base swap b pre post). Qed.
Print Assumptions C40_decodes_record_in_context.

(** C40. An alignment packet moves to the next multiple of its alignment, as an
    address in memory, and changes nothing else. *)
Theorem C40_alignment_packet (pre post : list N) (low base : N) (swap : bool) (r : spe_rec) :
  low < 4 -> base + len pre < two64 -> 2 ^ (low + 1) <= 2 + len post ->
  exists sz,
    spe_packet {| st_buf := pre ++ (0x20 + low) :: 0 :: post; st_base := base; st_swap := swap |} (len pre) r
    = Ok (sz, false, r) /\ 1 <= sz <= 2 ^ (low + 1) /\ (base + len pre + sz) mod 2 ^ (low + 1) = 0.
Proof. intros; apply spe_packet_align; assumption. Qed.
Print Assumptions C40_alignment_packet.

(** Finding: padding after the last record is reported as one more, empty record
    (so each such trace yields a spurious sample at address 0). *)
Theorem C40_trailing_padding_is_a_record (base : N) (swap : bool) (bs : list spe_block) (k : nat) :
  Forall block_ok bs ->
  decode_trace {| st_buf := flat_map (encode_block swap) bs ++ repeat 0 (S k);
                  st_base := base; st_swap := swap |}
  = Ok (map block_record bs ++ [spe_rec0]).
Proof. exact (decode_blocks_padded base swap bs k). Qed.
Print Assumptions C40_trailing_padding_is_a_record.

(** Finding: how many records a trace yields depends on the address the buffer
    happens to be stored at (alignment packets). *)
Theorem C40_depends_on_buffer_address_refuted :
  exists buf, decode_trace {| st_buf := buf; st_base := 0; st_swap := false |}
           <> decode_trace {| st_buf := buf; st_base := 1; st_swap := false |}.
Proof. exists [0x21; 0; 1; 1; 1]. vm_compute. intro H. discriminate H. Qed.
Print Assumptions C40_depends_on_buffer_address_refuted.

(** Non-vacuity: a record with an instruction address at EL1, a latency counter
    and an operation, then a time-stamped one, in the other byte order. *)
Definition spe_example : list spe_block :=
  [ {| bk_body := [PkAddr 0 0xa0ff800010001000; PkCounter 1 513; PkOp 1 3; PkAddrExt 2 0x12f3456789abcdef];
       bk_end := PkEnd |};
    {| bk_body := [PkPad; PkContext 1 77; PkEvents 1 0x82]; bk_end := PkTime 123456789 |} ].

Example spe_example_ok : Forall block_ok spe_example.
Proof.
  repeat constructor; cbn; try lia; reflexivity.
Qed.

Example spe_example_decodes :
  match decode_trace {| st_buf := flat_map (encode_block true) spe_example; st_base := 5; st_swap := true |} with
  | Ok [a; b] => ip_addr (sr_ip a) = 0xffff800010001000 /\ sr_issue_lat a = 513 /\
                 va_addr (sr_virt a) = 0xfff3456789abcdef /\ lo_st (op_ldst (sr_op a)) = true /\
                 sc_id (sr_ctx b) = 77 /\ ev_br_mis_pred (sr_event b) = true /\ sr_time b = 123456789
  | _ => False
  end.
Proof. vm_compute. repeat split. Qed.

Example spe_garbage_fails :
  next_record {| st_buf := [0; 0xb0; 1; 2]; st_base := 0; st_swap := false |} 0 = Ok (None, 1).
Proof. vm_compute. reflexivity. Qed.
