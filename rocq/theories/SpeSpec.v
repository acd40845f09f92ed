(** The Arm SPE packet format (Arm ARM, chapter D18 "Statistical Profiling
    Extension sample record format"), as an encoder, and what each packet means
    for the record. *)
From Verif Require Import Base BytesModel SpeModel.
Local Open Scope N_scope.

Inductive spe_pkt :=
| PkPad
| PkEnd
| PkTime (v : N)
| PkEvents (log2size : N) (v : N)
| PkSource (log2size : N) (v : N)
| PkContext (which : N) (v : N)
| PkOp (class : N) (v : N)
| PkAddr (index : N) (v : N)
| PkAddrExt (index : N) (v : N)
| PkCounter (index : N) (v : N)
| PkCounterExt (index : N) (v : N).

(** Payload of 2^log2size bytes, in the byte order of the producer. *)
Definition put (swap : bool) (n : nat) (v : N) : list N :=
  if swap then rev (le_bytes n v) else le_bytes n v.

Definition size_of (log2size : N) : nat := N.to_nat (2 ^ log2size).

Definition encode_pkt (swap : bool) (p : spe_pkt) : list N :=
  match p with
  | PkPad => [0]
  | PkEnd => [1]
  | PkTime v => 0x71 :: put swap 8 v
  | PkEvents s v => (0x42 + 16 * s) :: put swap (size_of s) v
  | PkSource s v => (0x43 + 16 * s) :: put swap (size_of s) v
  | PkContext w v => (0x64 + w) :: put swap 4 v
  | PkOp c v => (0x48 + c) :: put swap 1 v
  | PkAddr x v => (0xb0 + x) :: put swap 8 v
  | PkAddrExt x v => (0x20 + x / 8) :: (0xb0 + x mod 8) :: put swap 8 v
  | PkCounter x v => (0x98 + x) :: put swap 2 v
  | PkCounterExt x v => (0x20 + x / 8) :: (0x98 + x mod 8) :: put swap 2 v
  end.

(** Field ranges. *)
Definition pkt_ok (p : spe_pkt) : Prop :=
  match p with
  | PkPad | PkEnd => True
  | PkTime v => v < 256 ^ 8
  | PkEvents s v | PkSource s v => s < 4 /\ v < 256 ^ 2 ^ s
  | PkContext w v => w < 4 /\ v < 256 ^ 4
  | PkOp c v => c < 3 /\ v < 256
  | PkAddr x v => x < 8 /\ v < 256 ^ 8
  | PkAddrExt x v => x < 32 /\ v < 256 ^ 8
  | PkCounter x v => x < 8 /\ v < 256 ^ 2
  | PkCounterExt x v => x < 32 /\ v < 256 ^ 2
  end.

Definition ends (p : spe_pkt) : bool :=
  match p with PkEnd | PkTime _ => true | _ => false end.

(** An address with its top byte replaced. *)
Definition with_top (top v : N) : N := top * 2 ^ 56 + v mod 2 ^ 56.

(** Instruction addresses: bit 63 is NS, bits 62:61 the exception level; kernel
    levels get the top byte 0xff, others 0. *)
Definition ip_of (v : N) : spe_ip :=
  let el := v / 2 ^ 61 mod 4 in
  let ns := v / 2 ^ 63 in
  {| ip_addr := if (ns =? 1) && ((el =? 1) || (el =? 2)) then with_top 0xff v else with_top 0 v;
     ip_el := el; ip_ns := ns |}.

(** Data addresses: the top byte is a tag; it is replaced by 0xff when the top
    nibble of the remaining 56 bits is all ones, else by 0. *)
Definition va_of (v : N) : spe_va :=
  {| va_addr := if v / 2 ^ 52 mod 16 =? 15 then with_top 0xff v else with_top 0 v;
     va_tag := v / 2 ^ 56 |}.

Definition pa_of (v : N) : spe_pa :=
  {| pa_addr := v mod 2 ^ 56; pa_ns := v / 2 ^ 63; pa_ch := v / 2 ^ 62 mod 2;
     pa_pat := v / 2 ^ 56 mod 16 |}.

Definition events_of (v : N) : spe_event :=
  let b n := N.testbit v n in
  Build_spe_event (b 0) (b 1) (b 2) (b 3) (b 4) (b 5) (b 6) (b 7) (b 8) (b 9) (b 10) (b 11)
    (b 17) (b 18).

(** Operation packets, by class; the atomic attributes are only updated by an
    atomic operation. [v / 2] drops bit 0. *)
Definition op_of (c v : N) (o : spe_op) : spe_op :=
  let b n := N.testbit v n in
  if c =? 0 then
    Build_spe_op true (Build_spe_other (b 0) (negb (b 7) && b 3 && negb (b 0)) (b 2))
      (op_is_ldst o) (op_ldst o) (op_is_br o) (op_br o)
  else if c =? 1 then
    let l := op_ldst o in
    let atomic := (v / 32 =? 0) && b 1 in
    Build_spe_op (op_is_other o) (op_other o) true
      (Build_spe_ldst (negb (b 0)) (b 0) (v / 2 =? 0) atomic
         (if atomic then b 2 else lo_atomic_at l)
         (if atomic then b 3 else lo_atomic_excl l)
         (if atomic then b 4 else lo_atomic_ar l)
         (v / 2 =? 2) (b 3 && negb (b 1)) (v / 2 =? 8) (v / 2 =? 24) (v / 2 =? 9) (v / 2 =? 16)
         (v =? 37))
      (op_is_br o) (op_br o)
  else
    Build_spe_op (op_is_other o) (op_other o) (op_is_ldst o) (op_ldst o) true
      (Build_spe_br (b 0) (v / 2 =? 1)).

Definition addr_meaning (x v : N) (r : spe_rec) : spe_rec :=
  if x =? 0 then sr_set_ip (ip_of v) r
  else if x =? 1 then sr_set_tgt (ip_of v) r
  else if x =? 2 then sr_set_virt (va_of v) r
  else if x =? 3 then sr_set_phys (pa_of v) r
  else if x =? 4 then sr_set_prev (ip_of v) r
  else r.

Definition counter_meaning (x v : N) (r : spe_rec) : spe_rec :=
  if x =? 0 then sr_set_total v r
  else if x =? 1 then sr_set_issue v r
  else if x =? 2 then sr_set_trans v r
  else r.

Definition meaning (p : spe_pkt) (r : spe_rec) : spe_rec :=
  match p with
  | PkPad | PkEnd => r
  | PkTime v => sr_set_time v r
  | PkEvents _ v => sr_set_event (events_of v) r
  | PkSource _ v => sr_set_source (Some v) r
  | PkContext w v => sr_set_ctx (Build_spe_ctx v (w =? 0) (w =? 1)) r
  | PkOp c v => sr_set_op (op_of c v (sr_op r)) r
  | PkAddr x v | PkAddrExt x v => addr_meaning x v r
  | PkCounter x v | PkCounterExt x v => counter_meaning x v r
  end.

(** A record of the trace: some packets that are not end packets and one that
    is. *)
Record spe_block := { bk_body : list spe_pkt; bk_end : spe_pkt }.

Definition block_ok (b : spe_block) : Prop :=
  Forall (fun p => pkt_ok p /\ ends p = false) (bk_body b) /\
  pkt_ok (bk_end b) /\ ends (bk_end b) = true.

Definition encode_block (swap : bool) (b : spe_block) : list N :=
  flat_map (encode_pkt swap) (bk_body b) ++ encode_pkt swap (bk_end b).

Definition block_record (b : spe_block) : spe_rec :=
  meaning (bk_end b) (fold_left (fun r p => meaning p r) (bk_body b) spe_rec0).
