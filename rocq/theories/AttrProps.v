(** C58: the attributes of events survive the way into a message and back. *)
From Verif Require Import Base BytesModel SampleModel AttrModel AttrSpec AttrProofs.
From Coq Require Import Lia.
Local Open Scope N_scope.

(** The message says what the struct says, and no other message does. *)
Theorem C58_message : forall a m, m = ser_attr a <-> describes a m.
Proof.
  intros a m. split; [intros ->; apply ser_describes|]. intros D. exact (describes_unique a m _ D (ser_describes a)).
Qed.
Print Assumptions C58_message.

(** From a struct to the message and back: all but three bits, the unused bits and
    the padding. *)
Theorem C58_back : forall a, is_attr a -> kept_attr a (des_attr (ser_attr a)).
Proof. exact back_kept. Qed.
Print Assumptions C58_back.

Theorem C58_exact : forall a, is_attr a -> covered a -> des_attr (ser_attr a) = a.
Proof.
  intros a A C. apply (kept_covered a); [exact A|apply des_attr_is|now apply back_kept|exact C].
Qed.
Print Assumptions C58_exact.

(** From a message to the struct and back. *)
Theorem C58_message_back : forall m, message_ok m -> is_attr (des_attr m) /\ ser_attr (des_attr m) = m.
Proof. intros m H. split; [apply des_attr_is|now apply message_back]. Qed.
Print Assumptions C58_message_back.

(** A second time around, nothing changes any more. *)
Theorem C58_stable : forall a, is_attr a ->
  message_ok (ser_attr a) /\ ser_attr (des_attr (ser_attr a)) = ser_attr a.
Proof. intros a A. assert (M := ser_message_ok a A). split; [exact M|now apply message_back]. Qed.
Print Assumptions C58_stable.

(** Whoever reads samples by the attribute reads the same samples after it. *)
Theorem C58_samples : forall a, is_attr a -> raw_attr (des_attr (ser_attr a)) = raw_attr a.
Proof. intros a A. apply kept_raw, back_kept, A. Qed.
Print Assumptions C58_samples.

(** *** A concrete attribute: cycles, 4000 Hz, with watermark, precise_ip 2, mmap2
    and cgroup. *)
Definition cycles : list N :=
  le_bytes 4 0 ++ le_bytes 4 96 ++ le_bytes 8 0 ++ le_bytes 8 4000 ++ le_bytes 8 0x1ef ++ le_bytes 8 4 ++
  le_bytes 8 (2 ^ 10 + 2 ^ 14 + 2 ^ 16 + 2 ^ 18 + 2 ^ 23 + 2 ^ 32) ++ le_bytes 4 65536 ++ le_bytes 4 0 ++
  le_bytes 8 0 ++ le_bytes 8 0 ++ le_bytes 8 2048 ++ le_bytes 8 0xff ++ le_bytes 4 8192 ++ le_bytes 4 0.
Example C58_hypotheses_met :
  is_attr cycles /\ covered cycles /\ des_attr (ser_attr cycles) = cycles /\
  ser_attr cycles =
    XAttr 0 96 0 4000 0 0x1ef 4 (2 ^ 10 + 2 ^ 14 + 2 ^ 18 + 2 ^ 23 + 2 ^ 32) 2 0 65536 0 0 0 2048 0xff 8192.
Proof.
  split; [split; vm_compute; reflexivity|]. split; [|split; vm_compute; reflexivity].
  split; [|vm_compute; reflexivity]. intros i H. unfold bit_field in H.
  change (member cycles 40 8) with (2 ^ 10 + 2 ^ 14 + 2 ^ 16 + 2 ^ 18 + 2 ^ 23 + 2 ^ 32) in H.
  unfold kept_bit. destruct (N.lt_ge_cases i 30) as [L|L]; [now left|]. right.
  destruct (N.eq_dec i 32) as [E|E]; [exact E|exfalso].
  destruct (N.lt_ge_cases i 33) as [U|U].
  - assert (C : i = 30 \/ i = 31) by (clear H; lia). destruct C as [-> | ->]; vm_compute in H; discriminate H.
  - assert (F : 2 ^ 10 + 2 ^ 14 + 2 ^ 16 + 2 ^ 18 + 2 ^ 23 + 2 ^ 32 < 2 ^ 33) by reflexivity.
    rewrite <- (N.mod_small _ _ F), N.mod_pow2_bits_high in H by exact U. discriminate H.
Qed.

(** The frequency of a message is lost: it is written nowhere, and none is ever
    set, because freq is asked for before it is set. Two messages that ask for
    1000 and for 4000 samples a second give the same struct, that asks for 0. *)
Definition at_frequency (f : N) : x_attr := XAttr 0 96 0 0 f 0x1ef 0 (2 ^ 10) 0 0 0 0 0 0 0 0 0.
Theorem C58_frequency_refuted :
  des_attr (at_frequency 1000) = des_attr (at_frequency 4000) /\
  bit_field (des_attr (at_frequency 4000)) 10 = true /\ member (des_attr (at_frequency 4000)) 16 8 = 0 /\
  bit_field cycles 10 = true /\ member cycles 16 8 = 4000 /\
  ea_sample_freq (ser_attr cycles) = 0 /\ ea_sample_period (ser_attr cycles) = 4000.
Proof. repeat split; vm_compute; reflexivity. Qed.
Print Assumptions C58_frequency_refuted.

(** The bits bpf_event, aux_output and task_poke are lost. *)
Theorem C58_bits_refuted : forall i, In i [30; 31; 33] ->
  exists a, is_attr a /\ bit_field a i = true /\ bit_field (des_attr (ser_attr a)) i = false.
Proof.
  intros i I. exists (repeat 0 40 ++ le_bytes 8 (2 ^ i) ++ repeat 0 48).
  cbn [In] in I. destruct I as [<- |[<- |[<- |[]]]]; (split; [split; vm_compute; reflexivity|]); split; vm_compute; reflexivity.
Qed.
Print Assumptions C58_bits_refuted.
