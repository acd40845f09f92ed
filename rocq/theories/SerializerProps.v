(** Raw events to messages and back: C44. *)
From Verif Require Import Base BytesModel EventSizeModel EventSizeSpec TextModel SampleModel
  SampleSpec FileModel SerializerModel SerializerSpec SerializerMainProofs SerializerTotalProofs.
From Coq Require Import Permutation.
Local Open Scope N_scope.

(** *** C44: raw events round-trip through the protobuf form *)

(** Whatever event was made into a message, the message is made into an event of
    the same length, with the same header, the same bytes in every field of the
    data part the message has, and the same sample fields. [ord] is the order in
    which a protobuf map gives its entries. *)
Theorem C44_roundtrip : forall l ord s e off x,
  native_serializer l s -> readable_event s e off -> cpu_clear s e off -> bpf_plain ord e ->
  (forall m, Permutation m (ord m)) ->
  serialize s e = Ok x ->
  exists e', deserialize ord s x = Ok e' /\ same_event s off e e'.
Proof. exact event_same. Qed.
Print Assumptions C44_roundtrip.

(** It is the same event, to the last byte, if there is nothing in it the message
    has no field for. *)
Theorem C44_identical : forall l ord s e off x,
  native_serializer l s -> readable_event s e off -> cpu_clear s e off -> bpf_plain ord e ->
  (forall m, Permutation m (ord m)) ->
  serialize s e = Ok x -> fully_represented s e off ->
  deserialize ord s x = Ok e.
Proof. exact event_exact. Qed.
Print Assumptions C44_identical.

(** The length the message says its event has, which is what the writer of a file
    compares with the header, is the length of the event. *)
Theorem C44_size : forall l ord s e off x,
  native_serializer l s -> readable_event s e off -> cpu_clear s e off -> bpf_plain ord e ->
  serialize s e = Ok x -> x_size s x = Ok (ev_size e).
Proof. exact event_length. Qed.
Print Assumptions C44_size.

(** A message is made of every event with sample fields that can be read, a build
    id that fits and whole BPF entries; and it comes back. *)
Theorem C44_total : forall l ord s e off,
  native_serializer l s -> readable_event s e off -> cpu_clear s e off -> bpf_plain ord e ->
  (forall m, Permutation m (ord m)) -> convertible s e ->
  exists x, serialize s e = Ok x /\ x_size s x = Ok (ev_size e) /\
    exists e', deserialize ord s x = Ok e' /\ same_event s off e e'.
Proof. exact event_there_and_back. Qed.
Print Assumptions C44_total.

(** *** Concrete events *)

(** Two kinds of events: one samples little, the other a lot. *)
Definition id_bits : N := 2 ^ B_IDENTIFIER + 2 ^ B_TID + 2 ^ B_TIME + 2 ^ B_CPU.
Definition plain_attr : attr := mkAttr id_bits 0 0 true.
Definition rich_attr : attr :=
  mkAttr (id_bits + 2 ^ B_IP + 2 ^ B_READ + 2 ^ B_CALLCHAIN + 2 ^ B_RAW + 2 ^ B_BRANCH_STACK)
         (2 ^ F_GROUP + 2 ^ F_ID) 0 true.
Definition two_attrs : list (attr * list N) := [(plain_attr, [5; 6]); (rich_attr, [7])].
Definition readers : sstate :=
  mkSS [(5, plain_attr); (6, plain_attr); (7, rich_attr)] false (Some (Some 0)) (Some (Some 1)).
Lemma readers_native : native_serializer two_attrs readers.
Proof. split; [vm_compute; reflexivity|]. repeat constructor; reflexivity. Qed.

Definition w8 (n : N) : list N := le_bytes 8 n.
Definition in_order (m : list (list N * list N)) : list (list N * list N) := m.

(** An MMAP of "ab" with the sample id of event 6. *)
Definition an_mmap : list N :=
  [1;0;0;0; 2;0; 80;0] ++ [1;0;0;0; 2;0;0;0] ++ w8 4096 ++ w8 8192 ++ w8 0 ++ [97;98;0;0;0;0;0;0]
  ++ [1;0;0;0; 2;0;0;0] ++ w8 99 ++ [3;0;0;0; 0;0;0;0] ++ w8 6.
(** A sample of event 7 with a group of two values, a call chain, raw data and a
    branch, whose flags are [f]. *)
Definition a_sample (f : N) : list N :=
  [9;0;0;0; 1;0; 160;0]
  ++ w8 7 ++ w8 1000 ++ [1;0;0;0; 2;0;0;0] ++ w8 99 ++ [3;0;0;0; 0;0;0;0]
  ++ w8 2 ++ w8 11 ++ w8 7 ++ w8 12 ++ w8 8
  ++ w8 2 ++ w8 555 ++ w8 556
  ++ [8;0;0;0; 1;2;3;4;5;6;7;8; 0;0;0;0]
  ++ w8 1 ++ w8 70 ++ w8 71 ++ w8 f.

Example C44_mmap_hypotheses_met : exists x,
  readable_event readers an_mmap 48 /\ cpu_clear readers an_mmap 48 /\ bpf_plain in_order an_mmap /\
  fully_represented readers an_mmap 48 /\ serialize readers an_mmap = Ok x /\
  deserialize in_order readers x = Ok an_mmap.
Proof.
  eexists. split; [|split; [|split; [|split; [|split]]]].
  - split; [split; [reflexivity|split; vm_compute; discriminate]|reflexivity|reflexivity|discriminate].
  - intros id a [H|[H|[H|[]]]]; injection H as <- <-; reflexivity.
  - discriminate.
  - split; try discriminate. intros i H8 H48 Hi.
    assert (C : forallb (fun i => (i <? 8) || inside (fields an_mmap) i || (byte an_mmap i =? 0))
                  (map N.of_nat (List.seq 0 48)) = true) by reflexivity.
    rewrite forallb_forall in C. specialize (C i).
    rewrite Hi, orb_false_r in C. destruct (N.ltb_spec i 8); [lia|]. apply N.eqb_eq, C.
    apply in_map_iff. exists (N.to_nat i). rewrite N2Nat.id. split; [reflexivity|].
    apply in_seq. lia.
  - vm_compute. reflexivity.
  - vm_compute. reflexivity.
Qed.

Example C44_sample_hypotheses_met : exists x,
  readable_event readers (a_sample 19) 8 /\ cpu_clear readers (a_sample 19) 8 /\
  bpf_plain in_order (a_sample 19) /\ fully_represented readers (a_sample 19) 8 /\
  serialize readers (a_sample 19) = Ok x /\ deserialize in_order readers x = Ok (a_sample 19).
Proof.
  eexists. split; [|split; [|split; [|split; [|split]]]].
  - split; [split; [reflexivity|split; vm_compute; discriminate]|reflexivity|reflexivity|discriminate].
  - intros id a [H|[H|[H|[]]]]; injection H as <- <-; reflexivity.
  - discriminate.
  - split; try discriminate; [intros i H8 H; lia|].
    intros _ id a p [H|[H|[H|[]]]]; injection H as <- <-; intros H; vm_compute in H; try discriminate H.
    injection H as <-. split; [repeat constructor|]. split; [discriminate|]. split; [reflexivity|].
    intros _ i H1 H2.
    match type of H1 with ?a <= _ => let v := eval vm_compute in a in change (v <= i) in H1 end.
    match type of H2 with _ < ?a => let v := eval vm_compute in a in change (i < v) in H2 end.
    assert (I : i = 124 \/ i = 125 \/ i = 126 \/ i = 127) by (clear - H1 H2; lia).
    destruct I as [-> |[-> |[-> | ->]]]; reflexivity.
  - vm_compute. reflexivity.
  - vm_compute. reflexivity.
Qed.

Example C44_convertible : convertible readers an_mmap /\ convertible readers (a_sample 19).
Proof.
  split; (split; [|discriminate|discriminate]); intros _.
  - exists plain_attr. eexists. split; [|split; [right; reflexivity|vm_compute; reflexivity]]. cbn. auto.
  - exists rich_attr. eexists. split; [|split; [left; reflexivity|vm_compute; reflexivity]]. cbn. auto.
Qed.

(** *** What a message does not represent *)

(** [e] comes back, but as another event. *)
Definition changed (s : sstate) (e : list N) : Prop :=
  exists x e', serialize s e = Ok x /\ deserialize in_order s x = Ok e' /\ e' <> e.
Ltac changes := eexists; eexists; split; [vm_compute; reflexivity|]; split; [vm_compute; reflexivity|]; discriminate.

(** Branch flags above bit 25, flags of an AUX event above bit 2, and the lost
    count of a sample that is not a group are dropped, all of them fields of the
    kernel's format. *)
Definition an_aux (flags : N) : list N := [11;0;0;0; 0;0; 32;0] ++ w8 1 ++ w8 2 ++ w8 flags.
Definition lost_attr : attr := mkAttr (2 ^ B_READ) (2 ^ F_LOST) 0 false.
Definition lost_reader : sstate := mkSS [(0, lost_attr)] false (Some None) (Some None).
Definition a_lost_count (n : N) : list N := [9;0;0;0; 0;0; 24;0] ++ w8 5 ++ w8 n.
Theorem C44_dropped_refuted :
  (readable_event readers (a_sample (2 ^ 26 + 19)) 8 /\ changed readers (a_sample (2 ^ 26 + 19))) /\
  (readable_event lost_reader (an_aux 9) 32 /\ changed lost_reader (an_aux 9)) /\
  (native_serializer [(lost_attr, [])] lost_reader /\
   readable_event lost_reader (a_lost_count 3) 8 /\ changed lost_reader (a_lost_count 3)).
Proof.
  split; [|split; [|split]].
  - split; [split; [split; [reflexivity|split; vm_compute; discriminate]|reflexivity|reflexivity|discriminate]|].
    changes.
  - split; [split; [split; [reflexivity|split; vm_compute; discriminate]|reflexivity|reflexivity|reflexivity]|].
    changes.
  - split; [vm_compute; reflexivity|]. repeat constructor; reflexivity.
  - split; [split; [split; [reflexivity|split; vm_compute; discriminate]|reflexivity|reflexivity|discriminate]|].
    changes.
Qed.
Print Assumptions C44_dropped_refuted.

(** Metadata of a BPF program: of two entries with one key the second is lost; two
    entries may come back the other way round. *)
Definition array_of (n : N) (t : list N) : list N := t ++ repeat 0 (N.to_nat (n - len t)).
Definition a_bpf (k1 k2 : N) : list N :=
  [84;0;0;0; 0;0; 144;4] ++ array_of 512 [112] ++ w8 2
  ++ array_of 64 [k1] ++ array_of 256 [49] ++ array_of 64 [k2] ++ array_of 256 [50].
Definition no_reader : sstate := new_serializer false.
Theorem C44_bpf_refuted :
  (readable_event no_reader (a_bpf 97 97) 1168 /\ changed no_reader (a_bpf 97 97)) /\
  (readable_event no_reader (a_bpf 97 98) 1168 /\
   exists x e', serialize no_reader (a_bpf 97 98) = Ok x /\
     deserialize (@rev _) no_reader x = Ok e' /\ e' <> a_bpf 97 98).
Proof.
  split.
  - split; [split; [split; [reflexivity|split; vm_compute; discriminate]|reflexivity|reflexivity|reflexivity]|].
    changes.
  - split; [split; [split; [reflexivity|split; vm_compute; discriminate]|reflexivity|reflexivity|reflexivity]|].
    changes.
Qed.
Print Assumptions C44_bpf_refuted.

(** The number of entries of that metadata is multiplied by 320 modulo 2^64: an
    event that says 2^58 passes as one without entries, and is then read
    outside its memory. *)
Definition wrapped_bpf : list N := [84;0;0;0; 0;0; 16;2] ++ array_of 512 [112] ++ w8 (2 ^ 58).
Theorem C44_bpf_count_refuted :
  readable_event no_reader wrapped_bpf 528 /\ serialize no_reader wrapped_bpf = UB.
Proof.
  split; [|vm_compute; reflexivity].
  split; [split; [reflexivity|split; vm_compute; discriminate]|reflexivity|reflexivity|reflexivity].
Qed.
Print Assumptions C44_bpf_count_refuted.

(** The id of an event in the other byte order is looked up as it stands: with
    the attribute of that id the event can be read, but the serializer finds
    none. *)
Definition swapped_attrs : list (attr * list N) := [(plain_attr, [5])].
Definition swapped_reader : sstate :=
  mkSS [(5, plain_attr)] true (Some (Some 0)) (Some (Some 1)).
Definition swapped_sample : list N :=
  [9;0;0;0; 0;0; 40;0] ++ [0;0;0;0; 0;0;0;5] ++ [0;0;0;1; 0;0;0;2] ++ [0;0;0;0; 0;0;0;99]
  ++ [0;0;0;3; 0;0;0;0].
Theorem C44_other_order_refuted :
  create_readers swapped_attrs (new_serializer true) = Ok swapped_reader /\
  readable_event swapped_reader swapped_sample 8 /\
  (exists p, read_sample_info plain_attr true swapped_sample fresh_sample = Ok p /\
     s_id p = 5 /\ s_time p = 99 /\ attr_of swapped_reader p plain_attr) /\
  serialize swapped_reader swapped_sample = Fail.
Proof.
  split; [vm_compute; reflexivity|]. split.
  - split; [split; [reflexivity|split; vm_compute; discriminate]|reflexivity|reflexivity|discriminate].
  - split; [|vm_compute; reflexivity]. eexists. split; [vm_compute; reflexivity|].
    split; [reflexivity|]. split; [reflexivity|]. left. reflexivity.
Qed.
Print Assumptions C44_other_order_refuted.

(** A message with an unknown event id, or a pid without a tid, ends the
    process. *)
Definition stray_fork (i : x_info) : x_event := XEvent R_FORK 0 64 (XBFork (XFork 1 2 3 4 5 i)) 0.
Theorem C44_message_abort_refuted :
  deserialize in_order readers (stray_fork (XInfo (Some 1) (Some 2) (Some 9) (Some 99) (Some 0) None)) = Abort /\
  deserialize in_order readers (stray_fork (XInfo (Some 1) None (Some 9) (Some 5) (Some 0) None)) = Abort /\
  exists e, deserialize in_order readers (stray_fork (XInfo (Some 1) (Some 2) (Some 9) (Some 5) (Some 0) None)) = Ok e.
Proof. split; [|split; [|eexists]]; vm_compute; reflexivity. Qed.
Print Assumptions C44_message_abort_refuted.
