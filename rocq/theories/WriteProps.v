(** Writing perf data files: C43. *)
From Verif Require Import Base BytesModel EventSizeModel TextModel ReaderOpsModel SampleModel
  SampleSpec FileModel SerializerModel AttrModel WriteModel WriteSpec WriteMainProofs SerializerProps.
Local Open Scope N_scope.

(** *** C43: a written file has the announced size, and its parts where its header says *)

(** A vector (or string, or file) that was written has the announced number of
    bytes. It starts with the parts of the file one behind the other; the rest is
    zero. [room] is how much memory there is. *)
Theorem C43_written : forall ord room s p f,
  representable p -> room < two63 -> write_to_vector ord room s p = Ok f ->
  len f = get_size p /\
  exists n, f = file_image ord s p ++ repeat 0 n.
Proof.
  intros ord room s p f R H E. destruct (vector_sound ord room s p f R H E) as (L & F & _).
  split; [exact L|]. eexists. exact F.
Qed.
Print Assumptions C43_written.

(** Who follows the offsets in that file finds every part: magic number, sizes,
    attributes and their ids, events, features. *)
Theorem C43_layout : forall ord room s p f,
  representable p -> room < two63 -> write_to_vector ord room s p = Ok f ->
  len f = get_size p /\ laid_out ord s p f.
Proof. exact vector_layout. Qed.
Print Assumptions C43_layout.

(** The announced size is that of the file and of the metadata that is there
    although the mask does not ask for it, for which zeros are written. *)
Theorem C43_size : forall ord room s p f,
  representable p -> consistent p -> room < two63 -> len (file_image ord s p) + left_out p < two64 ->
  write_to_vector ord room s p = Ok f ->
  f = file_image ord s p ++ repeat 0 (N.to_nat (left_out p)).
Proof. exact vector_size. Qed.
Print Assumptions C43_size.

(** So if the mask asks for all there is, nothing but the file is written. *)
Theorem C43_exact : forall ord room s p f,
  representable p -> consistent p -> room < two63 -> left_out p = 0 -> len (file_image ord s p) < two64 ->
  write_to_vector ord room s p = Ok f ->
  f = file_image ord s p /\ len f = get_size p.
Proof. exact vector_exact. Qed.
Print Assumptions C43_exact.

(** Everything that has a form in the file is written. *)
Theorem C43_total : forall ord room s p,
  writable ord s p -> get_size p <= room -> exists f, write_to_vector ord room s p = Ok f.
Proof. exact vector_total. Qed.
Print Assumptions C43_total.

(** Into a buffer of the caller: the file is written to its start, the rest is
    left as it was; a buffer that is shorter than announced is refused. *)
Theorem C43_buffer : forall ord s p buf f,
  representable p -> len buf < two63 -> write_to_pointer ord s p buf = Ok f ->
  get_size p <= len buf /\ laid_out ord s p f /\
  len (file_image ord s p) <= len buf /\
  f = file_image ord s p ++ skipn (N.to_nat (len (file_image ord s p))) buf.
Proof.
  intros ord s p buf f R H E. split; [|split; [exact (proj2 (pointer_layout ord s p buf f R H E))|]].
  - destruct (N.lt_ge_cases (len buf) (get_size p)) as [L|L]; [|exact L].
    rewrite (pointer_short ord s p buf L) in E. discriminate E.
  - destruct (pointer_sound ord s p buf f R H E) as (L & F & _). split; [exact L|exact F].
Qed.
Print Assumptions C43_buffer.

(** With consistent data no byte behind the announced size is touched. *)
Theorem C43_buffer_size : forall ord s p buf f,
  representable p -> consistent p -> len buf < two63 -> len (file_image ord s p) + left_out p < two64 ->
  write_to_pointer ord s p buf = Ok f ->
  len f = len buf /\ skipn (N.to_nat (get_size p)) f = skipn (N.to_nat (get_size p)) buf.
Proof.
  intros ord s p buf f R C H B E. split; [exact (proj1 (pointer_layout ord s p buf f R H E))|].
  destruct (pointer_size ord s p buf f R C H B E) as (S & L & F). rewrite F, S.
  apply beyond; lia.
Qed.
Print Assumptions C43_buffer_size.

Theorem C43_buffer_total : forall ord s p buf,
  writable ord s p -> len buf < two63 ->
  (len buf < get_size p -> write_to_pointer ord s p buf = Fail) /\
  (get_size p <= len buf -> exists f, write_to_pointer ord s p buf = Ok f).
Proof.
  intros ord s p buf W H. split; [apply pointer_short|]. intros L. exact (pointer_total ord s p buf W L H).
Qed.
Print Assumptions C43_buffer_total.

(** *** A concrete file *)

Definition no_meta : fmeta := mkFMeta [] [] [] [] [] [] [] [] [] [] [] [] [].
Definition message (e : list N) : x_event :=
  match serialize readers e with Ok x => x | _ => XEvent 0 0 0 XNothing 0 end.
Definition attr_of_bits (types formats : N) : x_attr :=
  XAttr 0 96 3 4000 0 types formats (2 ^ 18) 0 0 0 0 0 0 0 0 0.
Definition the_attrs : list x_fattr :=
  [XFAttr (attr_of_bits id_bits 0) [5; 6];
   XFAttr (attr_of_bits (id_bits + 2 ^ B_IP + 2 ^ B_READ + 2 ^ B_CALLCHAIN + 2 ^ B_RAW + 2 ^ B_BRANCH_STACK)
                        (2 ^ F_GROUP + 2 ^ F_ID)) [7]].
Definition some_meta : fmeta :=
  mkFMeta [(3, [104; 111]); (4, [52]); (5, [54]); (6, [120]); (8, [99]); (9, [105; 100])]
    [[112; 101; 114; 102]; [114]] [] [(7, [4; 8])] [(10, [1024])]
    [[48]] [[48; 45; 49]] [(0, 1)] [(0, 100, 50, [48])] [(4, [99; 112; 117])] [([103], 1, 2)] [] [1; 2; 3].
Definition some_builds : list rbuild :=
  [mkRBuild 2 7 [97; 46; 115; 111] None (Some 3) [1; 2; 3] false].
Definition full_file : wdata :=
  mkWData (2 ^ 18 - 2 + 2 ^ 30) the_attrs [(3, [99; 121]); (3, [99; 122])]
    [message an_mmap; message (a_sample 19)] some_builds some_meta
    [XHybrid [99; 111; 114; 101] None [0; 1; 2; 5]].

Ltac each := repeat first [apply Forall_nil | apply Forall_cons]; try (vm_compute; reflexivity).
Example C43_hypotheses_met :
  from_messages full_file = Ok (readers, full_file) /\ writable in_order readers full_file /\
  left_out full_file = 0.
Proof.
  split; [vm_compute; reflexivity|]. split; [|vm_compute; reflexivity].
  split; [|split; [|split; [|split; [|split; [|split; [|split]]]]]].
  - split; each.
    + split; [vm_compute; reflexivity|split; vm_compute; reflexivity].
    + split; [vm_compute; discriminate|split; [|vm_compute; reflexivity]].
      vm_compute. intros H. repeat (destruct H as [H|H]; [discriminate H|]). exact H.
    + split; [vm_compute; reflexivity|]. vm_compute. discriminate.
    + split; [vm_compute; reflexivity|]. intros _. split; vm_compute; reflexivity.
  - split; [|split; [|split]].
    + intros ty H _. cbn [In] in H. repeat (destruct H as [<-|H]; [reflexivity|]). contradiction.
    + right. eexists. reflexivity.
    + right. eexists. reflexivity.
    + each. discriminate.
  - each; (split; [vm_compute; discriminate|split; [vm_compute; reflexivity|split; [eexists; vm_compute; reflexivity|]]]);
      vm_compute; discriminate.
  - right. discriminate.
  - discriminate.
  - discriminate.
  - intros _. split; [vm_compute; discriminate|]. each.
  - vm_compute. reflexivity.
Qed.

Example C43_full_file : exists f,
  write_to_vector in_order 4096 readers full_file = Ok f /\ len f = 1447 /\
  word_at f 40 + word_at f 48 = 592 /\ word_at f (592 + 16 * 11) = 1043 /\ word_at f (592 + 16 * 11 + 8) = 256.
Proof. eexists. split; [vm_compute; reflexivity|]. repeat split; vm_compute; reflexivity. Qed.

(** *** What does not hold *)

(** The sections of CPU topology, NUMA topology, PMU mappings, groups and hybrid
    topology are counted whether they are asked for or not: the smallest file of all
    has 24 bytes that no section of it describes. *)
Definition empty_file : wdata := mkWData 0 [] [] [] [] no_meta [].
Theorem C43_padding_refuted :
  writable in_order (new_serializer false) empty_file /\
  exists f, write_to_vector in_order 4096 (new_serializer false) empty_file = Ok f /\
    len (file_image in_order (new_serializer false) empty_file) = 104 /\ len f = 128.
Proof.
  split.
  - split; [split; constructor|]. split.
    { split; [|split; [|split; [|constructor]]]; [|now left|now left]. intros ty _ H. destruct ty; discriminate H. }
    split; [constructor|]. split; [now left|]. split; [discriminate|]. split; [discriminate|]. split; [discriminate|].
    vm_compute. reflexivity.
  - eexists. split; [vm_compute; reflexivity|]. split; vm_compute; reflexivity.
Qed.
Print Assumptions C43_padding_refuted.

(** Strings that the mask asks for and that are not set are written but not counted:
    more bytes than announced are written to a buffer that has them, and to a vector
    nothing can be written. *)
Definition no_strings : wdata := mkWData (2 ^ 3 + 2 ^ 4 + 2 ^ 5) [] [] [] [] no_meta [].
Theorem C43_unset_strings_refuted :
  representable no_strings /\
  write_to_vector in_order 4096 (new_serializer false) no_strings = Fail /\
  get_size no_strings = 176 /\
  exists f, write_to_pointer in_order (new_serializer false) no_strings (repeat 255 200) = Ok f /\
    slice f 176 12 = [8; 0; 0; 0; 0; 0; 0; 0; 0; 0; 0; 0] /\ slice f 188 12 = repeat 255 12.
Proof.
  split; [split; constructor|]. split; [vm_compute; reflexivity|]. split; [vm_compute; reflexivity|].
  eexists. split; [vm_compute; reflexivity|]. split; vm_compute; reflexivity.
Qed.
Print Assumptions C43_unset_strings_refuted.

(** The same with a hybrid PMU whose text of CPUs is set and empty. *)
Definition hybrid_file (t : option (list N)) : wdata :=
  mkWData (2 ^ 30 + 2 ^ 13 + 2 ^ 14 + 2 ^ 16 + 2 ^ 17) [] [] [] [] no_meta [XHybrid [99] t [0; 2; 4; 6; 8]].
Theorem C43_hybrid_refuted :
  representable (hybrid_file (Some [])) /\
  write_to_vector in_order 4096 (new_serializer false) (hybrid_file (Some [])) = Fail /\
  exists f, write_to_vector in_order 4096 (new_serializer false) (hybrid_file None) = Ok f.
Proof.
  split; [|split; [vm_compute; reflexivity|eexists; vm_compute; reflexivity]].
  split; try constructor; [|constructor]. repeat split; vm_compute; reflexivity.
Qed.
Print Assumptions C43_hybrid_refuted.

(** The size of the trace behind an AUXTRACE event is believed: if the trace has
    another, the process ends; if the size is 0, the trace is not written. *)
Definition trace_file (size : N) : wdata :=
  mkWData 0 the_attrs [] [XEvent R_AUXTRACE 0 48 (XBAuxtrace (XAuxtrace size 0 0 0 0 0 [1; 2; 3; 4; 5; 6; 7; 8])) 0] [] no_meta [].
Theorem C43_trace_refuted :
  representable (trace_file 16) /\
  write_to_vector in_order 4096 readers (trace_file 16) = Abort /\
  (exists f, write_to_vector in_order 4096 readers (trace_file 8) = Ok f /\ word_at f 48 = 56) /\
  (exists f, write_to_vector in_order 4096 readers (trace_file 0) = Ok f /\ word_at f 48 = 48).
Proof.
  split; [|split; [vm_compute; reflexivity|split; (eexists; split; [vm_compute; reflexivity|]; vm_compute; reflexivity)]].
  split; each. split; [vm_compute; reflexivity|vm_compute; discriminate].
Qed.
Print Assumptions C43_trace_refuted.
