(** C35: the size of the data part of a raw event
    (src/quipper/perf_data_utils.cc, GetEventDataSize). *)
From Verif Require Import Base BytesModel EventSizeModel EventSizeSpec EventSizeProofs.
Local Open Scope N_scope.

(** C35. On every event, whatever its bytes, computing the size of the data part
    stays inside the event; a size it reports is a multiple of 8, covers at least
    the fixed part of that type of event, and does not exceed the event. *)
Theorem C35_inside (e : list N) :
  raw_event e ->
  event_data_size e = Fail \/
  exists n fixed, event_data_size e = Ok n /\ In (ev_type e, fixed) known_events /\
    8 <= fixed <= n /\ n <= ev_size e /\ n mod 8 = 0.
Proof. exact (data_size_total e). Qed.
Print Assumptions C35_inside.

(** C35. An event that names a file, command, cgroup or symbol has a size exactly
    if the name ends, padded, inside the event, and then it covers the name and
    its padding. *)
Theorem C35_text_events (e : list N) (ty fixed limit n : N) :
  raw_event e -> In (ty, fixed, limit) text_events -> ev_type e = ty ->
  (event_data_size e = Ok n <->
   fixed <= ev_size e /\
   exists v, n = fixed + v /\ text_at e fixed (N.min (ev_size e - fixed) limit) v).
Proof. exact (text_event_size e ty fixed limit n). Qed.
Print Assumptions C35_text_events.

(** C35. Events without a variable part. *)
Theorem C35_plain_events (e : list N) (ty fixed : N) :
  In (ty, fixed) plain_events -> ev_type e = ty ->
  event_data_size e = if ev_size e <? fixed then Fail else Ok fixed.
Proof. exact (plain_event_size e ty fixed). Qed.
Print Assumptions C35_plain_events.

Theorem C35_closed_events (e : list N) (ty fixed : N) :
  In (ty, fixed) closed_events -> ev_type e = ty ->
  event_data_size e = if ev_size e =? fixed then Ok fixed else Fail.
Proof. exact (closed_event_size e ty fixed). Qed.
Print Assumptions C35_closed_events.

(** C35. Events that end with a counted array are accepted exactly if the array
    fills the event (and, in a thread map, every name is terminated). *)
Theorem C35_array_events (e : list N) (ty count_at fixed entry n : N) :
  raw_event e -> In (ty, count_at, fixed, entry) array_events -> ev_type e = ty ->
  (event_data_size e = Ok n <->
   n = ev_size e /\ ev_size e = fixed + number_at e count_at * entry /\
   (ty = R_THREAD_MAP -> names_terminated e)).
Proof. exact (array_event_size e ty count_at fixed entry n). Qed.
Print Assumptions C35_array_events.

(** C35. The array of a namespaces event may be followed by a sample id. *)
Theorem C35_namespaces (e : list N) (n : N) :
  raw_event e -> ev_type e = R_NAMESPACES ->
  (event_data_size e = Ok n <->
   24 <= ev_size e /\ n = 24 + 16 * number_at e 16 /\ n <= ev_size e).
Proof. exact (namespaces_size e n). Qed.
Print Assumptions C35_namespaces.

(** C35. AUX trace information, AUX trace errors and time conversion events take
    the whole event. *)
Theorem C35_auxtrace_info (e : list N) :
  raw_event e -> ev_type e = R_AUXTRACE_INFO ->
  event_data_size e =
    if (16 <=? ev_size e) && (ev_size e mod 8 =? 0) then Ok (ev_size e) else Fail.
Proof. exact (auxtrace_info_size e). Qed.
Print Assumptions C35_auxtrace_info.

Theorem C35_auxtrace_error (e : list N) (n : N) :
  raw_event e -> ev_type e = R_AUXTRACE_ERROR ->
  (event_data_size e = Ok n <->
   n = ev_size e /\ 40 <= ev_size e <= 104 /\ text_at e 40 64 (ev_size e - 40)).
Proof. exact (auxtrace_error_size e n). Qed.
Print Assumptions C35_auxtrace_error.

Theorem C35_time_conv (e : list N) :
  raw_event e -> ev_type e = R_TIME_CONV ->
  event_data_size e = if (ev_size e =? 32) || (ev_size e =? 56) then Ok (ev_size e) else Fail.
Proof. exact (time_conv_size e). Qed.
Print Assumptions C35_time_conv.

(** C35. BPF metadata: the size is the fixed part and the entries, as long as the
    product of the number of entries and their size fits 64 bits. *)
Theorem C35_bpf_metadata (e : list N) (n : N) :
  raw_event e -> ev_type e = R_BPF_METADATA -> number_at e 520 * 320 < two64 ->
  (event_data_size e = Ok n <->
   528 <= ev_size e /\ n = 528 + 320 * number_at e 520 /\ n <= ev_size e).
Proof.
  intros He Ht Hw. rewrite (bpf_size e He Ht). unfold w64.
  rewrite N.mod_small by exact Hw.
  destruct (N.leb_spec 528 (ev_size e)); cbn [andb]; [|split; [discriminate|lia]].
  destruct (N.leb_spec (number_at e 520 * 320) (ev_size e - 528)).
  - split; [intros E; apply Ok_inj in E; lia|]. intros (_ & -> & _). f_equal. lia.
  - split; [discriminate|lia].
Qed.
Print Assumptions C35_bpf_metadata.

(** Finding: without that condition the product wraps around. An event of 528
    bytes that claims 2^58 entries is accepted as one without entries; the
    readers of the entries then go by the count. *)
Theorem C35_bpf_metadata_wrap_refuted :
  exists e, raw_event e /\ ev_type e = R_BPF_METADATA /\
    number_at e 520 = 2 ^ 58 /\ ev_size e = 528 /\ event_data_size e = Ok 528.
Proof.
  exists (le_bytes 4 84 ++ le_bytes 2 0 ++ le_bytes 2 528 ++ repeat 0 512 ++ le_bytes 8 (2 ^ 58)).
  unfold raw_event.
  repeat match goal with |- _ /\ _ => split end; vm_compute; congruence.
Qed.
Print Assumptions C35_bpf_metadata_wrap_refuted.

(** C35. No other type of event has a data size. *)
Theorem C35_unknown_types (e : list N) :
  (forall fixed, ~ In (ev_type e, fixed) known_events) -> event_data_size e = Fail.
Proof. exact (unknown_type e). Qed.
Print Assumptions C35_unknown_types.

(** A COMM event whose name is "perf", followed by a sample id of 8 bytes; the
    same without terminator; a thread map of one entry. *)
Example C35_example_comm :
  let e := le_bytes 4 3 ++ le_bytes 2 0 ++ le_bytes 2 32 ++ le_bytes 4 7 ++ le_bytes 4 7 ++
           [112; 101; 114; 102; 0; 0; 0; 0] ++ le_bytes 8 99 in
  raw_event e /\ In (ev_type e, 16, 4096) text_events /\ event_data_size e = Ok 24.
Proof.
  cbv zeta. unfold raw_event.
  split; [repeat match goal with |- _ /\ _ => split end; vm_compute; congruence|].
  split; [cbn; auto|vm_compute; reflexivity].
Qed.
Example C35_example_unterminated :
  let e := le_bytes 4 3 ++ le_bytes 2 0 ++ le_bytes 2 24 ++ le_bytes 4 7 ++ le_bytes 4 7 ++
           [112; 101; 114; 102; 112; 101; 114; 102] ++ le_bytes 8 99 in
  raw_event e /\ event_data_size e = Fail.
Proof.
  cbv zeta. unfold raw_event.
  split; [repeat match goal with |- _ /\ _ => split end; vm_compute; congruence|].
  vm_compute; reflexivity.
Qed.
Example C35_example_thread_map :
  let e := le_bytes 4 73 ++ le_bytes 2 0 ++ le_bytes 2 40 ++ le_bytes 8 1 ++ le_bytes 8 77 ++
           [104; 105; 0] ++ repeat 0 13 in
  raw_event e /\ event_data_size e = Ok 40.
Proof.
  cbv zeta. unfold raw_event.
  split; [repeat match goal with |- _ /\ _ => split end; vm_compute; congruence|].
  vm_compute; reflexivity.
Qed.
