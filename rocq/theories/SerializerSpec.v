(** What of a raw event a PerfEvent message represents. *)
From Verif Require Import Base BytesModel EventSizeModel EventSizeSpec TextModel SampleModel
  SampleSpec FileModel SerializerModel.
From Coq Require Import Permutation.
Local Open Scope N_scope.

(** Byte [i] of a block. *)
Definition byte (e : list N) (i : N) : N := nth (N.to_nat i) e 0.

(** Ranges of bytes, as offset and length. *)
Definition inside (l : list (N * N)) (i : N) : bool :=
  existsb (fun r => (fst r <=? i) && (i <? fst r + snd r)) l.

(** The text at [off] with its NUL. *)
Definition text_field (e : list N) (off : N) : N * N :=
  (off, strnlen (skipn (N.to_nat off) e) + 1).

(** The fields of [count] entries of [size] bytes from [off] on. *)
Fixpoint entry_fields (f : N -> list (N * N)) (off size : N) (count : nat) : list (N * N) :=
  match count with
  | O => []
  | S c => f off ++ entry_fields f (off + size) size c
  end.
Definition array_fields (e : list N) (count_at off size : N) (f : N -> list (N * N)) :=
  (count_at, 8) :: entry_fields f off size (N.to_nat (number_at e count_at)).

(** The fields a message has for the data part of an event, from the layouts of
    kernel/perf_internals.h:105-624. The header is represented in full. *)
Definition fields (e : list N) : list (N * N) :=
  let ty := ev_type e in
  if ty =? R_MMAP then [(8, 4); (12, 4); (16, 8); (24, 8); (32, 8); text_field e 40]
  else if ty =? R_MMAP2 then
    [(8, 4); (12, 4); (16, 8); (24, 8); (32, 8)]
    ++ (if N.testbit (ev_misc e) 14 then [(40, 1); (44, byte e 40)]
        else [(40, 4); (44, 4); (48, 8); (56, 8)])
    ++ [(64, 4); (68, 4); text_field e 72]
  else if ty =? R_COMM then [(8, 4); (12, 4); text_field e 16]
  else if (ty =? R_EXIT) || (ty =? R_FORK) then [(8, 4); (12, 4); (16, 4); (20, 4); (24, 8)]
  else if ty =? R_LOST then [(8, 8); (16, 8)]
  else if (ty =? R_THROTTLE) || (ty =? R_UNTHROTTLE) then [(8, 8); (16, 8); (24, 8)]
  else if ty =? R_AUX then [(8, 8); (16, 8); (24, 1)]
  else if ty =? R_ITRACE_START then [(8, 4); (12, 4)]
  else if ty =? R_LOST_SAMPLES then [(8, 8)]
  else if ty =? R_SWITCH_CPU_WIDE then [(8, 4); (12, 4)]
  else if ty =? R_NAMESPACES then
    [(8, 4); (12, 4)] ++ array_fields e 16 24 16 (fun o => [(o, 8); (o + 8, 8)])
  else if ty =? R_CGROUP then [(8, 8); text_field e 16]
  else if ty =? R_KSYMBOL then [(8, 8); (16, 4); (20, 2); (22, 2); text_field e 24]
  else if ty =? R_AUXTRACE_INFO then
    (8, 4) :: entry_fields (fun o => [(o, 8)]) 16 8 (N.to_nat ((ev_size e - 16) / 8))
  else if ty =? R_AUXTRACE then [(8, 8); (16, 8); (24, 8); (32, 4); (36, 4); (40, 4)]
  else if ty =? R_AUXTRACE_ERROR then
    [(8, 4); (12, 4); (16, 4); (20, 4); (24, 4); (32, 8); text_field e 40]
  else if ty =? R_ID_INDEX then
    array_fields e 8 16 32 (fun o => [(o, 8); (o + 8, 8); (o + 16, 8); (o + 24, 8)])
  else if ty =? R_THREAD_MAP then
    array_fields e 8 16 24 (fun o => [(o, 8); text_field e (o + 8)])
  else if ty =? R_STAT_CONFIG then array_fields e 8 16 16 (fun o => [(o, 8); (o + 8, 8)])
  else if ty =? R_STAT then [(8, 8); (16, 4); (20, 4); (24, 8); (32, 8); (40, 8)]
  else if ty =? R_STAT_ROUND then [(8, 8); (16, 8)]
  else if ty =? R_TIME_CONV then
    [(8, 8); (16, 8); (24, 8)]
    ++ (if ev_size e =? 56 then [(32, 8); (40, 8); (48, 1); (49, 1)] else [])
  else if ty =? R_BPF_METADATA then
    text_field e 8 :: array_fields e 520 528 320 (fun o => [text_field e o; text_field e (o + 64)])
  else [].

(** Byte [i] of the data part as a message keeps it. Of the flags of an AUX event
    three bits have a field; the two capabilities of a TIME_CONV event are
    booleans. *)
Definition kept (e : list N) (i : N) : N :=
  if i <? 8 then byte e i
  else if negb (inside (fields e) i) then 0
  else if (ev_type e =? R_AUX) && (i =? 24) then byte e i mod 8
  else if (ev_type e =? R_TIME_CONV) && ((i =? 48) || (i =? 49)) then N.min 1 (byte e i)
  else byte e i.

(** The sample as a message keeps it: of a branch entry's flags the 26 bits with a
    name, the hardware index only beside branches, and no lost count for a
    single value. *)
Definition storable (p : psample) : psample :=
  let branch := match s_branch p with
                | Some bs =>
                    Some (mkBs (match bs_entries bs with [] => 0 | _ => bs_hw_idx bs end)
                            (map (fun b => mkBe (be_from b) (be_to b) (be_flags b mod 2 ^ 26))
                               (bs_entries bs)))
                | None => None
                end in
  set_one (mkRv (rv_value (s_one p)) (rv_id (s_one p)) 0) (set_branch branch p).

(** A serializer for events in the byte order of the machine, made from the
    attributes [l] of a file; no attribute asks for both kinds of ids. *)
Definition one_id (a : attr) : Prop :=
  (N.testbit (at_sample_type a) B_ID && N.testbit (at_sample_type a) B_IDENTIFIER) = false.
Definition native_serializer (l : list (attr * list N)) (s : sstate) : Prop :=
  create_readers l (new_serializer false) = Ok s /\
  Forall (fun x => at_sample_type (fst x) < two64 /\ one_id (fst x)) l.

(** An event as a reader hands it to the serializer: the block is the event, the
    data part takes [off] bytes, and what is behind it is a sample id if the
    event has one. *)
Record readable_event (s : sstate) (e : list N) (off : N) : Prop := {
  re_raw : raw_event e;
  re_len : len e = ev_size e;
  re_data : event_data_size e = Ok off;
  re_plain : contains_info s (ev_type e) = false -> off = ev_size e
}.

(** The reserved half of the CPU word is zero, as the kernel leaves it. *)
Definition cpu_clear (s : sstate) (e : list N) (off : N) : Prop :=
  forall id a, In (id, a) (ss_readers s) -> carries a (ev_type e) B_CPU = true ->
  off + cpu_word a (ev_type e) + 8 <= len e ->
  slice e (off + cpu_word a (ev_type e) + 4) 4 = [0; 0; 0; 0].

(** BPF metadata: the strings end inside their arrays, no key occurs twice, and
    the map gives its entries in the order they were put in ([ord]), unless
    there is but one. *)
Definition text_of (e : list N) (off : N) : list N := c_str (skipn (N.to_nat off) e).
Definition bpf_plain (ord : list (list N * list N) -> list (list N * list N)) (e : list N) : Prop :=
  ev_type e = R_BPF_METADATA ->
  In 0 (slice e 8 512) /\
  (forall i, i < number_at e 520 ->
     In 0 (slice e (528 + 320 * i) 64) /\ In 0 (slice e (528 + 320 * i + 64) 256)) /\
  (forall i j, i < j -> j < number_at e 520 ->
     text_of e (528 + 320 * i) <> text_of e (528 + 320 * j)) /\
  (number_at e 520 <= 1 \/ forall l, ord l = l).

(** The attribute of a sample: the one with its id, or the first if the sample
    has none. *)
Definition attr_of (s : sstate) (p : psample) (a : attr) : Prop :=
  if s_id p =? 0 then exists id r, ss_readers s = (id, a) :: r
  else In (s_id p, a) (ss_readers s).

(** [e'] is [e] as far as a message represents it. *)
Record same_event (s : sstate) (off : N) (e e' : list N) : Prop := {
  se_len : len e' = len e;
  se_data : forall i, i < off -> byte e' i = kept e i;
  se_info : contains_info s (ev_type e) = true ->
    exists a p p', attr_of s p a /\
      read_sample_info a false e fresh_sample = Ok p /\
      read_sample_info a false e' fresh_sample = Ok p' /\
      recovered a (ev_type e) (storable p) p'
}.

(** Where, behind the data part of a sample, the raw data starts. *)
Definition raw_start (a : attr) (p : psample) : N :=
  let has := carries a R_SAMPLE in
  let fmt := formats a in
  8 * words (map has [B_IDENTIFIER; B_IP; B_TID; B_TIME; B_ADDR; B_ID; B_STREAM_ID; B_CPU;
                      B_PERIOD])
  + (if has B_READ then
       if fmt F_GROUP
       then 8 * (1 + words (map fmt [F_TIME_ENABLED; F_TIME_RUNNING])
                 + len (group_of p) * (1 + words (map fmt [F_ID; F_LOST])))
       else 8 * (1 + words (map fmt [F_TIME_ENABLED; F_TIME_RUNNING; F_ID; F_LOST]))
     else 0)
  + (if has B_CALLCHAIN then 8 * (1 + len (chain_of p)) else 0).

(** Nothing in the event is without a field in the message: the bytes between the
    fields are zero, AUX flags and capabilities are ones the message knows, and
    so are the branches, the padding behind raw data is zero, ... *)
Record fully_represented (s : sstate) (e : list N) (off : N) : Prop := {
  fr_gaps : forall i, 8 <= i -> i < off -> inside (fields e) i = false -> byte e i = 0;
  fr_aux : ev_type e = R_AUX -> number_at e 24 < 8;
  fr_caps : ev_type e = R_TIME_CONV -> ev_size e = 56 -> byte e 48 <= 1 /\ byte e 49 <= 1;
  fr_sample : ev_type e = R_SAMPLE -> forall id a p, In (id, a) (ss_readers s) ->
    read_sample_info a false e fresh_sample = Ok p ->
    Forall (fun b => be_flags b < 2 ^ 26) (branches_of p) /\
    (branches_of p = [] -> hw_idx_of p = 0) /\
    rv_lost (s_one p) = 0 /\
    (carries a R_SAMPLE B_RAW = true -> forall i,
       off + raw_start a p + 4 + len (s_raw p) <= i ->
       i < off + raw_start a p + 8 * ((4 + len (s_raw p) + 7) / 8) -> byte e i = 0)
}.

(** An event a message can be made of: its sample fields can be read with the
    attribute of its id; a build id in it is no longer than 20 bytes; the
    entries of BPF metadata are inside the event. *)
Record convertible (s : sstate) (e : list N) : Prop := {
  cv_info : contains_info s (ev_type e) = true -> exists a p, attr_of s p a /\
    (ev_type e = R_SAMPLE \/ at_sample_id_all a = true) /\
    read_sample_info a false e fresh_sample = Ok p;
  cv_build_id : ev_type e = R_MMAP2 -> N.testbit (ev_misc e) 14 = true -> byte e 40 <= 20;
  cv_bpf : ev_type e = R_BPF_METADATA -> 528 + 320 * number_at e 520 <= len e
}.
