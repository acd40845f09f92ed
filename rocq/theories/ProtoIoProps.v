(** C77: messages in files, and options in messages. *)
From Coq Require Import String.
From Verif Require Import Base TextModel TextProofs OptionProofs ToolModel ConvertModel ConvertSpec ConvertProps ProtoIoModel.
Local Open Scope N_scope.
Local Open Scope list_scope.

(** *** A message that has been stored (and that the protobuf library can write and
    read) is what is read from the file, and no other file has changed. *)
Theorem C77_stored message encode decode (m : message) data f path f' :
  encode m = Some data -> decode data = Some m -> fl_readable f path = true -> (List.length data <= fl_room f)%nat ->
  store message encode m f path = (Ok true, f') ->
  fetch message decode f' path = Ok m /\ (forall p, p <> path -> fl_data f' p = fl_data f p).
Proof.
  intros E D R L H. unfold store in H. rewrite E in H. cbn [get] in H. unfold buffer_to_file in H.
  destruct (fl_writable f path); cbn [negb] in H; [|discriminate H].
  destruct (N.ltb_spec (N.of_nat (fl_room f)) (N.of_nat (List.length data) - N.of_nat (List.length data) mod block_size)); [lia|].
  injection H as <-. unfold fetch, open_file, write_file, put. cbn [fl_data fl_readable].
  rewrite (proj2 (list_eqb_eq path path) eq_refl), R. cbn [obind]. rewrite firstn_all2 by exact L. rewrite D. split; [reflexivity|].
  intros p Np. destruct (list_eqb p path) eqn:Ep; [|reflexivity]. apply list_eqb_eq in Ep. contradiction.
Qed.
Print Assumptions C77_stored.

(** *** Storing fails only if the file cannot be opened, and then nothing has changed. *)
Theorem C77_not_stored message encode (m : message) f path f' :
  store message encode m f path = (Ok false, f') -> fl_writable f path = false /\ f' = f.
Proof.
  unfold store, buffer_to_file. destruct (fl_writable f path); cbn [negb]; [|intros H; injection H as <-; now split].
  destruct (_ <? _); discriminate.
Qed.
Print Assumptions C77_not_stored.

(** *** Reading a stored message succeeds just if the file can be read and holds one,
    and is refused otherwise. *)
Theorem C77_fetched message decode f path :
  (forall m : message, fetch message decode f path = Ok m <->
     exists data, fl_data f path = Some data /\ fl_readable f path = true /\ decode data = Some m) /\
  ((forall m, fetch message decode f path <> Ok m) -> fetch message decode f path = Fail).
Proof.
  unfold fetch, open_file. split.
  - intros m. split.
    + destruct (fl_data f path) as [data|]; cbn [obind]; [|discriminate].
      destruct (fl_readable f path); cbn [obind]; [|discriminate]. destruct (decode data) eqn:D; [|discriminate].
      intros H. injection H as <-. now exists data.
    + intros (data & -> & -> & D). cbn [obind]. now rewrite D.
  - destruct (fl_data f path) as [data|]; cbn [obind]; [|reflexivity].
    destruct (fl_readable f path); cbn [obind]; [|reflexivity]. destruct (decode data) as [m|]; [|reflexivity].
    intros H. now destruct (H m).
Qed.
Print Assumptions C77_fetched.

(** *** Reading a file is reading its contents as a string, with any options. *)
Theorem C77_file recording message stats read parse to_proto add_stats o f path contents :
  fl_data f path = Some contents -> fl_readable f path = true ->
  from_file_with recording message stats read parse to_proto add_stats o f path =
  from_string_with recording message stats read parse to_proto add_stats o contents.
Proof. intros D R. unfold from_file_with, open_file. now rewrite D, R. Qed.
Print Assumptions C77_file.
Theorem C77_no_file recording message stats read parse to_proto add_stats o f path :
  fl_data f path = None \/ fl_readable f path = false ->
  from_file_with recording message stats read parse to_proto add_stats o f path = Fail.
Proof. intros H. unfold from_file_with, open_file. destruct (fl_data f path), H as [H|H]; try discriminate H; try rewrite H; reflexivity. Qed.
Print Assumptions C77_no_file.

(** *** A message is written to a perf.data file just as far as it can be made into one:
    success with room on the device means that the file holds what was made from the
    message; without success nothing has changed. *)
Theorem C77_written recording message of_proto write (m : message) f path f' :
  to_file recording message of_proto write m f path = (Ok true, f') ->
  exists r data, of_proto m = Ok r /\ write r = Ok data /\
    ((List.length data <= fl_room f)%nat -> fl_data f' path = Some data) /\
    (forall p, p <> path -> fl_data f' p = fl_data f p).
Proof.
  unfold to_file. destruct (of_proto m) as [r| | | |]; cbn [obind]; try discriminate.
  destruct (write r) as [data| | | |] eqn:W; try discriminate. intros H. exists r, data. split; [reflexivity|]. split; [exact W|].
  unfold buffer_to_file in H. destruct (fl_writable f path); cbn [negb] in H; [|discriminate H].
  destruct (_ <? _); [discriminate H|]. injection H as <-. unfold write_file, put. cbn [fl_data]. split.
  - intros L. rewrite (proj2 (list_eqb_eq path path) eq_refl), firstn_all2 by exact L. reflexivity.
  - intros p Np. destruct (list_eqb p path) eqn:Ep; [|reflexivity]. apply list_eqb_eq in Ep. contradiction.
Qed.
Print Assumptions C77_written.
Theorem C77_not_written recording message of_proto write (m : message) f path f' :
  to_file recording message of_proto write m f path = (Ok false, f') ->
  f' = f /\ (of_proto m = Fail \/ (exists r, of_proto m = Ok r /\ write r = Fail) \/ fl_writable f path = false).
Proof.
  unfold to_file. destruct (of_proto m) as [r| | | |]; cbn [obind]; try discriminate.
  - destruct (write r) as [data| | | |] eqn:W; try discriminate.
    + unfold buffer_to_file. destruct (fl_writable f path); cbn [negb]; [destruct (_ <? _); discriminate|].
      intros H. injection H as <-. split; [reflexivity|]. now right; right.
    + intros H. injection H as <-. split; [reflexivity|]. right. left. now exists r.
  - intros H. injection H as <-. split; [reflexivity|]. now left.
Qed.
Print Assumptions C77_not_written.

(** *** A message comes with the statistics of the parse that made it. *)
Theorem C77_made recording message stats read parse to_proto add_stats o contents m :
  from_string_with recording message stats read parse to_proto add_stats o contents = Ok m <->
  exists r r' s m', read contents = Ok r /\ parse o r = Ok (r', s) /\ to_proto r' = Ok m' /\ m = add_stats s m'.
Proof.
  unfold from_string_with. split.
  - destruct (read contents) as [r| | | |] eqn:R; cbn [obind]; try discriminate.
    destruct (parse o r) as [[r' s]| | | |] eqn:P; cbn [obind]; try discriminate.
    destruct (to_proto r') as [m'| | | |] eqn:T; cbn [obind]; try discriminate. intros H. injection H as <-.
    exists r, r', s, m'. now repeat split.
  - intros (r & r' & s & m' & R & P & T & ->). rewrite R. cbn [obind]. rewrite P. cbn [obind]. now rewrite T.
Qed.
Print Assumptions C77_made.

(** *** Every setting of the options but that for unaligned JIT mappings can be given in
    a message, and a message that sets all fields means just these. *)
Theorem C77_options recording message stats read parse to_proto add_stats a b c d e g h contents :
  from_string_message recording message stats read parse to_proto add_stats
    {| mo_remap := Some a; mo_discard := Some b; mo_threshold := Some c; mo_sort := Some d; mo_build_ids := Some e;
       mo_huge := Some g; mo_combine := Some h |} contents =
  from_string_with recording message stats read parse to_proto add_stats
    {| so_remap := a; so_discard := b; so_threshold := c; so_sort := d; so_build_ids := e; so_huge := g; so_combine := h;
       so_jit := false |} contents.
Proof. reflexivity. Qed.
Print Assumptions C77_options.
(** *** A field that is left out means the default of the struct, but for sorting. *)
Theorem C77_left_out m :
  (mo_remap m = None -> so_remap (of_message m) = so_remap default_options) /\
  (mo_discard m = None -> so_discard (of_message m) = so_discard default_options) /\
  (mo_threshold m = None -> so_threshold (of_message m) = so_threshold default_options) /\
  (mo_build_ids m = None -> so_build_ids (of_message m) = so_build_ids default_options) /\
  (mo_huge m = None -> so_huge (of_message m) = so_huge default_options) /\
  (mo_combine m = None -> so_combine (of_message m) = so_combine default_options).
Proof. unfold of_message, get. cbn. repeat split; intros ->; reflexivity. Qed.
Print Assumptions C77_left_out.

(** *** A concrete case: messages are lists of numbers of at most four. *)
Definition encode4 (m : list N) : option (list N) := if (List.length m <=? 4)%nat then Some (8 :: m) else None.
Definition decode4 (d : list N) : option (list N) := match d with [] => Some [] | c :: r => if c =? 8 then Some r else None end.
Example C77_hypotheses_met :
  let f := a_disk 100 in
  encode4 [1; 2] = Some [8; 1; 2] /\ decode4 [8; 1; 2] = Some [1; 2] /\
  fst (store _ encode4 [1; 2] f (str "m")) = Ok true /\ fetch _ decode4 (snd (store _ encode4 [1; 2] f (str "m"))) (str "m") = Ok [1; 2].
Proof. cbv zeta. split; [reflexivity|]. split; [reflexivity|]. split; vm_compute; reflexivity. Qed.

(** A recording is a list of numbers, parsed by leaving out the zeros (and counting them). *)
Definition parse0 (o : struct_options) (r : list N) : outcome (list N * nat) :=
  let r' := filter (fun x => negb (x =? 0)) r in
  if so_discard o then Ok (r', List.length r - List.length r')%nat else Ok (r, 0%nat).
Definition of_proto4 (m : list N) : outcome (list N) := if (List.length m <=? 4)%nat then Ok m else Fail.
Definition add4 (s : nat) (m : list N) : list N := m ++ [N.of_nat s].
Example C77_made_met :
  from_string_message _ _ _ of_proto4 parse0 Ok add4
    {| mo_remap := None; mo_discard := Some true; mo_threshold := None; mo_sort := Some true; mo_build_ids := None;
       mo_huge := None; mo_combine := None |} [0; 7; 0] = Ok [7; 2].
Proof. reflexivity. Qed.
Example C77_written_met :
  let f := a_disk 100 in
  fst (to_file _ _ of_proto4 Ok [1; 2] f (str "m")) = Ok true /\
  fl_data (snd (to_file _ _ of_proto4 Ok [1; 2] f (str "m"))) (str "m") = Some [1; 2] /\
  fst (to_file _ _ of_proto4 Ok [1; 2; 3; 4; 5] f (str "m")) = Ok false.
Proof. cbv zeta. split; [vm_compute; reflexivity|]. split; vm_compute; reflexivity. Qed.

(** *** A message without any field is not the default: events are not sorted by time
    (perf_parser_options.proto:15, perf_parser.h:165), although the message is "a proto
    mapping of PerfParserOptions". *)
Definition no_fields : message_options :=
  {| mo_remap := None; mo_discard := None; mo_threshold := None; mo_sort := None; mo_build_ids := None; mo_huge := None; mo_combine := None |}.
Theorem C77_default_refuted :
  of_message no_fields <> default_options /\ so_sort (of_message no_fields) = false /\ so_sort default_options = true /\
  (forall m, so_jit (of_message m) = false).
Proof. repeat split. discriminate. Qed.
Print Assumptions C77_default_refuted.

(** *** If a message has no encoding (over 2 GB), WriteProtobufToFile reports success and
    leaves an empty file; from that an empty message is read. *)
Theorem C77_too_big_refuted :
  let f := a_disk 100 in
  encode4 [1; 2; 3; 4; 5] = None /\
  fst (store _ encode4 [1; 2; 3; 4; 5] f (str "m")) = Ok true /\
  fl_data (snd (store _ encode4 [1; 2; 3; 4; 5] f (str "m"))) (str "m") = Some [] /\
  fetch _ decode4 (snd (store _ encode4 [1; 2; 3; 4; 5] f (str "m"))) (str "m") = Ok [].
Proof. cbv zeta. split; [reflexivity|]. split; [vm_compute; reflexivity|]. split; vm_compute; reflexivity. Qed.
Print Assumptions C77_too_big_refuted.
