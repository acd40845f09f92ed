(** C78: how a profile is stored. *)
From Coq Require Import String.
From Verif Require Import Base BytesModel TextModel OptionProofs ProfileModel BuilderModel BuilderSpec BuilderProofs BuilderValidProofs BuilderProps.
From Verif Require Import ToolModel ConvertModel ConvertProps BuilderUrlProps BuilderEmitModel.
Local Open Scope N_scope.
Local Open Scope list_scope.

(** *** Emit succeeds just if the builder can be finalized and the profile encoded; what
    it gives then is the encoding of a consistent profile, that of the builder; else
    there is no output. *)
Theorem C78_emitted encode b b' ok d :
  emit encode b = (b', (ok, d)) ->
  (ok = true -> consistent to_int32 (b_profile b') /\ encode (b_profile b') = Some d /\ b' = fst (finalize b)) /\
  (ok = false -> d = [] /\ (snd (finalize b) = false \/ encode (b_profile b') = None)).
Proof.
  unfold emit. destruct (finalize b) as [b1 k] eqn:F. intros H. injection H as <- H. split; intros ->.
  - destruct k; [|discriminate H]. unfold marshal in H. destruct (encode (b_profile b1)) as [x|] eqn:E; [|discriminate H].
    injection H as <-. split; [|now split].
    pose proof (C17_finalize_true_means_consistent b) as C. rewrite F in C. now apply C.
  - destruct k.
    + unfold marshal in H. destruct (encode (b_profile b1)) eqn:E; [discriminate H|]. injection H as <-. split; [reflexivity|now right].
    + injection H as <-. split; [reflexivity|now left].
Qed.
Print Assumptions C78_emitted.

(** *** After a bad URL nothing is ever emitted. *)
Theorem C78_not_emitted encode b u os :
  ~ web_url u -> snd (emit encode (brun (bstep b (BUrl u)) os)) = (false, []).
Proof.
  intros W. destruct (C78_url_refused b u os W) as (_ & H). unfold emit. destruct (finalize _) as [b1 k]. cbn in H |- *. now rewrite H.
Qed.
Print Assumptions C78_not_emitted.

(** *** A profile stored in a file on a device with room for it is all that is in the file
    then, whatever was there; no other file changes. Success without room is possible
    only if less than one block is missing. *)
Theorem C78_stored_file encode p f path d :
  encode p = Some d -> fl_writable f path = true -> (List.length d <= fl_room f)%nat ->
  exists f', marshal_file encode p f path = (true, f') /\ fl_data f' path = Some d /\ (forall q, q <> path -> fl_data f' q = fl_data f q).
Proof.
  intros E W L. unfold marshal_file, marshal_fd. rewrite W, E. cbn [negb]. cbv zeta.
  destruct (N.leb_spec (N.of_nat (List.length d) - 1 - (N.of_nat (List.length d) - 1) mod stream_block) (N.of_nat (fl_room f))); [|lia].
  eexists. split; [reflexivity|]. unfold write_file, put. cbn [fl_data]. split.
  - rewrite (proj2 (list_eqb_eq path path) eq_refl). now rewrite firstn_firstn, Nat.min_id, firstn_all2 by exact L.
  - intros q Nq. destruct (list_eqb q path) eqn:Q; [|reflexivity]. apply list_eqb_eq in Q. contradiction.
Qed.
Print Assumptions C78_stored_file.
Theorem C78_success_file encode p f path f' :
  marshal_file encode p f path = (true, f') ->
  exists d, encode p = Some d /\ fl_writable f path = true /\
    (N.of_nat (List.length d) <= N.of_nat (fl_room f) + stream_block).
Proof.
  unfold marshal_file, marshal_fd. destruct (fl_writable f path); cbn [negb]; [|discriminate].
  destruct (encode p) as [d|]; [|discriminate]. cbv zeta. intros H. injection H as H _. apply N.leb_le in H.
  exists d. split; [reflexivity|]. split; [reflexivity|].
  assert ((N.of_nat (List.length d) - 1) mod stream_block < stream_block) by (apply N.mod_lt; discriminate). lia.
Qed.
Print Assumptions C78_success_file.

(** *** If the file cannot be opened, failure is reported and nothing changes. *)
Theorem C78_not_opened encode p f path : fl_writable f path = false -> marshal_file encode p f path = (false, f).
Proof. intros W. unfold marshal_file. now rewrite W. Qed.
Print Assumptions C78_not_opened.

(** *** A concrete case: profiles encoded by the default type and the number of strings. *)
Definition encode_two (p : profile) : option (list N) := Some [Z.to_N (pf_default_type p); N.of_nat (List.length (pf_string p))].
Example C78_emit_met :
  snd (emit encode_two C17_builder) = (true, [1; 2]) /\
  snd (emit encode_two (brun C17_builder [BUrl (str "ftp://x")])) = (false, []) /\
  fst (marshal_file encode_two (b_profile C17_builder) (a_disk 100) (str "m")) = true /\
  fl_data (snd (marshal_file encode_two (b_profile C17_builder) (a_disk 100) (str "m"))) (str "m") = Some [1; 2].
Proof. repeat split; vm_compute; reflexivity. Qed.

(** *** MarshalToFile says that it returns false on errors, but the last block (for a
    profile of up to 8192 bytes, all of it) is written where no error is seen: on a full
    device it reports success and leaves an empty file. *)
Theorem C78_full_device_refuted :
  fst (marshal_file encode_two (b_profile C17_builder) (a_disk 0) (str "m")) = true /\
  fl_data (snd (marshal_file encode_two (b_profile C17_builder) (a_disk 0) (str "m"))) (str "m") = Some [].
Proof. split; vm_compute; reflexivity. Qed.
Print Assumptions C78_full_device_refuted.
