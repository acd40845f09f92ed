(** Reading single events out of perf data. *)
From Verif Require Import Base BytesModel BytesProofs BytesMoreProofs BufferModel BufferSpec BufferProofs TextModel Assoc
  EventSizeModel EventSizeSpec EventSizeProofs SampleModel ReaderOpsModel ReaderOpsProofs FileModel FileSpec FileProofs.
Local Open Scope N_scope.

(** A block that is exactly one raw event with a full fixed part. *)
Definition whole_event (e : list N) : Prop :=
  bytes_ok e = true /\ 8 <= len e /\ ev_size e = len e.
Lemma whole_raw e : whole_event e -> raw_event e.
Proof. intros (A & B & C). repeat split; auto. lia. Qed.

Lemma header_kept e e' :
  (forall o k, o + k <= 8 -> slice e' o k = slice e o k) ->
  ev_type e' = ev_type e /\ ev_misc e' = ev_misc e /\ ev_size e' = ev_size e.
Proof.
  intros H. unfold ev_type, ev_misc, ev_size. rewrite !H by lia. auto.
Qed.

Lemma fixed_swaps_block ty misc f fs :
  fixed_payload ty = Some f -> fixed_swaps ty misc = Some fs -> Forall (in_block 8 f) fs.
Proof.
  intros H Hs. apply known_types in H. cbn in H.
  assert (B : forall o n f, swap_size n -> 8 <= o -> o + N.of_nat n <= f -> in_block 8 f (o, n)) by (now repeat split).
  assert (S4 : swap_size 4) by (cbn; auto). assert (S8 : swap_size 8) by (cbn; auto).
  assert (S2 : swap_size 2) by (cbn; auto).
  repeat (destruct H as [E|H];
    [injection E as <- <-; unfold fixed_swaps in Hs; revert Hs; pick_type; cbn [app];
     try discriminate; try destruct (N.testbit misc 14); cbn [app];
     intros Hs; injection Hs as <-; repeat (apply Forall_cons; [apply B; [assumption|lia|cbn; lia]|]); apply Forall_nil
    |]). contradiction.
Qed.

Lemma entries_block base entry fs n lo size :
  lo <= base -> base + entry * n <= size ->
  Forall (fun f => swap_size (snd f) /\ fst f + N.of_nat (snd f) <= entry) fs ->
  Forall (in_block lo size) (entries_swaps base entry fs n).
Proof.
  intros H1 H2 F. unfold entries_swaps. apply Forall_flat_map, Forall_forall. intros i Hi.
  apply in_seq in Hi. apply Forall_map. eapply Forall_impl; [|exact F].
  intros [o k] [A B]. cbn [fst snd] in *. split; [exact A|]. cbn [fst snd].
  assert (entry * N.of_nat i + entry <= entry * n) by nia. lia.
Qed.

Lemma var_size e f :
  raw_event e -> fixed_payload (ev_type e) = Some f -> f <= ev_size e ->
  match variable_payload e (ev_size e - f) with
  | Ok v => event_data_size e = Ok (f + v) /\ f + v <= ev_size e
  | Fail => True
  | _ => False
  end.
Proof.
  intros He Hf Hs. destruct (variable_payload_total e f He Hf Hs) as [E|(v & E & Hv)];
    unfold variable_payload; rewrite E; cbn [obind]; [exact I|].
  assert (Hsz := ev_size_bound e (proj1 He)).
  destruct (v mod 8 =? 0) eqn:E8; cbn [negb]; [|exact I].
  unfold event_data_size. rewrite Hf. replace (ev_size e <? f) with false by lia.
  unfold variable_payload. rewrite E. cbn [obind]. rewrite E8. cbn [negb obind].
  rewrite w64_small by (unfold two16, two64 in *; lia). split; [reflexivity|lia].
Qed.

Lemma fixed_ge_8 ty f : fixed_payload ty = Some f -> 8 <= f.
Proof.
  intros H. apply known_types in H. cbn in H.
  repeat (destruct H as [E|H]; [injection E as _ <-; lia|]). contradiction.
Qed.

Lemma variable_swaps_block e f v lo :
  lo <= f -> (ev_type e = R_CGROUP -> lo <= 8) ->
  whole_event e -> fixed_payload (ev_type e) = Some f -> f <= ev_size e ->
  event_data_size e = Ok (f + v) ->
  match variable_swaps e with
  | Ok fs => Forall (in_block lo (len e)) fs
  | Fail => True
  | _ => False
  end.
Proof.
  intros Hlo Hcg W Hf Hs Hd. assert (He := whole_raw e W). destruct W as (Hb & Hh & Hl).
  assert (Hsz := ev_size_bound e Hb). assert (Hk := proj1 (known_types _ _) Hf).
  assert (S8 : swap_size 8) by (cbn; auto).
  unfold variable_swaps. cbv zeta.
  destruct (N.eqb_spec (ev_type e) R_NAMESPACES) as [T|_].
  { rewrite T in Hf. injection Hf as <-. rewrite ev_u64_ok by lia. cbn [obind].
    apply (proj1 (namespaces_size e _ He T)) in Hd. destruct Hd as (_ & E & L).
    apply entries_block; [lia|lia|]. repeat constructor; cbn [fst snd]; auto; cbn; lia. }
  destruct (N.eqb_spec (ev_type e) R_AUXTRACE_INFO) as [T|_].
  { rewrite T in Hf. injection Hf as <-. apply entries_block; [lia| |].
    - unfold sub64, two64. replace (ev_size e + 18446744073709551616 - 16)
        with (ev_size e - 16 + 1 * 18446744073709551616) by lia.
      rewrite N.mod_add by lia. rewrite N.mod_small by (unfold two16 in *; lia). lia.
    - repeat constructor; cbn [fst snd]; auto; cbn; lia. }
  destruct (N.eqb_spec (ev_type e) R_ID_INDEX) as [T|_].
  { rewrite T in Hf. injection Hf as <-. rewrite ev_u64_ok by lia. cbn [obind].
    apply (proj1 (array_event_size e R_ID_INDEX 8 16 32 _ He ltac:(cbn; auto) T)) in Hd.
    destruct Hd as (E & L & _). apply entries_block; [lia|lia|].
    repeat constructor; cbn [fst snd]; auto; cbn; lia. }
  destruct (N.eqb_spec (ev_type e) R_THREAD_MAP) as [T|_].
  { rewrite T in Hf. injection Hf as <-. rewrite ev_u64_ok by lia. cbn [obind].
    apply (proj1 (array_event_size e R_THREAD_MAP 8 16 24 _ He ltac:(cbn; auto) T)) in Hd.
    destruct Hd as (E & L & _). apply entries_block; [lia|lia|].
    repeat constructor; cbn [fst snd]; auto; cbn; lia. }
  destruct (N.eqb_spec (ev_type e) R_STAT_CONFIG) as [T|_].
  { rewrite T in Hf. injection Hf as <-. rewrite ev_u64_ok by lia. cbn [obind].
    apply (proj1 (array_event_size e R_STAT_CONFIG 8 16 16 _ He ltac:(cbn; auto) T)) in Hd.
    destruct Hd as (E & L & _). apply entries_block; [lia|lia|].
    repeat constructor; cbn [fst snd]; auto; cbn; lia. }
  destruct (N.eqb_spec (ev_type e) R_CGROUP) as [T|_].
  { rewrite T in Hf. injection Hf as <-. specialize (Hcg T). constructor; [|constructor].
    split; cbn [fst snd]; auto; cbn; lia. }
  destruct (N.eqb_spec (ev_type e) R_TIME_CONV) as [T|_].
  { rewrite T in Hf. injection Hf as <-. destruct (N.eqb_spec (ev_size e) 56); [|constructor].
    repeat constructor; cbn [fst snd]; auto; cbn; lia. }
  destruct (existsb _ _); constructor.
Qed.

(** Reading the event: same header, within its size. *)
Lemma localise_ok sw f e :
  whole_event e -> fixed_payload (ev_type e) = Some f -> f <= ev_size e ->
  match localise_event sw f e with
  | Ok (e', v) =>
      whole_event e' /\ len e' = len e /\
      ev_type e' = ev_type e /\ ev_misc e' = ev_misc e /\
      f + v <= ev_size e' /\ (sw = false -> e' = e) /\
      (ev_type e = R_MMAP2 -> strnlen (skipn 72 e') < len (skipn 72 e'))
  | Fail => True
  | _ => False
  end.
Proof.
  intros W Hf Hs.
  assert (T72 : forall e1 v, whole_event e1 -> ev_type e1 = R_MMAP2 ->
            event_data_size e1 = Ok v -> strnlen (skipn 72 e1) < len (skipn 72 e1)).
  { intros e1 v W1 T D. apply (proj1 (text_event_size e1 R_MMAP2 72 4096 _ (whole_raw _ W1) ltac:(cbn; auto) T)) in D.
    destruct D as (_ & w & _ & (s & N0 & E & _)). apply strnlen_nul.
    rewrite <- (firstn_skipn (N.to_nat (len s + 1)) (skipn 72 e1)). apply in_or_app. left.
    change (firstn (N.to_nat (len s + 1)) (skipn 72 e1)) with (slice e1 72 (len s + 1)).
    rewrite E. apply in_or_app. right. now left. }
  unfold localise_event. destruct sw.
  - destruct (fixed_swaps (ev_type e) (ev_misc e)) as [fs|] eqn:Efs; [|exact I].
    destruct W as (Hb & Hh & Hl).
    assert (F := fixed_swaps_block _ _ _ _ Hf Efs).
    destruct (flips_ok fs e 8 Hb) as (A1 & A2 & A3 & A4).
    { eapply Forall_impl; [|exact F]. intros [o n] (X1 & X2 & X3). split; [auto|]. cbn [fst snd] in *. lia. }
    rewrite A1. cbn [obind]. set (e1 := flips fs e) in *.
    destruct (header_kept e e1 A4) as (K1 & K2 & K3).
    assert (W1 : whole_event e1) by (split; [exact A3|]; split; lia).
    assert (V := var_size e1 f (whole_raw _ W1)). rewrite K1, K3 in V. specialize (V Hf Hs).
    rewrite K3. destruct (variable_payload e1 (ev_size e - f)) as [v| | | |]; cbn [obind]; try (exact V).
    destruct V as [V1 V2].
    assert (B := variable_swaps_block e1 f v 8 (fixed_ge_8 _ _ Hf) (fun _ => N.le_refl _) W1). rewrite K1, K3 in B. specialize (B Hf Hs V1).
    destruct (variable_swaps e1) as [fs'| | | |] eqn:Efs'; cbn [obind]; try (exact B).
    destruct (flips_ok fs' e1 8 A3 B) as (C1 & C2 & C3 & C4). rewrite C1. cbn [obind].
    destruct (header_kept e1 _ C4) as (J1 & J2 & J3).
    split; [split; [exact C3|]; split; lia|]. split; [lia|]. split; [congruence|]. split; [congruence|].
    split; [lia|]. split; [discriminate|]. intros T.
    assert (T1 : ev_type e1 = R_MMAP2) by congruence.
    assert (fs' = []).
    { unfold variable_swaps in Efs'. cbv zeta in Efs'. rewrite T1 in Efs'. revert Efs'. pick_type.
      cbn [existsb]. pick_type. congruence. }
    subst fs'. cbn [flips fold_left]. exact (T72 _ _ W1 T1 V1).
  - cbn [obind]. assert (V := var_size e f (whole_raw _ W) Hf Hs).
    destruct (variable_payload e (ev_size e - f)) as [v| | | |]; cbn [obind]; try (exact V).
    destruct V as [V1 V2]. repeat (split; [auto|]). intros T. exact (T72 _ _ W T V1).
Qed.

(** ** The state *)
Lemma serialize_shape ev : exists b, snd (serialize_build_id_event ev) = b. Proof. eauto. Qed.

Definition new_block (h : ehdr) (payload : list N) : list N :=
  le_bytes 4 (h_type h) ++ le_bytes 2 (h_misc h) ++ le_bytes 2 (h_size h) ++ payload.

Lemma new_block_ok h payload :
  h_type h < two32 -> h_misc h < two16 -> 8 <= h_size h < two16 ->
  bytes_ok payload = true -> len payload = h_size h - 8 ->
  whole_event (new_block h payload) /\ ev_type (new_block h payload) = h_type h /\
  ev_misc (new_block h payload) = h_misc h /\ ev_size (new_block h payload) = h_size h /\
  len (new_block h payload) = h_size h.
Proof.
  intros H1 H2 [H3 H4] Hb Hl. unfold new_block.
  set (a := le_bytes 4 (h_type h)). set (b := le_bytes 2 (h_misc h)). set (c := le_bytes 2 (h_size h)).
  assert (La : len a = 4) by apply len_le_bytes. assert (Lb : len b = 2) by apply len_le_bytes.
  assert (Lc : len c = 2) by apply len_le_bytes.
  assert (E1 : ev_type (a ++ b ++ c ++ payload) = h_type h).
  { unfold ev_type. change (a ++ b ++ c ++ payload) with ([] ++ a ++ (b ++ c ++ payload)).
    rewrite slice_app by (auto; reflexivity). apply of_le_le_bytes. exact H1. }
  assert (E2 : ev_misc (a ++ b ++ c ++ payload) = h_misc h).
  { unfold ev_misc. rewrite (slice_app a b (c ++ payload)) by auto. apply of_le_le_bytes. exact H2. }
  assert (E3 : ev_size (a ++ b ++ c ++ payload) = h_size h).
  { unfold ev_size. rewrite app_assoc. rewrite (slice_app (a ++ b) c payload) by (rewrite ?len_app; lia).
    apply of_le_le_bytes. exact H4. }
  assert (L : len (a ++ b ++ c ++ payload) = h_size h) by (rewrite !len_app; lia).
  split; [|auto]. split; [|split; lia].
  rewrite !bytes_ok_app. unfold a, b, c. rewrite !le_bytes_ok, Hb. reflexivity.
Qed.

(** ** Members after the change of byte order *)
Lemma u64_at sw e o : o + 8 <= len e -> forall e', len e' = len e ->
  slice e' o 8 = (if sw : bool then rev (slice e o 8) else slice e o 8) ->
  ev_u64 e' o = Ok (int_at sw e o 8).
Proof.
  intros H e' L E. unfold ev_u64, mem_read. replace (o + 8 <=? len e') with true by lia.
  cbn [obind]. rewrite E. reflexivity.
Qed.

Lemma localise_member sw f e e' v o :
  whole_event e -> fixed_payload (ev_type e) = Some f -> f <= ev_size e ->
  localise_event sw f e = Ok (e', v) ->
  ((ev_type e = R_MMAP \/ ev_type e = R_MMAP2) /\ o = 24) \/ (ev_type e = R_AUXTRACE /\ o = 8) ->
  ev_u64 e' o = Ok (int_at sw e o 8).
Proof.
  intros W Hf Hs HL T.
  assert (X := localise_ok sw f e W Hf Hs). rewrite HL in X. destruct X as (W' & L' & _ & _ & _ & N0 & _).
  assert (Lo : o + 8 <= len e).
  { destruct W as (_ & _ & W). clear - T Hf Hs W. destruct T as [[T ->]|[T ->]]; [destruct T as [T|T]|];
    rewrite T in Hf; injection Hf as <-; lia. }
  apply u64_at; [exact Lo|exact L'|].
  destruct sw; [|now rewrite N0].
  unfold localise_event in HL.
  destruct (fixed_swaps (ev_type e) (ev_misc e)) as [fs|] eqn:Efs; [|discriminate].
  assert (Hb := proj1 W).
  assert (F := fixed_swaps_block _ _ _ _ Hf Efs).
  assert (F' : Forall (in_block 8 (len e)) fs).
  { eapply Forall_impl; [|exact F]. destruct W as (_ & _ & W).
    intros [a n] (X1 & X2 & X3). split; [auto|]. cbn [fst snd] in *. lia. }
  destruct (flips_ok fs e 8 Hb F') as (A1 & A2 & A3 & A4).
  rewrite A1 in HL. cbn [obind] in HL. set (e1 := flips fs e) in *.
  destruct (header_kept e e1 A4) as (K1 & K2 & K3).
  destruct (variable_payload e1 _) as [v'| | | |]; try discriminate. cbn [obind] in HL.
  assert (V : variable_swaps e1 = Ok []).
  { unfold variable_swaps. cbv zeta. rewrite K1. destruct T as [[T _]|[T _]]; [destruct T as [T|T]|];
      rewrite T; pick_type; cbn [existsb]; pick_type; reflexivity. }
  rewrite V in HL. cbn [obind swap_fields] in HL. injection HL as <- <-.
  assert (I : In (o, 8%nat) fs /\ all_apart fs).
  { destruct T as [[T ->]|[T ->]]; [destruct T as [T|T]|];
      rewrite T in Efs; unfold fixed_swaps in Efs; revert Efs; pick_type; cbn [app];
      try destruct (N.testbit (ev_misc e) 14); cbn [app]; intros Efs; injection Efs as <-;
      (split; [cbn; auto 12|]);
      cbn [all_apart]; repeat (split; [repeat (apply Forall_cons; [unfold apart; cbn [fst snd]; lia|]); apply Forall_nil|]);
      exact I. }
  destruct I as [I1 I2]. apply (slice_flips_in fs e (o, 8%nat)); auto.
  eapply Forall_impl; [|exact F']. intros x (_ & _ & X). exact X.
Qed.

Lemma firstn_add' {A} (l : list A) n m : firstn (n + m) l = firstn n l ++ firstn m (skipn n l).
Proof. revert l. induction n as [|n IH]; intros [|x l]; cbn; rewrite ?firstn_nil; f_equal; auto. Qed.

(** The block read is the record. *)
Lemma block_is_record sw b o (h := header_at sw b o) :
  bytes_ok b = true -> 8 <= h_size h -> o + h_size h <= len b ->
  let e := new_block h (slice b (o + 8) (h_size h - 8)) in
  whole_event e /\ ev_type e = h_type h /\ ev_misc e = h_misc h /\ ev_size e = h_size h /\
  header_at false e 0 = h /\ (sw = false -> e = slice b o (h_size h)) /\
  (forall p k, 8 <= p -> p + k <= h_size h -> slice e p k = slice b (o + p) k).
Proof.
  intros Hb H8 Hl e.
  assert (B1 : h_type h < two32) by apply (int_at_bound _ _ _ 4 Hb).
  assert (B2 : h_misc h < two16) by apply (int_at_bound _ _ _ 2 Hb).
  assert (B3 : h_size h < two16) by apply (int_at_bound _ _ _ 2 Hb).
  assert (Lp : len (slice b (o + 8) (h_size h - 8)) = h_size h - 8) by (apply len_slice; lia).
  destruct (new_block_ok h (slice b (o + 8) (h_size h - 8)) B1 B2 (conj H8 B3)
              (bytes_ok_slice _ _ _ Hb) Lp) as (W & T1 & T2 & T3 & L).
  fold e in W, T1, T2, T3, L.
  assert (S8 : forall p k, 8 <= p -> p + k <= h_size h -> slice e p k = slice b (o + p) k).
  { intros p k Hp Hk. unfold e, new_block.
    set (hd := le_bytes 4 (h_type h) ++ le_bytes 2 (h_misc h) ++ le_bytes 2 (h_size h)).
    replace (_ ++ _ ++ _ ++ slice b (o + 8) (h_size h - 8)) with (hd ++ slice b (o + 8) (h_size h - 8))
      by (unfold hd; now rewrite <- !app_assoc).
    assert (Lh : len hd = 8) by (unfold hd; rewrite !len_app, !len_le_bytes; reflexivity).
    unfold slice at 1. unfold len in Lh. rewrite skipn_app.
    replace (skipn (N.to_nat p) hd) with (@nil N) by (symmetry; apply skipn_all2; lia).
    cbn [app]. replace (N.to_nat p - length hd)%nat with (N.to_nat (p - 8)) by lia.
    change (slice (slice b (o + 8) (h_size h - 8)) (p - 8) k = slice b (o + p) k).
    rewrite slice_slice by lia. f_equal. lia. }
  split; [exact W|]. split; [exact T1|]. split; [exact T2|]. split; [exact T3|].
  split.
  { unfold header_at at 1. unfold int_at. cbn [N.of_nat].
    change (mkHdr (ev_type e) (ev_misc e) (ev_size e) = h). rewrite T1, T2, T3. now destruct h. }
  split; [|exact S8].
  intros ->. unfold e, new_block.
  assert (P : slice b o (h_size h) = slice b o 8 ++ slice b (o + 8) (h_size h - 8)).
  { unfold slice. replace (N.to_nat (h_size h)) with (N.to_nat 8 + N.to_nat (h_size h - 8))%nat by lia.
    rewrite firstn_add'. f_equal. rewrite skipn_skipn'. f_equal. f_equal. lia. }
  rewrite P. rewrite !app_assoc. f_equal. rewrite <- app_assoc.
  assert (Q : slice b o 8 = slice b o 4 ++ slice b (o + 4) 2 ++ slice b (o + 6) 2).
  { unfold slice. change (N.to_nat 8) with (4 + (2 + 2))%nat. rewrite !firstn_add'. f_equal.
    rewrite !skipn_skipn'. f_equal; f_equal; f_equal; lia. }
  rewrite Q.
  assert (R : forall p n, p + N.of_nat n <= len b -> le_bytes n (of_le (slice b p (N.of_nat n))) = slice b p (N.of_nat n)).
  { intros p n Hp. rewrite <- (le_bytes_of_le (slice b p (N.of_nat n))) at 2; [|now apply bytes_ok_slice].
    f_equal. assert (X := len_slice b p (N.of_nat n) Hp). unfold len in X. lia. }
  unfold h, header_at, int_at. cbn [h_type h_misc h_size].
  rewrite !R by (cbn; lia). reflexivity.
Qed.
