(** Making an event of a message leaves its header and its length alone. *)
From Verif Require Import Base BytesModel BytesProofs BytesMoreProofs BufferModel BufferProofs EventSizeModel
  EventSizeProofs TextModel SampleModel SampleProofs FileModel SerializerModel SerializerProofs SerializerLastKindProofs.
Local Open Scope N_scope.

(** Same length, same first eight bytes. *)
Definition same_head (e e' : list N) : Prop := len e' = len e /\ firstn 8 e' = firstn 8 e.

Lemma same_head_refl e : same_head e e.
Proof. split; reflexivity. Qed.
Lemma same_head_trans a b c : same_head a b -> same_head b c -> same_head a c.
Proof. intros [A1 A2] [B1 B2]. split; congruence. Qed.

Lemma firstn_slice8 (e : list N) o n : o + n <= 8 -> slice e o n = slice (firstn 8 e) o n.
Proof.
  intros H. unfold slice. rewrite skipn_firstn_comm, firstn_firstn. f_equal. lia.
Qed.
Lemma head_type e e' : same_head e e' -> ev_type e' = ev_type e.
Proof. intros [_ H]. unfold ev_type. rewrite (firstn_slice8 e), (firstn_slice8 e') by lia. now rewrite H. Qed.
Lemma head_size e e' : same_head e e' -> ev_size e' = ev_size e.
Proof. intros [_ H]. unfold ev_size. rewrite (firstn_slice8 e), (firstn_slice8 e') by lia. now rewrite H. Qed.

Lemma mem_write_len e off d e' : mem_write e off d = Ok e' -> len e' = len e /\ off + len d <= len e.
Proof.
  unfold mem_write. destruct (N.leb_spec (off + len d) (len e)); [|discriminate].
  intros H'. injection H' as <-. split; [|assumption].
  rewrite !len_app, len_firstn, len_skipn by lia. lia.
Qed.
Lemma mem_write_head e off d e' : mem_write e off d = Ok e' -> 8 <= off -> same_head e e'.
Proof.
  intros H Ho. split; [now apply mem_write_len in H|].
  unfold mem_write in H. destruct (N.leb_spec (off + len d) (len e)); [|discriminate]. injection H as <-.
  rewrite firstn_app, firstn_firstn. rewrite firstn_length.
  replace (Nat.min 8 (N.to_nat off)) with 8%nat by lia.
  assert (L : (8 - Nat.min (N.to_nat off) (length e))%nat = O) by (unfold len in *; lia).
  rewrite L. cbn [firstn]. apply app_nil_r.
Qed.

Lemma stores_head l : forall e e', stores e l = Ok e' -> Forall (fun x => 8 <= fst x) l -> same_head e e'.
Proof.
  induction l as [|(o, d) l IH]; intros e e' H F; cbn [stores] in H.
  - injection H as <-. apply same_head_refl.
  - inversion F as [|? ? F1 F2]; subst. destruct (mem_write e o d) as [e1| | | |] eqn:M; try discriminate.
    cbn [obind] in H. apply mem_write_head in M; [|exact F1].
    eapply same_head_trans; [exact M|]. now apply IH.
Qed.

Lemma each_offsets {A} (f : N -> A -> list (N * list N)) size l : forall off,
  8 <= off -> (forall o x, 8 <= o -> Forall (fun y => 8 <= fst y) (f o x)) ->
  Forall (fun y => 8 <= fst y) (each off size f l).
Proof.
  induction l as [|x l IH]; intros off H F; cbn [each]; [constructor|].
  apply Forall_app. split; [now apply F|]. apply IH; [lia|exact F].
Qed.

Lemma variable_le e rem v : variable_payload e rem = Ok v -> v <= rem.
Proof.
  unfold variable_payload. destruct (variable_payload_of e rem) as [n| | | |] eqn:V; cbn [obind]; try discriminate.
  destruct (negb (n mod 8 =? 0)); [discriminate|]. intros H. injection H as <-.
  revert V. unfold variable_payload_of. cbv zeta.
  assert (T : forall off max, ev_text e off max = Ok n -> n <= max).
  { intros off max. unfold ev_text. destruct (ev_strnlen e off max) as [k| | | |]; cbn [obind]; try discriminate.
    destruct (k =? max); [discriminate|]. cbv zeta. destruct (N.ltb_spec max (aligned_string_length k)); [discriminate|].
    intros H'. injection H' as <-. assumption. }
  assert (X : forall c en, exact_entries e c en rem = Ok n -> n <= rem).
  { intros c en. unfold exact_entries. destruct (ev_u64 e c) as [k| | | |]; cbn [obind]; try discriminate.
    destruct (negb (k =? rem / en)); [discriminate|]. cbv zeta.
    destruct (N.eqb_spec (w64 (k * en)) rem) as [E|]; cbn [negb]; [|discriminate].
    intros H'. injection H' as <-. lia. }
  repeat match goal with |- (if ?b then _ else _) = _ -> _ => destruct b end; intros H;
    try discriminate; try (apply T in H; lia); try (apply X in H; exact H); try (injection H as <-; lia).
  - destruct (ev_u64 e 16) as [k| | | |]; cbn [obind] in H; try discriminate.
    destruct (N.ltb_spec (rem / 16) k); [discriminate|]. injection H as <-. unfold w64, two64. lia.
  - destruct (ev_text e 40 (N.min rem 64)) as [k| | | |] eqn:T1; cbn [obind] in H; try discriminate.
    destruct (N.eqb_spec k rem) as [-> |]; cbn [negb] in H; [|discriminate]. injection H as <-. lia.
  - destruct (exact_entries e 8 24 rem) as [k| | | |] eqn:T1; cbn [obind] in H; try discriminate.
    destruct (ev_u64 e 8) as [k2| | | |]; cbn [obind] in H; try discriminate.
    destruct (thread_names e 0 (N.to_nat k2)) as [k3| | | |]; cbn [obind] in H; try discriminate.
    injection H as ->. now apply (X 8 24).
  - destruct (ev_u64 e 520) as [k| | | |]; cbn [obind] in H; try discriminate.
    destruct (N.ltb_spec rem (w64 (k * 320))); [discriminate|]. injection H as <-. lia.
Qed.

Lemma data_size_from8 e n : event_data_size e = Ok n -> ev_size e < two64 -> 8 <= n.
Proof.
  unfold event_data_size. destruct (fixed_payload (ev_type e)) as [f|] eqn:F; [|discriminate].
  assert (8 <= f).
  { revert F. unfold fixed_payload.
    repeat match goal with |- (if ?b then _ else _) = _ -> _ => destruct b end; intros H; inversion H; lia. }
  destruct (N.ltb_spec (ev_size e) f); [discriminate|].
  destruct (variable_payload e (ev_size e - f)) as [v| | | |] eqn:V; cbn [obind]; try discriminate.
  apply variable_le in V. intros E Hs. injection E as <-. rewrite w64_small; unfold two64 in *; lia.
Qed.

Lemma store_chunks_head cs : forall e pos e' pos', Forall wfc cs -> 8 <= pos -> len e < two32 ->
  store_chunks e pos cs = Ok (e', pos') -> same_head e e'.
Proof.
  induction cs as [|c cs IH]; intros e pos e' pos' F Hp Hl H; cbn [store_chunks] in H.
  - injection H as <- _. apply same_head_refl.
  - inversion F as [|? ? (W1 & W2 & W3) F2]; subst.
    destruct (mem_write e pos (ck_bytes c)) as [e1| | | |] eqn:M; cbn [obind] in H; try discriminate.
    assert (L := mem_write_len _ _ _ _ M). apply mem_write_head in M; [|exact Hp].
    eapply same_head_trans; [exact M|]. eapply IH; [exact F2| | |exact H].
    + rewrite w64_small; [lia|]. unfold two64, two32 in *. lia.
    + destruct M as [-> _]. exact Hl.
Qed.

Lemma put_info_head a p e e' : len (s_raw p) < 2 ^ 30 -> len e < two32 -> ev_size e < two64 ->
  put_info a p e = Ok e' -> same_head e e'.
Proof.
  intros Hr Hl Hs. unfold put_info, write_sample_info.
  destruct (negb (supported_type (ev_type e))); [discriminate|].
  destruct (event_data_size e) as [off| | | |] eqn:D; try discriminate.
  destruct (write_chunks a (ev_type e) p) as [cs| | | |] eqn:C; cbn [obind]; try discriminate.
  destruct (store_chunks e (8 * (off / 8)) cs) as [(e1, pos)| | | |] eqn:S; cbn [obind]; try discriminate.
  destruct (negb _); [discriminate|]. destruct (_ =? ev_size e); [|discriminate]. intros H. injection H as <-.
  apply data_size_from8 in D; [|exact Hs]. apply wf_chunks in C; [|exact Hr].
  eapply store_chunks_head; [exact C| |exact Hl|exact S]. lia.
Qed.

(** Names for the sample a message gives. *)
Lemma info_sample_raw i p : info_sample i = Ok p -> s_raw p = [].
Proof.
  unfold info_sample. destruct (xi_pid i), (xi_tid i); try discriminate; intros H; injection H as <-;
  destruct (xi_time i), (xi_id i), (xi_cpu i), (xi_stream i); reflexivity.
Qed.

(** The raw data of a sample is no longer than an event. *)
Definition short_raw (m : x_sample) : Prop := len (xsa_raw m) < two16 /\ xsa_raw_size m < two16.

Lemma set_raw_raw d p : s_raw (set_raw d p) = d.
Proof. destruct p; reflexivity. Qed.
Lemma no_hw_raw b p : s_raw (set_no_hw_idx b p) = s_raw p.
Proof. destruct p; reflexivity. Qed.
Lemma branch_raw b p : s_raw (set_branch b p) = s_raw p.
Proof. destruct p; reflexivity. Qed.
Lemma sample_of_raw s m p : short_raw m -> sample_of s m = Ok p -> len (s_raw p) < 2 ^ 30.
Proof.
  intros [R1 R2].
  assert (B : 2 ^ 30 = 1073741824) by reflexivity. unfold two16 in *.
  unfold sample_of. cbv zeta.
  destruct (match xsa_pid m with Some _ => match xsa_tid m with None => true | _ => false end | None => false end) eqn:C.
  { destruct (xsa_pid m), (xsa_tid m); discriminate. }
  set (k := match xsa_branch m, xsa_hw_idx m with [], _ => _ | _, _ => _ end).
  assert (K : forall q, k = Ok q -> len (s_raw q) < 2 ^ 30).
  { subst k. intros q.
    match goal with |- context[set_no_hw_idx ?b ?x] => set (q0 := set_no_hw_idx b x) end.
    assert (L : len (s_raw q0) < 2 ^ 30).
    { subst q0. destruct (xsa_raw m) as [|r rs] eqn:E; rewrite no_hw_raw, set_raw_raw.
      - unfold len. rewrite repeat_length. lia.
      - lia. }
    destruct (xsa_branch m); [intros H; injection H as <-; exact L|].
    destruct (xsa_hw_idx m); [intros H; injection H as <-; rewrite branch_raw; exact L|].
    match goal with |- (if ?b then _ else _) = _ -> _ => destruct b end; [|discriminate].
    intros H. injection H as <-. rewrite branch_raw. exact L. }
  clearbody k.
  intros H.
  assert (G : exists q, k = Ok q /\ s_raw p = s_raw q).
  { destruct (xsa_pid m), (xsa_tid m); try discriminate;
    (destruct k as [q| | | |]; cbn [obind] in H; try discriminate; exists q; split; [reflexivity|];
     injection H as <-;
     destruct (xsa_weight m), (xsa_weight_struct m) as [((?, ?), ?)|], (xsa_data_src m), (xsa_transaction m),
       (xsa_phys m), (xsa_cgroup m), (xsa_data_page m), (xsa_code_page m); destruct q; reflexivity). }
  destruct G as (q & G1 & ->). now apply K.
Qed.

(** ** What each kind of event stores *)
Definition keeps (f : list N -> outcome (list N)) : Prop :=
  forall e e', len e < two32 -> ev_size e < two64 -> f e = Ok e' -> same_head e e'.

Lemma keeps_info s i : keeps (des_info s i).
Proof.
  intros e e' Hl Hs. unfold des_info. destruct (negb _); [intros H; injection H as <-; apply same_head_refl|].
  destruct (info_sample i) as [p| | | |] eqn:P; cbn [obind]; try discriminate.
  destruct (reader_for_id s (s_id p)) as [a|]; [|discriminate].
  apply put_info_head; [|exact Hl|exact Hs]. rewrite (info_sample_raw _ _ P). reflexivity.
Qed.

Lemma keeps_stores l : Forall (fun x => 8 <= fst x) l -> keeps (fun e => stores e l).
Proof. intros F e e' _ _ H. now apply (stores_head l). Qed.

Lemma keeps_then f g : keeps f -> keeps g -> keeps (fun e => obind (f e) g).
Proof.
  intros F G e e' Hl Hs H. destruct (f e) as [e1| | | |] eqn:E; cbn [obind] in H; try discriminate.
  apply F in E; try assumption. eapply same_head_trans; [exact E|]. apply G.
  - destruct E as [-> _]. exact Hl.
  - rewrite (head_size _ _ E). exact Hs.
  - exact H.
Qed.
Lemma keeps_ret : keeps Ok.
Proof. intros e e' _ _ H. injection H as <-. apply same_head_refl. Qed.

Ltac offsets :=
  repeat first
    [ apply Forall_app; split
    | apply each_offsets; [lia|intros ? ? ?]
    | apply Forall_cons; [cbn [fst u64_at u32_at u16_at u8_at]; unfold u64_at, u32_at, u16_at, u8_at; cbn [fst]; lia|]
    | apply Forall_nil ].
Ltac kept := repeat first [ apply keeps_info | apply keeps_stores; offsets | apply keeps_ret | apply keeps_then ].

Lemma keeps_sample s m : short_raw m -> keeps (des_sample s m).
Proof.
  intros R e e' Hl Hs. unfold des_sample. destruct (sample_of s m) as [p| | | |] eqn:P; cbn [obind]; try discriminate.
  destruct (reader_for_id s (s_id p)) as [a|]; [|discriminate].
  apply put_info_head; [|exact Hl|exact Hs]. eapply sample_of_raw; eauto.
Qed.

Lemma keeps_mmap2 s m : keeps (des_mmap2 s m).
Proof.
  unfold des_mmap2. apply (keeps_then (fun e => stores e _)); [kept|].
  apply (keeps_then (fun e => match xm_build_id m with Some id => _ | None => _ end)).
  - destruct (xm_build_id m) as [id|]; [|kept]. destruct (hex_to_raw id (repeat 0 20)) as [ok b].
    destruct (_ && _ && _); [kept|]. intros ? ? _ _ H. discriminate.
  - apply (keeps_then (fun e => stores e _)); kept.
Qed.

Lemma keeps_aux s m : keeps (des_aux s m).
Proof.
  unfold des_aux. apply (keeps_then (fun e => stores e _)); [kept|].
  intros e e' Hl Hs H. destruct (num e 24 8) as [o| | | |]; cbn [obind] in H; try discriminate.
  revert H. pose (v := N.lor (N.lor (N.lor o (bit_of (xa_truncated m) 0)) (bit_of (xa_overwrite m) 1)) (bit_of (xa_partial m) 2)).
  apply (keeps_then (fun e => stores e [u64_at 24 v]) (des_info s (xa_info m))); kept; assumption.
Qed.

Lemma keeps_switch s m : keeps (des_switch s m).
Proof.
  unfold des_switch. apply (keeps_then (fun e => if ev_type e =? R_SWITCH_CPU_WIDE then _ else _)); [|kept].
  intros e e' Hl Hs. destruct (ev_type e =? R_SWITCH_CPU_WIDE).
  - apply keeps_stores; [offsets|exact Hl|exact Hs].
  - intros H. injection H as <-. apply same_head_refl.
Qed.

Lemma keeps_time_conv m : keeps (des_time_conv m).
Proof.
  unfold des_time_conv. apply (keeps_then (fun e => stores e _)); [kept|]. destruct (xtc_cycles m); kept.
Qed.

Lemma keeps_fail : keeps (fun _ => Fail).
Proof. intros e e' _ _ H. discriminate. Qed.

Lemma keeps_user ord s x : keeps (des_user ord s x).
Proof.
  unfold des_user. cbv zeta.
  repeat match goal with |- keeps (fun e => if ?b then _ else _) => destruct b end; try apply keeps_fail;
    try apply keeps_ret; try apply keeps_time_conv;
    first [ apply (keeps_stores (_ :: _)); offsets | apply (keeps_then (fun e => stores e _)); kept | idtac ].
Qed.

(** ** The whole event *)
Lemma header_stored x e :
  stores (repeat 0 (N.to_nat (xe_size x))) [u32_at 0 (xe_type x); u16_at 4 (xe_misc x); u16_at 6 (xe_size x)] = Ok e ->
  len e = xe_size x /\ ev_size e = w16 (xe_size x) /\ slice e 6 2 = le_bytes 2 (xe_size x).
Proof.
  cbn [stores]. unfold u32_at, u16_at.
  destruct (mem_write _ 0 _) as [e1| | | |] eqn:M1; cbn [obind]; try discriminate.
  destruct (mem_write e1 4 _) as [e2| | | |] eqn:M2; cbn [obind]; try discriminate.
  destruct (mem_write e2 6 _) as [e3| | | |] eqn:M3; cbn [obind]; try discriminate.
  intros H. injection H as <-.
  assert (L1 := mem_write_len _ _ _ _ M1). assert (L2 := mem_write_len _ _ _ _ M2).
  assert (L3 := mem_write_len _ _ _ _ M3).
  assert (L0 : len (repeat 0 (N.to_nat (xe_size x))) = xe_size x) by (unfold len; rewrite repeat_length; lia).
  rewrite !len_le_bytes in *.
  assert (S : slice e3 6 2 = le_bytes 2 (xe_size x)).
  { unfold mem_write in M3. rewrite len_le_bytes in M3. destruct (N.leb_spec (6 + N.of_nat 2) (len e2)); [|discriminate].
    apply Ok_inj in M3. subst e3. rewrite (slice_app (firstn (N.to_nat 6) e2)); [reflexivity| |].
    - rewrite len_firstn by lia. reflexivity.
    - rewrite len_le_bytes. reflexivity. }
  split; [lia|]. split; [|exact S]. unfold ev_size. rewrite S. unfold w16, two16. rewrite of_le_le_bytes_mod. reflexivity.
Qed.

Definition short_sample (x : x_event) : Prop := xe_type x = R_SAMPLE -> short_raw (get_sample (xe_body x)).

Lemma kernel_kept s x e e' : short_sample x -> x_size s x = Ok (xe_size x) -> len e < two32 -> ev_size e < two64 ->
  slice e 6 2 = le_bytes 2 (xe_size x) -> 8 <= len e ->
  des_kernel s x e = Ok e' -> same_head e e'.
Proof.
  intros R X Hl Hs S L8. unfold des_kernel. cbv zeta.
  destruct (N.eqb_spec (xe_type x) R_SAMPLE) as [T|_]; [apply keeps_sample; auto|].
  destruct (xe_type x =? R_MMAP); [apply (keeps_then (fun e => stores e _)); kept; assumption|].
  destruct (xe_type x =? R_MMAP2); [apply keeps_mmap2; assumption|].
  destruct (xe_type x =? R_COMM).
  { rewrite X. cbn [obind stores]. unfold u16_at at 1.
    rewrite mem_write_same; [cbn [obind]|rewrite len_le_bytes; lia|rewrite len_le_bytes; exact S].
    apply (keeps_then (fun e => stores e _)); kept; assumption. }
  destruct (xe_type x =? R_EXIT).
  { destruct (xe_body x); try discriminate; apply (keeps_then (fun e => stores e _)); kept; assumption. }
  repeat match goal with |- (if ?b then _ else _) = _ -> _ => destruct b end; try discriminate;
   lazymatch goal with
   | |- des_aux _ _ _ = _ -> _ => apply keeps_aux; assumption
   | |- des_switch _ _ _ = _ -> _ => apply keeps_switch; assumption
   | |- ?f _ _ _ = _ -> _ => unfold f; apply (keeps_then (fun e => stores e _)); kept; assumption
   end.
Qed.

Lemma deserialize_size ord s x e : short_sample x -> x_size s x = Ok (xe_size x) -> xe_size x < two16 ->
  deserialize ord s x = Ok e -> len e = xe_size x /\ ev_size e = xe_size x.
Proof.
  intros R X Hs. unfold deserialize. cbv zeta.
  destruct (stores _ _) as [e1| | | |] eqn:E; cbn [obind]; try discriminate.
  assert (H := header_stored _ _ E). destruct H as (H1 & H2 & H3).
  assert (L8 : 8 <= len e1).
  { cbn [stores] in E. unfold u32_at, u16_at in E.
    destruct (mem_write _ 0 _) as [a1| | | |] eqn:M1; cbn [obind] in E; try discriminate.
    destruct (mem_write a1 4 _) as [a2| | | |] eqn:M2; cbn [obind] in E; try discriminate.
    destruct (mem_write a2 6 _) as [a3| | | |] eqn:M3; cbn [obind] in E; try discriminate.
    injection E as <-. assert (L3 := mem_write_len _ _ _ _ M3). rewrite len_le_bytes in L3. lia. }
  assert (B1 : len e1 < two32) by (unfold two16, two32 in *; lia).
  assert (B2 : ev_size e1 < two64) by (rewrite H2; unfold w16, two16, two64 in *; lia).
  assert (W : w16 (xe_size x) = xe_size x) by (unfold w16; apply N.mod_small; exact Hs).
  intros D.
  assert (K : same_head e1 e).
  { destruct (64 <=? xe_type x); [now apply (keeps_user ord s x)|now apply (kernel_kept s x)]. }
  split; [destruct K as [-> _]; exact H1|]. rewrite (head_size _ _ K). congruence.
Qed.
