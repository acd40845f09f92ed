(** The other types. *)
From Verif Require Import Base BytesModel BytesProofs BytesMoreProofs BufferModel EventSizeModel
  EventSizeSpec EventSizeProofs TextModel TextProofs SampleModel SampleSpec SampleProofs SampleReadProofs
  SampleSafeProofs SampleMainProofs FileModel FileProofs SerializerModel SerializerSpec
  SerializerProofs SerializerSizeProofs SerializerSampleProofs SerializerMessageProofs
  SerializerSampleOfProofs SerializerBackProofs SerializerKindProofs.
From Coq Require Import Permutation.
Local Open Scope N_scope.

(** ** Arrays *)
Lemma entries_stored {A} e (f : N -> outcome A) g h off size nr l :
  entries_of e off size nr f = Ok l ->
  (forall i x, i < nr -> f (off + size * i) = Ok x ->
    Forall (copied e) (g (off + size * i) x) /\ map range (g (off + size * i) x) = h (off + size * i)) ->
  len l = nr /\ Forall (copied e) (each off size g l) /\
  map range (each off size g l) = entry_fields h off size (N.to_nat nr).
Proof.
  unfold entries_of. destruct (len e <? off + size * nr); [discriminate|]. intros H G.
  destruct (entries_each e f g h size (N.to_nat nr) off l H) as (E1 & E2 & E3).
  - intros i x Hi. apply G. lia.
  - rewrite N2Nat.id in E1. auto.
Qed.

Ltac entry :=
  let i := fresh "i" in let x := fresh "x" in let Hi := fresh in let Hf := fresh "Hf" in
  intros i x Hi Hf; peel Hf; apply Ok_inj in Hf; subst x; cbn [fst snd];
  split; [copies|cbn [map]; ranges].

Lemma count_copied e o n : bytes_ok e = true -> o + 8 <= len e -> n = number_at e o -> copied e (u64_at o n).
Proof. intros Hb L ->. unfold u64_at, number_at. now apply copied_num. Qed.

Lemma namespaces_back s e off m :
  native s -> readable_event s e off -> cpu_clear s e off -> ev_type e = R_NAMESPACES ->
  ser_namespaces s e = Ok m -> back s off e (let! b := block e in des_namespaces s m b).
Proof.
  intros Hn R Hc Et Hm. assert (Hb : bytes_ok e = true) by apply R.
  unfold ser_namespaces in Hm. peel Hm. apply obind_ok in Hm as (ls & Hl & Hm). apply obind_ok in Hm as (i & Hi & Hm).
  apply Ok_inj in Hm. subst m. unfold des_namespaces. cbn [xn_pid xn_tid xn_links xn_info].
  destruct (entries_stored e _ (fun o l => [u64_at o (fst l); u64_at (o + 8) (snd l)])
              (fun o => [(o, 8); (o + 8, 8)]) _ _ _ _ Hl) as (E1 & E2 & E3); [entry|].
  assert (CC := count_copied e 16 (len ls) Hb L1 E1).
  rewrite stores_then; [apply des_info_back; auto; other_type Et|].
  apply stores_fields; [apply R|split; other_type Et| |].
  - fields_of Et. rewrite map_app, E3. unfold array_fields. cbn [map app]. ranges.
  - apply Forall_app. split; [copies|exact E2].
Qed.

(** Events that are never followed by a sample id. *)
Lemma stores_only e off s l :
  readable_event s e off -> contains_info s (ev_type e) = false ->
  stores (repeat 0 (N.to_nat (len e))) (header_of e ++ l) = Ok (clean e) ->
  back s off e (let! b := block e in stores b l).
Proof.
  intros R C H. assert (X := stores_then e l (fun b => Ok b) H). cbn beta in X.
  replace (let! b := block e in stores b l) with (Ok (clean e)); [now apply clean_back|].
  rewrite <- X. destruct (block e) as [b| | | |]; cbn [obind]; auto. destruct (stores b l); reflexivity.
Qed.

Lemma no_info s ty : ty <> R_SAMPLE -> supported_type ty = false -> contains_info s ty = false.
Proof. intros H1 H2. unfold contains_info. rewrite H2. destruct (N.eqb_spec ty R_SAMPLE); [contradiction|reflexivity]. Qed.

Ltac user_event Et R :=
  apply stores_only; [exact R|apply no_info; rewrite Et; [discriminate|reflexivity]|];
  apply stores_fields; [apply R|split; other_type Et| |].

Lemma auxtrace_back s e off m :
  readable_event s e off -> ev_type e = R_AUXTRACE -> ser_auxtrace e = Ok m ->
  back s off e (let! b := block e in des_auxtrace m b).
Proof.
  intros R Et Hm. assert (Hb : bytes_ok e = true) by apply R. unfold ser_auxtrace in Hm. peel Hm.
  apply Ok_inj in Hm. subst m. unfold des_auxtrace.
  cbn [xat_size xat_offset xat_reference xat_idx xat_tid xat_cpu].
  user_event Et R; [fields_of Et; cbn [map]; ranges|copies].
Qed.

Lemma stat_back s e off m :
  readable_event s e off -> ev_type e = R_STAT -> ser_stat e = Ok m ->
  back s off e (let! b := block e in des_stat m b).
Proof.
  intros R Et Hm. assert (Hb : bytes_ok e = true) by apply R. unfold ser_stat in Hm. peel Hm.
  apply Ok_inj in Hm. subst m. unfold des_stat.
  cbn [xst_id xst_cpu xst_thread xst_value xst_enabled xst_running].
  user_event Et R; [fields_of Et; cbn [map]; ranges|copies].
Qed.

Lemma stat_round_back s e off m :
  readable_event s e off -> ev_type e = R_STAT_ROUND -> ser_stat_round e = Ok m ->
  back s off e (let! b := block e in des_stat_round (fst m, snd m) b).
Proof.
  intros R Et Hm. assert (Hb : bytes_ok e = true) by apply R. unfold ser_stat_round in Hm. peel Hm.
  apply Ok_inj in Hm. subst m. unfold des_stat_round. cbn [fst snd].
  user_event Et R; [fields_of Et; cbn [map]; ranges|copies].
Qed.

Lemma stat_config_back s e off m :
  readable_event s e off -> ev_type e = R_STAT_CONFIG -> ser_stat_config e = Ok m ->
  back s off e (let! b := block e in des_stat_config m b).
Proof.
  intros R Et Hm. assert (Hb : bytes_ok e = true) by apply R. unfold ser_stat_config in Hm. peel Hm.
  unfold des_stat_config.
  destruct (entries_stored e _ (fun o x => [u64_at o (fst x); u64_at (o + 8) (snd x)])
              (fun o => [(o, 8); (o + 8, 8)]) _ _ _ _ Hm) as (E1 & E2 & E3); [entry|].
  assert (CC := count_copied e 8 (len m) Hb L E1).
  user_event Et R; [|constructor; assumption].
  fields_of Et. unfold array_fields. cbn [map]. rewrite E3. ranges.
Qed.

Lemma id_index_back s e off m :
  readable_event s e off -> ev_type e = R_ID_INDEX -> ser_id_index e = Ok m ->
  back s off e (let! b := block e in des_id_index m b).
Proof.
  intros R Et Hm. assert (Hb : bytes_ok e = true) by apply R. unfold ser_id_index in Hm. peel Hm.
  unfold des_id_index.
  destruct (entries_stored e _ (fun o x => [u64_at o (xie_id x); u64_at (o + 8) (xie_idx x);
                                       u64_at (o + 16) (xie_cpu x); u64_at (o + 24) (xie_tid x)])
              (fun o => [(o, 8); (o + 8, 8); (o + 16, 8); (o + 24, 8)]) _ _ _ _ Hm) as (E1 & E2 & E3).
  { intros i x Hi Hf. peel Hf. apply Ok_inj in Hf. subst x. cbn [xie_id xie_idx xie_cpu xie_tid].
    split; [copies|cbn [map]; ranges]. }
  assert (CC := count_copied e 8 (len m) Hb L E1).
  user_event Et R; [|constructor; assumption].
  fields_of Et. unfold array_fields. cbn [map]. rewrite E3. ranges.
Qed.

Lemma auxinfo_back s e off m :
  readable_event s e off -> ev_type e = R_AUXTRACE_INFO -> ser_auxinfo e = Ok m ->
  back s off e (let! b := block e in des_auxinfo m b).
Proof.
  intros R Et Hm. assert (Hb : bytes_ok e = true) by apply R. unfold ser_auxinfo in Hm. peel Hm.
  apply obind_ok in Hm as (l & Hl & Hm). apply Ok_inj in Hm. subst m. unfold des_auxinfo. cbn [xai_type xai_priv].
  assert (Sz : 16 <= ev_size e /\ ev_size e < two16).
  { assert (D := re_data _ _ _ R). rewrite (auxtrace_info_size e (re_raw _ _ _ R) Et) in D.
    split; [|apply (ev_size_bound e Hb)].
    destruct (N.leb_spec 16 (ev_size e)); [assumption|discriminate]. }
  rewrite sub64_small in Hl by (unfold two16, two64 in *; lia).
  destruct (entries_stored e _ (fun o v => [u64_at o v]) (fun o => [(o, 8)]) _ _ _ _ Hl) as (E1 & E2 & E3).
  { intros i x Hi Hf. apply num_ok in Hf as (Lf & ->). split; [copies|cbn [map]; ranges]. }
  user_event Et R.
  - fields_of Et. cbn [map]. rewrite E3. ranges.
  - constructor; [apply copied_num; auto|exact E2].
Qed.

(** ** Texts in arrays *)
Lemma strnlen_in n : forall d, In 0 (firstn n d) -> strnlen d < N.of_nat n.
Proof.
  induction n as [|n IH]; intros d; [intros []|]. destruct d as [|b d]; [intros []|]. cbn [firstn strnlen].
  destruct (N.eqb_spec b 0) as [->|Hb]; [lia|]. intros [X|X]; [congruence|]. specialize (IH d X). lia.
Qed.

Lemma text_short e o t n : text_read e o t -> In 0 (slice e o n) -> len t < n.
Proof.
  intros [A B C] H. unfold slice in H. apply strnlen_in in H. cbn [text_field snd] in B. lia.
Qed.

Lemma thread_map_back s e off m :
  readable_event s e off -> ev_type e = R_THREAD_MAP -> ser_thread_map e = Ok m ->
  back s off e (let! b := block e in des_thread_map m b).
Proof.
  intros R Et Hm. assert (Hb : bytes_ok e = true) by apply R. unfold ser_thread_map in Hm. peel Hm.
  unfold des_thread_map. assert (D := re_data _ _ _ R).
  apply (array_event_size e R_THREAD_MAP 8 16 24 off (re_raw _ _ _ R)) in D as (_ & _ & NT); auto; [|cbn; auto].
  specialize (NT eq_refl). unfold names_terminated in NT. unfold number_at in NT.
  destruct (entries_stored e _ (fun o x => [u64_at o (fst x); (o + 8, snprintf 16 (snd x))])
              (fun o => [(o, 8); text_field e (o + 8)]) _ _ _ _ Hm) as (E1 & E2 & E3).
  { intros i x Hi Hf. peel Hf. peel_text Hf. apply Ok_inj in Hf. subst x. cbn [fst snd].
    destruct (text_store e (16 + 24 * i + 8) txt 16 X) as (T1 & T2).
    { apply (text_short e (16 + 24 * i + 8)); auto. }
    split; [copies|]. cbn [map]. rewrite T2. ranges. }
  assert (CC := count_copied e 8 (len m) Hb L E1).
  user_event Et R; [|constructor; assumption].
  fields_of Et. unfold array_fields. cbn [map]. rewrite E3. ranges.
Qed.

Lemma auxerror_back s e off m :
  readable_event s e off -> ev_type e = R_AUXTRACE_ERROR -> ser_auxerror e = Ok m ->
  back s off e (let! b := block e in des_auxerror m b).
Proof.
  intros R Et Hm. assert (Hb : bytes_ok e = true) by apply R. unfold ser_auxerror in Hm. peel Hm. cbv zeta in Hm.
  assert (D := re_data _ _ _ R). apply (auxtrace_error_size e off (re_raw _ _ _ R) Et) in D as (_ & Sz & T).
  assert (Le := re_len _ _ _ R). assert (S16 := ev_size_bound e Hb).
  rewrite sub64_small in Hm by (unfold two16, two64 in *; lia).
  rewrite ev_strnlen_ok in Hm by lia. cbn [obind] in Hm.
  destruct T as (t & T1 & T2 & T3 & T4).
  set (mx := N.min 64 (ev_size e - 40)) in *.
  assert (Lt : len t + 1 <= mx) by (unfold mx; lia).
  assert (En : strnlen (slice e 40 mx) = len t).
  { rewrite <- (firstn_skipn (N.to_nat (len t + 1)) (slice e 40 mx)).
    rewrite slice_firstn by exact Lt. rewrite T2, <- app_assoc. now apply strnlen_app. }
  rewrite En in Hm. apply obind_ok in Hm as (msg & Hr & Hm). apply Ok_inj in Hm. subst m.
  assert (msg = t).
  { unfold mem_read in Hr. destruct (N.leb_spec (40 + len t) (len e)); [|discriminate]. apply Ok_inj in Hr. subst msg.
    assert (X := f_equal (firstn (length t)) T2). rewrite firstn_app, Nat.sub_diag, firstn_all, firstn_O, app_nil_r in X.
    rewrite <- X at 2. replace (length t) with (N.to_nat (len t)) by apply to_nat_len.
    symmetry. apply slice_firstn. lia. }
  subst msg.
  assert (TR : text_read e 40 t).
  { constructor; [exact T1| |].
    - cbn [text_field snd]. f_equal.
      rewrite <- (firstn_skipn (N.to_nat (len t + 1)) (skipn (N.to_nat 40) e)).
      unfold slice in T2. rewrite T2, <- app_assoc. symmetry. now apply strnlen_app.
    - unfold copied. cbn [fst snd]. rewrite len_app. change (len [0]) with 1. split; [lia|exact T2]. }
  destruct (text_store e 40 t 64 TR) as (S1 & S2); [lia|].
  unfold des_auxerror. cbn [xer_type xer_code xer_cpu xer_pid xer_tid xer_ip xer_msg].
  user_event Et R; [|copies]. fields_of Et. cbn [map]. rewrite S2. ranges.
Qed.

(** ** Context switches *)
Lemma block_ok e :
  raw_event e -> exists b, block e = Ok b /\ len b = len e /\
    (forall i, byte b i = if inside (map range (header_of e)) i then byte e i else 0).
Proof.
  intros (Hb & H8 & _).
  destruct (stores_fit (byte e) (header_of e) (repeat 0 (N.to_nat (len e)))) as (b & E & Lb & Bb).
  { rewrite len_repeat. assert (H := header_copied e Hb H8). rewrite Forall_forall in *.
    intros x Hx. destruct (H x Hx) as (A & B). split; [exact A|]. intros j Hj. rewrite <- B. now apply byte_slice. }
  exists b. split; [exact E|]. split; [rewrite Lb; apply len_repeat|].
  intros i. rewrite Bb, byte_zeros. reflexivity.
Qed.

Lemma header_inside e i : i < 8 -> inside (map range (header_of e)) i = true.
Proof.
  intros H. unfold header_of, range, u32_at, u16_at. cbn [map fst snd]. rewrite !len_le_bytes. unfold inside.
  cbn [existsb fst snd].
  destruct (N.leb_spec 0 i), (N.ltb_spec i (0 + N.of_nat 4)), (N.leb_spec 4 i), (N.ltb_spec i (4 + N.of_nat 2)),
    (N.leb_spec 6 i), (N.ltb_spec i (6 + N.of_nat 2)); cbn [andb orb]; try reflexivity; lia.
Qed.
Lemma header_outside e i : 8 <= i -> inside (map range (header_of e)) i = false.
Proof.
  intros H. unfold header_of, range, u32_at, u16_at. cbn [map fst snd]. rewrite !len_le_bytes. unfold inside.
  cbn [existsb fst snd].
  destruct (N.ltb_spec i (0 + N.of_nat 4)), (N.ltb_spec i (4 + N.of_nat 2)), (N.ltb_spec i (6 + N.of_nat 2));
    rewrite ?andb_false_r; try reflexivity; lia.
Qed.

Lemma block_type e b : raw_event e -> block e = Ok b -> ev_type b = ev_type e.
Proof.
  intros He E. destruct (block_ok e He) as (b' & E' & L & B). assert (b' = b) by congruence. subst b'.
  unfold ev_type. f_equal. destruct He as (_ & H8 & _). apply slice_bytes; [lia|lia|].
  intros i _ Hi. rewrite B, header_inside by lia. reflexivity.
Qed.

Lemma switch_back s e off m :
  native s -> readable_event s e off -> cpu_clear s e off ->
  ev_type e = R_SWITCH \/ ev_type e = R_SWITCH_CPU_WIDE ->
  ser_switch s e = Ok m -> back s off e (let! b := block e in des_switch s m b).
Proof.
  intros Hn R Hc Et Hm. assert (Hb : bytes_ok e = true) by apply R.
  unfold ser_switch in Hm.
  assert (BT : forall k, (let! b := block e in des_switch s m b) = k ->
     (let! b := block e in let! b := (if ev_type e =? R_SWITCH_CPU_WIDE
            then stores b [u32_at 8 (xs_pid m); u32_at 12 (xs_tid m)] else Ok b) in des_info s (xs_info m) b) = k).
  { intros k <-. destruct (block_ok e (re_raw _ _ _ R)) as (b & E & _). rewrite E. cbn [obind]. unfold des_switch.
    rewrite (block_type e b (re_raw _ _ _ R) E). reflexivity. }
  rewrite <- (BT _ eq_refl). clear BT. destruct Et as [Et|Et].
  - rewrite Et in *. change (R_SWITCH =? R_SWITCH_CPU_WIDE) with false in *. cbn [obind] in *.
    apply obind_ok in Hm as (i & Hi & Hm). apply Ok_inj in Hm. subst m. cbn [xs_info].
    assert (X := stores_then e [] (fun b => des_info s i b)). cbn [stores obind] in X.
    rewrite X; [apply des_info_back; auto; other_type Et|].
    apply stores_fields; [apply R|split; other_type Et| |constructor]. fields_of Et. reflexivity.
  - rewrite Et in *. change (R_SWITCH_CPU_WIDE =? R_SWITCH_CPU_WIDE) with true in *. cbv iota in *.
    apply obind_ok in Hm as ((pid & tid) & Hp & Hm). peel Hp. apply Ok_inj in Hp. injection Hp as <- <-.
    apply obind_ok in Hm as (i & Hi & Hm). apply Ok_inj in Hm. subst m. cbn [xs_info xs_pid xs_tid].
    rewrite stores_then; [apply des_info_back; auto; other_type Et|].
    apply stores_fields; [apply R|split; other_type Et| |copies]. fields_of Et. cbn [map]. ranges.
Qed.
