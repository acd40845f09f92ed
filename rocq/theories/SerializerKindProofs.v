(** From the message back to the event, one type at a time. *)
From Verif Require Import Base BytesModel BytesProofs BytesMoreProofs BufferModel EventSizeModel
  EventSizeSpec EventSizeProofs TextModel TextProofs SampleModel SampleSpec SampleProofs SampleReadProofs
  SampleSafeProofs SampleMainProofs FileModel FileProofs SerializerModel SerializerSpec
  SerializerProofs SerializerSizeProofs SerializerSampleProofs SerializerMessageProofs
  SerializerSampleOfProofs SerializerBackProofs.
From Coq Require Import Permutation.
Local Open Scope N_scope.

Definition back (s : sstate) (off : N) (e : list N) (r : outcome (list N)) : Prop :=
  exists e', r = Ok e' /\ same_event s off e e' /\ (fully_represented s e off -> e' = e).

Lemma kept_all s e off :
  fully_represented s e off -> bytes_ok e = true -> forall i, i < off -> kept e i = byte e i.
Proof.
  intros [F1 F2 F3 F4] Hb i Hi. unfold kept. destruct (N.ltb_spec i 8) as [|H8]; [reflexivity|].
  destruct (inside (fields e) i) eqn:I; cbn [negb]; [|symmetry; now apply F1].
  destruct (N.eqb_spec (ev_type e) R_AUX) as [E|E]; cbn [andb].
  { destruct (N.eqb_spec i 24) as [->|]; [|rewrite E; reflexivity].
    specialize (F2 E). apply N.mod_small.
    assert (X : byte e 24 <= number_at e 24).
    { unfold number_at. assert (BS := byte_slice e 24 8 0 eq_refl). change (24 + 0) with 24 in BS. rewrite <- BS. unfold byte. cbn [N.to_nat].
      destruct (slice e 24 8) as [|b l]; [apply N.le_0_l|]. cbn [nth]. unfold of_le; fold of_le. apply N.le_add_r. }
    lia. }
  destruct (N.eqb_spec (ev_type e) R_TIME_CONV) as [E'|E']; cbn [andb]; [|reflexivity].
  destruct (N.eqb_spec (ev_size e) 56) as [S56|S56].
  - destruct (F3 E' S56) as (A & B).
    destruct (N.eqb_spec i 48) as [->|]; cbn [orb]; [lia|].
    destruct (N.eqb_spec i 49) as [->|]; lia.
  - destruct ((i =? 48) || (i =? 49)) eqn:X; [|reflexivity]. exfalso. revert I.
    fields_of E'. replace (ev_size e =? 56) with false by (symmetry; now apply N.eqb_neq).
    apply orb_prop in X as [X|X]; apply N.eqb_eq in X; subst i; discriminate.
Qed.

Lemma clean_back s e off :
  readable_event s e off -> contains_info s (ev_type e) = false -> back s off e (Ok (clean e)).
Proof.
  intros [R1 R2 R3 R4] C. specialize (R4 C). exists (clean e). split; [reflexivity|]. split.
  - constructor; [apply len_clean| |congruence]. intros i Hi. apply byte_clean. lia.
  - intros F. apply bytes_ext; [apply len_clean|]. rewrite len_clean. intros i Hi.
    rewrite byte_clean by exact Hi. apply (kept_all s e off F (proj1 R1)). lia.
Qed.

Lemma agree_storable a ty p :
  (carries a ty B_BRANCH_STACK = true ->
     Forall (fun b => be_flags b < 2 ^ 26) (branches_of p) /\ (branches_of p = [] -> hw_idx_of p = 0)) ->
  (carries a ty B_READ = true -> rv_lost (s_one p) = 0) ->
  agree a ty (storable p) p.
Proof.
  intros HB HR. constructor; try (intros; destruct p; reflexivity).
  - intros C. destruct (HB C) as (A & _). revert A. unfold storable, branches_of. destruct p as [? ? ? ? ? ? ? ? ? ? ? ? ? ? ? br ? ? ? ? ? ? ? ?].
    cbn [s_branch set_branch set_one]. destruct br as [[hw l]|]; cbn [bs_entries]; [|reflexivity].
    intros A. rewrite <- (map_id l) at 2. apply map_ext_in. rewrite Forall_forall in A. intros [f t fl] Hx.
    cbn [be_from be_to be_flags]. f_equal. apply N.mod_small. exact (A _ Hx).
  - intros C _. destruct (HB C) as (_ & B). revert B. unfold storable, branches_of, hw_idx_of.
    destruct p as [? ? ? ? ? ? ? ? ? ? ? ? ? ? ? br ? ? ? ? ? ? ? ?].
    cbn [s_branch set_branch set_one]. destruct br as [[hw [|x l]]|]; cbn [bs_entries bs_hw_idx]; auto.
    intros B. now rewrite B.
  - intros _. replace (group_of (storable p)) with (group_of p) by (destruct p; reflexivity).
    induction (group_of p); constructor; auto. unfold value_agrees. auto.
  - intros C. apply andb_prop in C as [C _]. specialize (HR C). revert HR.
    replace (s_one (storable p)) with (mkRv (rv_value (s_one p)) (rv_id (s_one p)) 0) by (destruct p; reflexivity).
    unfold value_agrees. cbn [rv_value rv_id rv_lost]. intros HR. rewrite HR. auto.
Qed.

Lemma reader_attr s p a : reader_for_id s (s_id p) = Some a -> attr_of s p a.
Proof.
  unfold reader_for_id, attr_of. destruct (s_id p =? 0).
  - destruct (ss_readers s) as [|(k & b) r]; [discriminate|]. intros X. injection X as ->. eauto.
  - apply in_reader_find.
Qed.

Lemma put_info_back s e off a p q :
  native s -> readable_event s e off -> sample_facts s e off a p -> carried s a (ev_type e) p q ->
  read_info_and_attr s e = Ok (p, a) -> back s off e (put_info a q (clean e)).
Proof.
  intros Hn R F C Hr. destruct (put_back s e off a p q R F C) as (e' & E & [B1 B2 B3 B4]).
  destruct (sf_in _ _ _ _ _ F) as (id & Hid).
  assert (Hp : read_sample_info a false e fresh_sample = Ok p).
  { unfold read_info_and_attr in Hr. apply obind_ok in Hr as (a' & _ & Hr). apply obind_ok in Hr as (p' & Hp & Hr).
    apply Ok_inj in Hr. injection Hr as -> ->. now rewrite (nv_swap s Hn) in Hp. }
  destruct B3 as (p' & P1 & P2).
  exists e'. split; [exact E|]. split.
  - constructor; auto. intros _. exists a, p, p'. split; [|auto]. apply reader_attr, (sf_reader _ _ _ _ _ F).
  - intros G. apply B4.
    + apply (kept_all s e off G). apply R.
    + destruct (N.eq_dec (ev_type e) R_SAMPLE) as [Es|Es].
      * destruct (fr_sample _ _ _ G Es id a p Hid Hp) as (G1 & G2 & G3 & _).
        apply agree_storable; auto.
      * destruct (sf_all _ _ _ _ _ F) as [X|X]; [contradiction|].
        apply agree_storable; rewrite carries_other by auto; rewrite andb_false_r; discriminate.
    + intros Es. apply (fr_sample _ _ _ G Es id a p Hid Hp).
Qed.

Lemma des_info_back s e off i :
  native s -> readable_event s e off -> cpu_clear s e off -> ev_type e <> R_SAMPLE ->
  ser_info s e = Ok i -> back s off e (des_info s i (clean e)).
Proof.
  intros Hn R Hc Es Hi. unfold des_info. rewrite clean_type by apply R.
  unfold ser_info in Hi. destruct (contains_info s (ev_type e)) eqn:C; cbn [negb] in *.
  2:{ now apply clean_back. }
  apply obind_ok in Hi as ((p & a) & Hr & Hi). apply Ok_inj in Hi.
  assert (F := sample_known s e off a p Hn R Hc C Hr).
  destruct (info_carried s e off a p F Es) as (q & Q1 & Q2).
  assert (X : i = info_for a p) by (rewrite <- Hi; reflexivity). rewrite X, Q1. cbn [obind].
  rewrite (cd_reader _ _ _ _ _ Q2). now apply (put_info_back s e off a p q).
Qed.

Lemma des_sample_back s e off m :
  native s -> readable_event s e off -> cpu_clear s e off -> ev_type e = R_SAMPLE ->
  ser_sample s e = Ok m -> back s off e (des_sample s m (clean e)).
Proof.
  intros Hn R Hc Es Hm. assert (Hm' := Hm). unfold ser_sample in Hm'.
  apply obind_ok in Hm' as ((p & a) & Hr & _).
  assert (C : contains_info s (ev_type e) = true) by (unfold contains_info; rewrite Es; reflexivity).
  assert (F := sample_known s e off a p Hn R Hc C Hr).
  destruct (sample_carried s e off a p m F Es Hr Hm) as (q & Q1 & Q2).
  unfold des_sample. rewrite Q1. cbn [obind]. rewrite (cd_reader _ _ _ _ _ Q2).
  now apply (put_info_back s e off a p q).
Qed.

(** ** Stores after the header *)
Definition block (e : list N) : outcome (list N) := stores (repeat 0 (N.to_nat (len e))) (header_of e).

Lemma stores_then {A} e l (k : list N -> outcome A) :
  stores (repeat 0 (N.to_nat (len e))) (header_of e ++ l) = Ok (clean e) ->
  (let! b := block e in let! b' := stores b l in k b') = k (clean e).
Proof.
  intros H. unfold block. rewrite stores_app in H. destruct (stores _ (header_of e)) as [b| | | |]; cbn [obind] in *;
    try discriminate. rewrite H. reflexivity.
Qed.

Lemma stores_two {A} b l1 l2 (k : list N -> outcome A) :
  (let! b' := stores b l1 in let! b' := stores b' l2 in k b') = let! b' := stores b (l1 ++ l2) in k b'.
Proof. rewrite stores_app. destruct (stores b l1); reflexivity. Qed.

Ltac peel H :=
  repeat match type of H with
  | obind (num _ _ _) _ = _ =>
      let v := fresh "v" in let X := fresh "X" in let L := fresh "L" in
      apply obind_ok in H as (v & X & H); apply num_ok in X as (L & ->)
  end.
Ltac peel_text H :=
  match type of H with
  | obind (ev_c_str _ _) _ = _ =>
      let v := fresh "txt" in let X := fresh "X" in
      apply obind_ok in H as (v & X & H); apply c_str_text in X
  end.
Ltac copies :=
  repeat (apply Forall_cons; [first [assumption | apply copied_num; [assumption|assumption|reflexivity]]|]);
  apply Forall_nil.
Ltac ranges := unfold range, u64_at, u32_at, u16_at, u8_at; cbn [fst snd]; rewrite ?len_le_bytes; reflexivity.
Ltac other_type Et := rewrite Et; discriminate.

Lemma text_kind e ty fixed max off s :
  raw_event e -> In (ty, fixed, max) text_events -> ev_type e = ty -> event_data_size e = Ok off ->
  text_read e fixed s -> len s < max /\ off = fixed + 8 * (len s / 8 + 1).
Proof.
  intros He Hin Ht Hd Hr. apply (text_event_size e ty fixed max off He Hin Ht) in Hd as (_ & v & -> & T).
  destruct (text_at_unique e fixed _ v s T Hr) as (A & B). lia.
Qed.

Lemma mmap_back s e off m :
  native s -> readable_event s e off -> cpu_clear s e off -> ev_type e = R_MMAP ->
  ser_mmap s e = Ok m -> back s off e (let! b := block e in des_mmap s m b).
Proof.
  intros Hn R Hc Et Hm. assert (Hb : bytes_ok e = true) by apply R.
  unfold ser_mmap in Hm. peel Hm. peel_text Hm. apply obind_ok in Hm as (i & Hi & Hm).
  apply Ok_inj in Hm. subst m. unfold des_mmap. cbn [xm_pid xm_tid xm_start xm_len xm_pgoff xm_filename xm_info].
  destruct (text_kind e R_MMAP 40 4096 off txt (re_raw _ _ _ R)) as (Lt & _); auto; [cbn; auto 6|apply R|].
  destruct (text_store e 40 txt 4096 X Lt) as (T1 & T2).
  rewrite stores_then; [apply des_info_back; auto; other_type Et|].
  apply stores_fields; [apply R|split; other_type Et| |copies].
  fields_of Et. cbn [map]. rewrite T2. ranges.
Qed.

Lemma lost_back s e off m :
  native s -> readable_event s e off -> cpu_clear s e off -> ev_type e = R_LOST ->
  ser_lost s e = Ok m -> back s off e (let! b := block e in des_lost s m b).
Proof.
  intros Hn R Hc Et Hm. assert (Hb : bytes_ok e = true) by apply R.
  unfold ser_lost in Hm. peel Hm. apply obind_ok in Hm as (i & Hi & Hm).
  apply Ok_inj in Hm. subst m. unfold des_lost. cbn [xl_id xl_lost xl_info].
  rewrite stores_then; [apply des_info_back; auto; other_type Et|].
  apply stores_fields; [apply R|split; other_type Et| |copies].
  fields_of Et. cbn [map]. ranges.
Qed.

Lemma itrace_back s e off m :
  native s -> readable_event s e off -> cpu_clear s e off -> ev_type e = R_ITRACE_START ->
  ser_itrace s e = Ok m -> back s off e (let! b := block e in des_itrace s m b).
Proof.
  intros Hn R Hc Et Hm. assert (Hb : bytes_ok e = true) by apply R.
  unfold ser_itrace in Hm. peel Hm. apply obind_ok in Hm as (i & Hi & Hm).
  apply Ok_inj in Hm. subst m. unfold des_itrace. cbn [xit_pid xit_tid xit_info].
  rewrite stores_then; [apply des_info_back; auto; other_type Et|].
  apply stores_fields; [apply R|split; other_type Et| |copies].
  fields_of Et. cbn [map]. ranges.
Qed.

Lemma lost_samples_back s e off m :
  native s -> readable_event s e off -> cpu_clear s e off -> ev_type e = R_LOST_SAMPLES ->
  ser_lost_samples s e = Ok m -> back s off e (let! b := block e in des_lost_samples s m b).
Proof.
  intros Hn R Hc Et Hm. assert (Hb : bytes_ok e = true) by apply R.
  unfold ser_lost_samples in Hm. peel Hm. apply obind_ok in Hm as (i & Hi & Hm).
  apply Ok_inj in Hm. subst m. unfold des_lost_samples. cbn [xls_lost xls_info].
  rewrite stores_then; [apply des_info_back; auto; other_type Et|].
  apply stores_fields; [apply R|split; other_type Et| |copies].
  fields_of Et. cbn [map]. ranges.
Qed.

Lemma cgroup_back s e off m :
  native s -> readable_event s e off -> cpu_clear s e off -> ev_type e = R_CGROUP ->
  ser_cgroup s e = Ok m -> back s off e (let! b := block e in des_cgroup s m b).
Proof.
  intros Hn R Hc Et Hm. assert (Hb : bytes_ok e = true) by apply R.
  unfold ser_cgroup in Hm. peel Hm. peel_text Hm. apply obind_ok in Hm as (i & Hi & Hm).
  apply Ok_inj in Hm. subst m. unfold des_cgroup. cbn [xcg_id xcg_path xcg_info].
  destruct (text_kind e R_CGROUP 16 4096 off txt (re_raw _ _ _ R)) as (Lt & _); auto; [cbn; auto 6|apply R|].
  destruct (text_store e 16 txt 4096 X Lt) as (T1 & T2).
  rewrite stores_then; [apply des_info_back; auto; other_type Et|].
  apply stores_fields; [apply R|split; other_type Et| |copies].
  fields_of Et. cbn [map]. rewrite T2. ranges.
Qed.

Lemma ksymbol_back s e off m :
  native s -> readable_event s e off -> cpu_clear s e off -> ev_type e = R_KSYMBOL ->
  ser_ksymbol s e = Ok m -> back s off e (let! b := block e in des_ksymbol s m b).
Proof.
  intros Hn R Hc Et Hm. assert (Hb : bytes_ok e = true) by apply R.
  unfold ser_ksymbol in Hm. peel Hm. peel_text Hm. apply obind_ok in Hm as (i & Hi & Hm).
  apply Ok_inj in Hm. subst m. unfold des_ksymbol. cbn [xk_addr xk_len xk_type xk_flags xk_name xk_info].
  destruct (text_kind e R_KSYMBOL 24 512 off txt (re_raw _ _ _ R)) as (Lt & _); auto; [cbn; auto 6|apply R|].
  destruct (text_store e 24 txt 512 X Lt) as (T1 & T2).
  rewrite stores_then; [apply des_info_back; auto; other_type Et|].
  apply stores_fields; [apply R|split; other_type Et| |copies].
  fields_of Et. cbn [map]. rewrite T2. ranges.
Qed.

Lemma fork_back s e off m :
  native s -> readable_event s e off -> cpu_clear s e off -> ev_type e = R_EXIT \/ ev_type e = R_FORK ->
  ser_fork s e = Ok m -> back s off e (let! b := block e in des_fork s m b).
Proof.
  intros Hn R Hc Et Hm. assert (Hb : bytes_ok e = true) by apply R.
  unfold ser_fork in Hm. peel Hm. apply obind_ok in Hm as (i & Hi & Hm).
  apply Ok_inj in Hm. subst m. unfold des_fork. cbn [xf_pid xf_ppid xf_tid xf_ptid xf_time xf_info].
  rewrite stores_then; [apply des_info_back; auto; (destruct Et as [Et|Et]; other_type Et)|].
  apply stores_fields; [apply R|split; (destruct Et as [Et|Et]; other_type Et)| |copies].
  destruct Et as [Et|Et]; fields_of Et; cbn [map]; ranges.
Qed.

Lemma throttle_back s e off m :
  native s -> readable_event s e off -> cpu_clear s e off -> ev_type e = R_THROTTLE \/ ev_type e = R_UNTHROTTLE ->
  ser_throttle s e = Ok m -> back s off e (let! b := block e in des_throttle s m b).
Proof.
  intros Hn R Hc Et Hm. assert (Hb : bytes_ok e = true) by apply R.
  unfold ser_throttle in Hm. peel Hm. apply obind_ok in Hm as (i & Hi & Hm).
  apply Ok_inj in Hm. subst m. unfold des_throttle. cbn [xth_time xth_id xth_stream xth_info].
  rewrite stores_then; [apply des_info_back; auto; (destruct Et as [Et|Et]; other_type Et)|].
  apply stores_fields; [apply R|split; (destruct Et as [Et|Et]; other_type Et)| |copies].
  destruct Et as [Et|Et]; fields_of Et; cbn [map]; ranges.
Qed.

