(** Reading a whole file that was written. *)
From Verif Require Import Base BytesModel BytesProofs BytesMoreProofs BufferModel EventSizeModel EventSizeSpec Assoc TextModel
  ReaderOpsModel ReaderOpsProofs SampleModel FileModel SerializerModel SerializerSpec AttrModel AttrSpec AttrProofs
  MapperProofs WriteModel WriteSpec WriteProofs WriteFileProofs WriteFeatureProofs WriteEventProofs WriteAllProofs WriteWholeProofs WriteLayoutProofs
  RereadProofs RereadSpec RereadMetaProofs RereadBuildProofs RereadAttrProofs RereadEventProofs.
Local Open Scope N_scope.

(** ** The state between the features *)
Section States.
Variable p : wdata.
Variable M : N.
Variable x0 y : apart.

Definition on (k ty : N) : bool := if ty <? k then asked p ty else false.
Definition sel {A} (k ty : N) (l : list A) : list A := if on k ty then l else [].
Definition meta_at (k : N) : fmeta :=
  mkFMeta (map (fun ty => (ty, text_or_empty (aget N.eqb ty (fm_strings (wd_meta p))))) (filter (on k) [9; 8; 6; 5; 4; 3]))
    (sel k 11 (fm_cmdline (wd_meta p))) (sel k 11 (join_tokens (fm_cmdline (wd_meta p))))
    (sel k 7 (fm_u32 (wd_meta p))) (sel k 10 (fm_u64 (wd_meta p)))
    (sel k 13 (fm_cores (wd_meta p))) (sel k 13 (fm_threads (wd_meta p))) (sel k 13 (fm_cpus (wd_meta p)))
    (sel k 14 (fm_numa (wd_meta p))) (sel k 16 (fm_pmu (wd_meta p))) (sel k 17 (fm_group (wd_meta p)))
    (sel k 30 (map hybrid_pair (wd_hybrid p))) (sel k 1 (fm_tracing (wd_meta p))).
Definition apart_at (k : N) : apart := if k <=? 12 then (if asked p 12 then x0 else y) else y.
Definition state_at (k : N) : fstate :=
  with_apart (apart_at k) (mkFState M [] (sel k 12 (wd_types p)) [] (sel k 2 (map read_back (wd_builds p))) (meta_at k)
    [] None None [] [] [] []).
End States.

Ltac numbers := repeat match goal with
  | |- context [?a <? ?b] => let v := eval vm_compute in (a <? b) in change (a <? b) with v
  | |- context [?a <=? ?b] => let v := eval vm_compute in (a <=? b) in change (a <=? b) with v end; cbv iota.

Lemma skip_state p M x0 y ty : In ty feature_types -> asked p ty && existsb (N.eqb ty) known_features = false ->
  state_at p M x0 y (ty + 1) = state_at p M x0 y ty.
Proof.
  intros I. unfold feature_types in I. cbn [List.seq map In] in I.
  repeat (destruct I as [<-|I];
    [intros H; cbn [N.of_nat Pos.of_succ_nat Pos.succ] in *;
     match type of H with asked p ?t && ?e = false => change (asked p t && ltac:(let v := eval vm_compute in e in exact v) = false) in H end;
     rewrite ?Bool.andb_true_r in H;
     unfold state_at, meta_at, sel, apart_at; cbn [filter]; unfold on;
     match goal with |- context [?a + 1] => let v := eval vm_compute in (a + 1) in change (a + 1) with v end;
     numbers; try rewrite H; reflexivity|]).
  contradiction.
Qed.

Section Features.
Variable f : list N.
Hypothesis Hf : len f < two63.
Variable p : wdata.
Variable M : N.
Variable s0 s : sstate.
Variable x0 y : apart.
Hypothesis Mk : metadata_ok p.
Hypothesis Ak : attrs_ok p.
Hypothesis Steps : asked p 12 = true -> steps (wd_attrs p) x0 s0 y s.
Hypothesis Empty : ap_attrs x0 = [] /\ ap_ids x0 = [] /\ ap_configs x0 = [].
Notation gets := (gets f).
Notation state_at := (state_at p M x0 y).

Ltac state_step A := unfold RereadMainProofs.state_at, meta_at, sel, apart_at; cbn [filter]; unfold on; numbers; rewrite ?A;
  cbn [map]; reflexivity.

Lemma gets_eq {A} (c : rcall A) o v v' o' : v = v' -> gets c o v' o' -> gets c o v o'.
Proof. now intros ->. Qed.

Lemma feature_step ty o : In ty known_features -> asked p ty = true -> at_off f o (feature_bytes p ty) ->
  gets (read_feature ty (len (feature_bytes p ty)) (state_at ty)) o (state_at (ty + 1)) (o + len (feature_bytes p ty)).
Proof.
  intros I A H. unfold known_features in I. cbn [In] in I.
  repeat (destruct I as [<-|I]; [match goal with |- context [?a + 1] => let v := eval vm_compute in (a + 1) in change (a + 1) with v end|]);
    [..|contradiction].
  - eapply gets_eq; [|exact (gets_tracing f Hf p _ o H)].
    destruct (N.eqb_spec (len (fm_tracing (wd_meta p))) 0) as [Z|Z]; [|state_step A].
    assert (T : fm_tracing (wd_meta p) = []) by (destruct (fm_tracing (wd_meta p)); [reflexivity|rewrite len_cons in Z; lia]).
    unfold RereadMainProofs.state_at, meta_at, sel, apart_at. rewrite T. cbn [filter]. unfold on. numbers. rewrite A. reflexivity.
  - eapply gets_eq; [|exact (gets_build_feature f Hf p _ o Mk A H)]. state_step A.
  - eapply gets_eq; [|apply (gets_string_feature f Hf p 3 _ o Mk); [cbn; tauto|exact H]]. state_step A.
  - eapply gets_eq; [|apply (gets_string_feature f Hf p 4 _ o Mk); [cbn; tauto|exact H]]. state_step A.
  - eapply gets_eq; [|apply (gets_string_feature f Hf p 5 _ o Mk); [cbn; tauto|exact H]]. state_step A.
  - eapply gets_eq; [|apply (gets_string_feature f Hf p 6 _ o Mk); [cbn; tauto|exact H]]. state_step A.
  - eapply gets_eq; [|exact (gets_cpus f Hf p _ o Mk A H)]. state_step A.
  - eapply gets_eq; [|apply (gets_string_feature f Hf p 8 _ o Mk); [cbn; tauto|exact H]]. state_step A.
  - eapply gets_eq; [|apply (gets_string_feature f Hf p 9 _ o Mk); [cbn; tauto|exact H]]. state_step A.
  - eapply gets_eq; [|exact (gets_memory f Hf p _ o Mk A H)]. state_step A.
  - eapply gets_eq; [|exact (gets_cmdline f Hf p _ o Mk H)]. state_step A.
  - change (read_feature 12 ?a ?b) with (read_event_descs b).
    destruct Empty as (E1 & E2 & E3).
    eapply gets_eq; [|unfold RereadMainProofs.state_at at 1, apart_at at 1; numbers; rewrite A;
      refine (gets_descs f Hf p x0 s0 y s o _ Ak A (Steps A) E1 E2 E3 _ H); state_step A].
    state_step A.
  - eapply gets_eq; [|refine (gets_topology f Hf p _ o Mk A _ H)]; [state_step A|].
    intros A7. unfold RereadMainProofs.state_at, meta_at, sel, apart_at, on. numbers. rewrite A7. reflexivity.
  - eapply gets_eq; [|exact (gets_numa f Hf p _ o Mk H)]. state_step A.
  - change (len (feature_bytes p 15)) with 0. rewrite N.add_0_r. apply gets_ret || (eapply gets_eq; [|apply gets_ret]; state_step A).
  - eapply gets_eq; [|exact (gets_pmu f Hf p _ o Mk A H)]. state_step A.
  - eapply gets_eq; [|exact (gets_group f Hf p _ o Mk H)]. state_step A.
  - eapply gets_eq; [|exact (gets_hybrid f Hf p _ o Mk H)]. state_step A.
Qed.

Lemma add_same st ty : has_feature st ty = true -> add_feature ty st = st.
Proof using.
  unfold has_feature, add_feature. intros H. destruct st as [a0 a1 a2 a3 a4 a5 a6 a7 a8 a9 a10 a11 a12].
  cbn [fs_mask put_mask] in *. f_equal. apply N.bits_inj. intros i. rewrite N.setbit_eqb.
  destruct (N.eqb_spec ty i) as [->|]; [now rewrite H|reflexivity].
Qed.

Hypothesis Bits : forall ty, N.testbit M ty = existsb (N.eqb ty) (features_of p).

Lemma has_asked k ty : has_feature (state_at k) ty = asked p ty && existsb (N.eqb ty) known_features.
Proof using Bits.
  unfold has_feature. replace (fs_mask (state_at k)) with M by reflexivity. rewrite Bits. unfold features_of. apply existsb_filter.
Qed.

Lemma item_step ty o : In ty known_features -> asked p ty = true -> at_off f o (feature_bytes p ty) ->
  gets (read_metadata_item ty (len (feature_bytes p ty)) (state_at ty)) o (state_at (ty + 1)) (o + len (feature_bytes p ty)).
Proof.
  intros I A H. unfold read_metadata_item. assert (E := at_end_le _ _ _ H). assert (Hf' := Hf).
  next; [apply gets_ask|]. next; [apply gets_guard, N.leb_le|].
  { unfold remaining. cbn [rbuf roff rd]. rewrite sub64_le; clear - E Hf'; unfold two63, two64 in *; lia. }
  next; [apply gets_ask|]. next; [exact (feature_step ty o I A H)|].
  rewrite supported_known.
  assert (K : existsb (N.eqb ty) known_features = true) by (apply existsb_exists; exists ty; split; [exact I|apply N.eqb_refl]).
  rewrite K. rewrite add_same by (rewrite has_asked, A, K; reflexivity).
  next; [apply gets_ask|]. cbn [tell rbuf roff rd] in *. unfold tell. cbn [roff rd].
  rewrite sub64_le by (clear - E Hf'; unfold two63, two64 in *; lia).
  rewrite (proj2 (N.eqb_eq _ _)) by (clear; lia). apply gets_ret.
Qed.

Definition section_is (ty : N) (sec : section) : Prop :=
  sc_size sec = len (feature_bytes p ty) /\ at_off f (sc_offset sec) (feature_bytes p ty).

Lemma gets_metadata_loop n : forall k secs o, (1 <= k)%nat -> (k + n = 31)%nat ->
  Forall2 section_is (filter (N.testbit M) (map N.of_nat (List.seq k n))) secs ->
  exists o', gets (metadata_loop (map N.of_nat (List.seq k n)) secs (state_at (N.of_nat k))) o (state_at 31) o'.
Proof.
  induction n as [|n IH]; intros k secs o L K F.
  - exists o. cbn [List.seq map metadata_loop]. replace k with 31%nat by lia. apply gets_ret.
  - cbn [List.seq map metadata_loop filter] in *.
    assert (Hm : has_feature (state_at (N.of_nat k)) (N.of_nat k) = N.testbit M (N.of_nat k)) by reflexivity.
    rewrite Hm. assert (Hk := has_asked (N.of_nat k) (N.of_nat k)). rewrite Hm in Hk.
    assert (Sn : N.of_nat (S k) = N.of_nat k + 1) by lia.
    destruct (N.testbit M (N.of_nat k)) eqn:T.
    + inversion F as [|? sec ? rest [S1 S2] F']; subst.
      symmetry in Hk. apply Bool.andb_true_iff in Hk as [A Kn]. apply existsb_exists in Kn as (t & In' & Eq). apply N.eqb_eq in Eq. subst t.
      destruct (IH (S k) rest (sc_offset sec + len (feature_bytes p (N.of_nat k)))) as (o' & G); [lia|lia|exact F'|].
      exists o'. next; [apply gets_seek; assert (E := at_end_le _ _ _ S2); clear - E; lia|].
      rewrite S1. next; [apply item_step; assumption|]. rewrite <- Sn. exact G.
    + destruct (IH (S k) secs o) as (o' & G); [lia|lia|exact F|]. exists o'.
      rewrite <- (skip_state p M x0 y (N.of_nat k)); [rewrite <- Sn; exact G| |now symmetry].
      unfold feature_types. apply in_map, in_seq. lia.
Qed.

Lemma gets_sections l : forall o, (forall i ty, nth_error l i = Some ty -> refers f (o + 16 * N.of_nat i) (feature_bytes p ty)) ->
  exists secs, Forall2 section_is l secs /\ gets (read_n (length l) read_section) o secs (o + 16 * len l).
Proof using Hf.
  clear - Hf. induction l as [|ty l IH]; intros o R.
  - exists []. split; [constructor|]. cbn [length read_n]. change (len []) with 0. rewrite N.mul_0_r, N.add_0_r. apply gets_ret.
  - destruct (R 0%nat ty eq_refl) as (R1 & R2 & R3 & R4). change (16 * N.of_nat 0) with 0 in *. rewrite N.add_0_r in *.
    destruct (IH (o + 16)) as (secs & F & G).
    { intros i t E. specialize (R (S i) t E). replace (o + 16 + 16 * N.of_nat i) with (o + 16 * N.of_nat (S i)) by lia. exact R. }
    exists (mkSection (word_at f o) (word_at f (o + 8)) :: secs). split.
    + constructor; [|exact F]. split; cbn [sc_size sc_offset]; [exact R2|]. eapply at_exists; [exact R4|exact R3].
    + cbn [length read_n]. next; [apply (gets_section f Hf); [exact R1| |]; clear - R2 R3; rewrite ?R2; lia|].
      next; [exact G|]. rewrite len_cons. replace (o + 16 * (1 + len l)) with (o + 16 + 16 * len l) by (clear; lia). apply gets_ret.
Qed.
End Features.

(** ** The header *)
Lemma gets_word f (Hf : len f < two63) o : o + 8 <= len f -> gets f read_u64 o (word_at f o) (o + 8).
Proof.
  intros H. unfold read_u64, read_int. assert (A : at_off f o (slice f o 8)) by (eapply at_exists; [reflexivity|exact H]).
  assert (L : len (slice f o 8) = 8) by (apply len_slice; exact H).
  next; [apply (gets_data' f Hf _ _ 8 A); now rewrite L|]. reflexivity.
Qed.

Section File.
Variable f : list N.
Hypothesis Hf : len f < two63.
Notation gets := (gets f).
Variable ord : list (list N * list N) -> list (list N * list N).
Variable s : sstate.
Variable p : wdata.
Hypothesis Lo : laid_out ord s p f.

Definition the_header (features : list N) : fheader :=
  mkFHeader 112 (mkSection (word_at f 24) (word_at f 32)) (mkSection (word_at f 40) (word_at f 48))
    (mkSection (word_at f 56) (word_at f 64)) features.
Definition the_mask : N := of_le (slice f 72 8).

Lemma gets_file_header : exists features, gets (read_header fs_new) 0 (put_mask the_mask fs_new, 104, Some (the_header features)) 104.
Proof.
  destruct Lo as [L1 [L2 L3] L4 _ L5 L6 [L7 [L8 L9]] _ _].
  exists (slice f 72 32). unfold read_header.
  next; [apply gets_ask|]. next; [apply gets_check; reflexivity|].
  next; [apply (gets_word f Hf); clear - L7; lia|]. rewrite L1, N.eqb_refl.
  next; [apply gets_guard; reflexivity|]. cbn [negb]. cbv zeta.
  eapply (gets_bind f _ _ _ tt 8); [reflexivity|cbn beta].
  next; [apply (gets_word f Hf); clear - L7; lia|]. rewrite L2.
  next; [apply gets_ask|]. next; [apply gets_check; reflexivity|]. change (104 =? 16) with false. cbv iota.
  next; [apply (gets_word f Hf); clear - L7; lia|]. change (8 + 8) with 16. rewrite L3.
  change (16 + 8) with 24.
  assert (D := L5). destruct D as (R1 & R2 & R3 & R4). change (40 + 8) with 48 in R2.
  next; [apply (gets_section f Hf); change (24 + 8) with 32; [clear - L7; lia|clear - L8; lia|exact L8]|].
  change (24 + 16) with 40. change (24 + 8) with 32.
  next; [apply (gets_section f Hf); change (40 + 8) with 48; [clear - L7; lia|clear - R3; lia|rewrite R2; exact R3]|].
  change (40 + 16) with 56. change (40 + 8) with 48.
  next; [apply (gets_section f Hf); change (56 + 8) with 64; [clear - L7; lia|exact L9|rewrite L6, N.add_0_r; exact L9]|].
  change (56 + 16) with 72. change (56 + 8) with 64.
  next; [apply gets_ask|]. next; [apply gets_check; reflexivity|].
  assert (A : at_off f 72 (slice f 72 32)) by (eapply at_exists; [reflexivity|clear - L7; lia]).
  assert (LS : len (slice f 72 32) = 32) by (apply len_slice; clear - L7; lia).
  next; [apply (gets_data' f Hf _ _ 32 A); now rewrite LS|].
  replace (slice (slice f 72 32) 0 8) with (slice f 72 8); [apply gets_ret|].
  unfold slice. change (N.to_nat 0) with 0%nat. cbn [skipn]. rewrite firstn_firstn. f_equal.
Qed.

Hypothesis Im : at_off f 0 (file_image ord s p).
Lemma mask_is : the_mask = fword p.
Proof.
  assert (A := Im). rewrite image_split in A.
  apply at_left in A. apply at_left in A. unfold image_head in A. cbv zeta in A.
  apply at_right in A. rewrite len_le_bytes in A. change (0 + N.of_nat 8) with 8 in A.
  apply at_right in A. rewrite len_le_bytes in A. change (8 + N.of_nat 8) with 16 in A.
  apply at_right in A. rewrite len_le_bytes in A. change (16 + N.of_nat 8) with 24 in A.
  apply at_right in A. rewrite len_place in A. change (24 + 16) with 40 in A.
  apply at_right in A. rewrite len_place in A. change (40 + 16) with 56 in A.
  apply at_right in A. rewrite len_place in A. change (56 + 16) with 72 in A.
  apply at_left in A. apply at_slice in A as [A _]. rewrite len_le_bytes in A. change (N.of_nat 8) with 8 in A.
  unfold the_mask. rewrite A, of_le_le_bytes; [symmetry; apply fword_word|].
  rewrite <- fword_word. assert (B := fword_bound p). eapply N.lt_trans; [exact B|vm_compute; reflexivity].
Qed.

Lemma mask_bits_are ty : N.testbit the_mask ty = existsb (N.eqb ty) (features_of p).
Proof. rewrite mask_is. apply fword_bits. Qed.

Hypothesis Mk : metadata_ok p.
Hypothesis Ak : attrs_ok p.
Hypothesis Cr : create_readers (map reader_attr (wd_attrs p)) (new_serializer false) = Ok s.
Hypothesis Sw : ss_swap s = false.
Hypothesis Ev : Forall (event_read ord s (no_kernel p)) (wd_events p).
Hypothesis Rs : wd_events p = [] \/ ss_readers s <> [].
Variable cf : fconfig.
Hypothesis All : takes_all cf.

Lemma no_kernel_is : no_kernel p = match map file_attr (wd_attrs p) with a :: _ => attr_exclude_kernel (fa_attr a) | [] => false end.
Proof using.
  clear - p. unfold no_kernel. destruct (wd_attrs p) as [|a l]; [reflexivity|]. cbn [map file_attr fa_attr].
  unfold attr_exclude_kernel. change (FileModel.attr_bits (des_attr (fx_attr a))) with (member (des_attr (fx_attr a)) 40 8).
  rewrite des_bits. unfold attr_bits. rewrite bits_bit. generalize (N.testbit (ea_flags (fx_attr a)) 5).
  intros b. now destruct b.
Qed.

Lemma events_many l : Forall (event_read ord s (no_kernel p)) l -> (length l <= length (concat (map (event_bytes ord s) l)))%nat.
Proof using.
  induction 1 as [|x l (Sh & Xs & Xl & Xt & e & D & [(off & R) _ _ _ _]) F IH]; [constructor|].
  cbn [map concat length]. rewrite app_length, (event_bytes_cut ord s x e D Xt), app_length.
  assert (L := proj1 (proj2 (re_raw _ _ _ R))). unfold len in L. clear - L IH. lia.
Qed.

Lemma text_get ty (g : N -> list N) (t : N -> bool) l :
  aget N.eqb ty (map (fun k => (k, g k)) (filter t l)) = if existsb (N.eqb ty) l && t ty then Some (g ty) else None.
Proof using.
  induction l as [|k l IH]; [reflexivity|]. cbn [filter existsb]. destruct (t k) eqn:T.
  - cbn [map]. unfold aget in *. cbn [find fst] in *. destruct (N.eqb_spec k ty) as [->|N1].
    + rewrite N.eqb_refl, T. reflexivity.
    + destruct (N.eqb_spec ty k) as [->|N2]; [contradiction|]. exact IH.
  - destruct (N.eqb_spec ty k) as [->|N2]; cbn [orb andb]; [|exact IH].
    rewrite IH, T. now rewrite !Bool.andb_false_r.
Qed.

Theorem read_again : exists st, read_perf_data cf f = Ok st /\ reread ord s p st.
Proof.
  destruct (readers_steps (wd_attrs p) (apart_of fs_new) (new_serializer false) s) as (y & Steps & Ya & Ym); [now split|exact Cr|].
  cbn [ap_attrs apart_of fs_new fs_attrs app] in Ya.
  assert (Hd := gets_file_header). destruct Hd as (features & Hd).
  destruct Lo as [L1 [L2 L3] L4 La L5 L6 [L7 [L8 L9]] Lb Lf].
  set (h := the_header features) in *.
  set (st1 := state_at p the_mask (apart_of fs_new) y 1).
  set (st2 := state_at p the_mask (apart_of fs_new) y 31).
  assert (Hf' := Hf).
  assert (R5 := L5). destruct R5 as (D1 & D2 & D3 & D4). change (40 + 8) with 48 in D2.
  (* attributes *)
  assert (G1 : exists o, gets (if has_feature (put_mask the_mask fs_new) 12 then rret (put_mask the_mask fs_new)
             else rlet s := read_attrs_section h (put_mask the_mask fs_new) in read_event_types_section h s) 104 st1 o).
  { assert (H12 : has_feature (put_mask the_mask fs_new) 12 = asked p 12).
    { unfold has_feature. cbn [put_mask fs_mask fs_new]. rewrite mask_bits_are. unfold features_of. rewrite existsb_filter.
      change (existsb (N.eqb 12) known_features) with true. now rewrite Bool.andb_true_r. }
    rewrite H12. unfold st1, state_at, apart_at. change (1 <=? 12) with true. cbv iota.
    destruct (asked p 12) eqn:A12.
    - exists 104. replace (put_mask the_mask fs_new) with
        (with_apart (apart_of fs_new) (mkFState the_mask [] (sel p 1 12 (wd_types p)) [] (sel p 1 2 (map read_back (wd_builds p))) (meta_at p 1)
    [] None None [] [] [] [])) by reflexivity. apply gets_ret.
    - eexists. next.
      + unfold read_attrs_section, h, the_header. cbn [fh_attr_size fh_attrs sc_offset sc_size].
        next; [apply gets_guard; reflexivity|]. next; [apply gets_seek; clear - L8; lia|].
        rewrite L4. replace (112 * len (wd_attrs p) / 112) with (len (wd_attrs p)) by (rewrite N.mul_comm, N.div_mul; [reflexivity|discriminate]).
        rewrite to_nat_len.
        replace (put_mask the_mask fs_new) with (with_apart (apart_of fs_new) (put_mask the_mask fs_new)) by reflexivity.
        apply (gets_attrs f Hf (wd_attrs p) _ (new_serializer false) y s (word_at f 24) _ Steps (ak_size _ Ak)).
        intros i a N1. exact (La i a N1).
      + unfold read_event_types_section, h, the_header. cbn [fh_types sc_size]. rewrite L6. change (w32 (0 / 72)) with 0. cbn [N.eqb].
        replace (with_apart y (put_mask the_mask fs_new)) with
        (with_apart y (mkFState the_mask [] (sel p 1 12 (wd_types p)) [] (sel p 1 2 (map read_back (wd_builds p))) (meta_at p 1)
    [] None None [] [] [] [])) by reflexivity. apply gets_ret. }
  destruct G1 as (o1 & G1).
  (* features *)
  assert (G2 : exists o, gets (read_metadata h st1) o1 st2 o).
  { destruct (gets_sections f Hf p (features_of p) (word_at f 40 + word_at f 48)) as (secs & F & G); [exact Lf|].
    destruct (gets_metadata_loop f Hf p the_mask (new_serializer false) s (apart_of fs_new) y Mk Ak (fun _ => Steps)
                (conj eq_refl (conj eq_refl eq_refl)) mask_bits_are 30 1 secs (word_at f 40 + word_at f 48 + 16 * len (features_of p)))
      as (o' & G'); [apply Nat.le_refl|reflexivity| |].
    { fold feature_types. rewrite mask_is, selected. exact F. }
    exists o'. unfold read_metadata, h, the_header. cbn [fh_data sc_offset sc_size].
    assert (W : w64 (word_at f 40 + word_at f 48) = word_at f 40 + word_at f 48).
    { unfold w64. apply N.mod_small. clear - D3 D2 Hf'. rewrite D2. unfold two63, two64 in *. lia. }
    rewrite W. next; [apply gets_seek; clear - D3 D2; rewrite D2; lia|].
    replace (fs_mask st1) with (fword p) by (rewrite <- mask_is; reflexivity).
    change (get_num_bits (fword p)) with (num_metadata p). rewrite num_features, to_nat_len.
    next; [exact G|]. exact G'. }
  destruct G2 as (o2 & G2).
  (* events *)
  assert (AD : at_off f (word_at f 40) (concat (map (event_bytes ord s) (wd_events p)))) by (eapply at_exists; [exact D4|exact D3]).
  assert (Y31 : apart_at p (apart_of fs_new) y 31 = y) by reflexivity.
  destruct (gets_events f Hf cf All ord s (no_kernel p) (wd_events p) Ev (S (length f)) (word_at f 40) st2) as (st3 & AM & G3).
  { assert (X := events_many _ Ev). assert (Z := at_end_le _ _ _ AD). unfold len in Z. lia. }
  { exact AD. }
  { exact Ym. }
  { exact Sw. }
  { destruct Rs as [->|Rs']; [now left|]. right. intros X. apply Rs'. rewrite <- (proj1 Ym). change (fs_readers st2) with (ap_readers y) in X. now rewrite X. }
  { change (fs_attrs st2) with (ap_attrs y). rewrite Ya. apply no_kernel_is. }
  assert (Ty : fs_types st3 = if_asked p 12 (wd_types p)) by (rewrite (al_types _ _ _ _ _ AM); reflexivity).
  assert (Ms : fs_mask st3 = the_mask) by (rewrite (al_mask _ _ _ _ _ AM); reflexivity).
  exists st3. split.
  - assert (G : gets (read_from_reader cf fs_new) 0 st3 (word_at f 40 + len (concat (map (event_bytes ord s) (wd_events p))))).
    { unfold read_from_reader. next; [apply gets_ask|]. next.
      { apply gets_guard. cbn [rbuf rd]. rewrite (proj2 (N.eqb_neq _ _)); [reflexivity|]. clear - L7. lia. }
      next; [exact Hd|]. cbn beta iota. next; [apply gets_guard; reflexivity|].
      unfold read_file_data. next; [apply gets_ask|]. next.
      { apply gets_guard. unfold FileModel.inside, h, the_header. cbn [rbuf rd fh_attrs fh_data fh_types sc_offset sc_size].
        rewrite D2, L6. unfold w64.
        rewrite !N.mod_small by (clear - L8 L9 D3 Hf'; unfold two63, two64 in *; lia).
        rewrite !(proj2 (N.leb_le _ _)) by (clear - L8 L9 D3; lia). reflexivity. }
      next; [exact G1|]. next; [exact G2|]. next.
      { unfold read_data_section. next; [apply gets_seek; unfold h, the_header; cbn [fh_data sc_offset]; clear - D3; lia|].
        next; [apply gets_ask|]. unfold h, the_header. cbn [fh_data sc_offset sc_size]. rewrite D2. exact G3. }
      assert (Fin : match fs_types st3 with [] => st3 | _ => add_feature 12 st3 end = st3).
      { rewrite Ty. unfold if_asked. destruct (asked p 12) eqn:A12; [|reflexivity]. destruct (wd_types p); [reflexivity|].
        apply add_same. unfold has_feature. rewrite Ms, mask_bits_are. unfold features_of. rewrite existsb_filter.
        unfold asked in A12. rewrite A12. reflexivity. }
      rewrite Fin. apply gets_ret. }
    unfold read_perf_data. change (mkReader f 0 false) with (rd f 0). unfold RereadProofs.gets in G. rewrite G. reflexivity.
  - constructor.
    + intros ty I. rewrite Ms, mask_bits_are. unfold features_of. rewrite existsb_filter.
      replace (existsb (N.eqb ty) known_features) with true; [now rewrite Bool.andb_true_r|].
      symmetry. apply existsb_exists. exists ty. split; [exact I|apply N.eqb_refl].
    + rewrite (al_attrs _ _ _ _ _ AM). exact Ya.
    + exact Ty.
    + destruct (al_events _ _ _ _ _ AM) as (evs & E1 & E2). rewrite E1. exact E2.
    + rewrite (al_meta _ _ _ _ _ AM). constructor; try reflexivity.
      intros ty. change (fm_strings (fs_meta st2)) with
        (map (fun k => (k, text_or_empty (aget N.eqb k (fm_strings (wd_meta p))))) (filter (on p 31) [9; 8; 6; 5; 4; 3])).
      rewrite text_get. cbn [existsb].
      repeat match goal with |- context [ty =? ?k] => destruct (N.eqb_spec ty k) as [->|]; [reflexivity|] end. reflexivity.
    + destruct (al_builds _ _ _ _ _ AM) as (extra & E1 & E2).
      exists (map read_back (if_asked p 2 (wd_builds p))), extra. split; [|split; [|exact E2]].
      * rewrite E1. f_equal. change (fs_builds st2) with (sel p 31 2 (map read_back (wd_builds p))).
        unfold sel, on, if_asked. change (2 <? 31) with true. cbv iota. now destruct (asked p 2).
      * clear. induction (if_asked p 2 (wd_builds p)) as [|b l IH]; [constructor|]. cbn [map]. constructor; [apply read_back_same|exact IH].
Qed.
End File.
