(** Reading attributes, metadata and whole inputs. *)
From Verif Require Import Base BytesModel BytesProofs BytesMoreProofs BufferModel BufferSpec BufferProofs TextModel Assoc
  EventSizeModel EventSizeSpec EventSizeProofs SampleModel ReaderOpsModel ReaderOpsProofs FileModel FileSpec
  FileProofs FileEventProofs FileReadProofs.
Local Open Scope N_scope.

(** ** The data section *)
Lemma no_kernel_frame s s' : frame s s' -> no_kernel s' = no_kernel s.
Proof. intros (_ & E & _). unfold no_kernel. now rewrite E. Qed.

Lemma wp_data_loop cf stop fuel : forall s r (Q : fstate -> reader -> Prop),
  good r -> stop <= len (rbuf r) -> len (rbuf r) - roff r < N.of_nat fuel ->
  (forall s' r' l, good r' -> same r r' -> roff r' = stop -> frame s s' ->
     fs_events s' = fs_events s ++ l ->
     records (cf_skip cf) (no_kernel s) (rswap r) (rbuf r) (roff r) stop l -> Q s' r') ->
  wp (data_loop fuel cf (sub64 stop (roff r)) s) r Q.
Proof.
  induction fuel as [|fuel IH]; intros s r Q G Hst Hf HQ; [lia|].
  assert (G2 := proj1 (proj2 G)). assert (G3 := proj2 (proj2 G)). unfold two63 in G2.
  cbn [data_loop].
  destruct (N.eqb_spec (sub64 stop (roff r)) 0) as [E|E].
  { assert (roff r = stop).
    { unfold sub64, two64 in E. destruct (N.le_gt_cases (roff r) stop).
      - replace (stop + 18446744073709551616 - roff r) with (stop - roff r + 1 * 18446744073709551616) in E by lia.
        rewrite N.mod_add, N.mod_small in E by lia. lia.
      - rewrite N.mod_small in E by lia. lia. }
    apply wp_ret, (HQ s r []); auto using same_refl, frame_refl; [now rewrite app_nil_r|].
    rewrite H. apply records_end. }
  apply wp_bind, wp_event_header; [exact G|]. intros r1 G1 S1 E1 h B1 B2 B3 B4.
  assert (H8 : roff r + h_size h <= len (rbuf r)).
  { destruct G1 as (_ & _ & G1). rewrite (proj1 S1) in *. lia. }
  apply wp_bind. unfold h in B3, B4, H8 |- *. rewrite <- (proj1 S1), <- (proj2 S1).
  apply (wp_event cf (roff r) s r1); rewrite ?(proj1 S1), ?(proj2 S1); auto; [lia|].
  intros s1 n r2 G2' S2 E2 Hn F1 R1. cbv beta iota.
  assert (G3' := proj2 (proj2 G2')). rewrite (proj1 S2), (proj1 S1) in G3'.
  assert (Sb : sub64 (sub64 stop (roff r)) (w64 (8 + n)) = sub64 stop (roff r2)).
  { rewrite w64_small by (unfold two64; lia). unfold sub64, two64.
    destruct (N.le_gt_cases (roff r) stop) as [L|L].
    - replace (stop + 18446744073709551616 - roff r) with (stop - roff r + 1 * 18446744073709551616) by lia.
      rewrite N.mod_add, (N.mod_small (stop - roff r)) by lia. f_equal. lia.
    - rewrite (N.mod_small (stop + 18446744073709551616 - roff r)) by lia.
      replace (stop + 18446744073709551616 - roff r + 18446744073709551616 - (8 + n))
        with (stop + 18446744073709551616 - roff r2 + 1 * 18446744073709551616) by lia.
      rewrite N.mod_add by lia. reflexivity. }
  rewrite Sb.
  assert (S02 : same r r2) by (eapply same_trans; eauto).
  apply IH; [exact G2'|rewrite (proj1 S02); exact Hst|rewrite (proj1 S02); lia|].
  intros s' r' l G' S' E' F' EV RR.
  rewrite (proj1 S02), (proj2 S02), (no_kernel_frame _ _ F1) in RR.
  fold h in B3, B4, H8, R1.
  unfold record_read in R1. cbv zeta in R1. fold h in R1.
  destruct (becomes_event (cf_skip cf) (no_kernel s) (rswap r) (rbuf r) (roff r)) eqn:BE.
  - destruct R1 as (e & t & V1 & V2 & V3 & V4 & V5 & V6).
    apply (HQ s' r' (mkFEvent e t :: l)); [exact G'|eapply same_trans; eauto|exact E'|eapply frame_trans; eauto| |].
    + rewrite EV, V1, <- app_assoc. reflexivity.
    + apply records_kept; auto; fold h; [lia|].
      replace (roff r + h_size h + len t) with (roff r2) by lia. exact RR.
  - destruct R1 as [V1 V2].
    apply (HQ s' r' l); [exact G'|eapply same_trans; eauto|exact E'|eapply frame_trans; eauto| |].
    + now rewrite EV, V1.
    + apply records_dropped; auto; fold h; [lia|].
      replace (roff r + h_size h) with (roff r2) by lia. exact RR.
Qed.

Lemma wp_data_section cf h s r (Q : fstate -> reader -> Prop) :
  good r -> sc_offset (fh_data h) + sc_size (fh_data h) <= len (rbuf r) ->
  (forall s' r' l, good r' -> same r r' -> frame s s' -> fs_events s' = fs_events s ++ l ->
     records (cf_skip cf) (no_kernel s) (rswap r) (rbuf r) (sc_offset (fh_data h))
       (sc_offset (fh_data h) + sc_size (fh_data h)) l -> Q s' r') ->
  wp (read_data_section cf h s) r Q.
Proof.
  intros G HI HQ. assert (G2 := proj1 (proj2 G)). unfold two63 in G2.
  unfold read_data_section. apply wp_bind, wp_seek; [exact G|]. intros r1 G1 S1 E1.
  apply wp_bind, wp_ask. unfold loop_fuel. rewrite (proj1 S1).
  set (stop := sc_offset (fh_data h) + sc_size (fh_data h)) in *.
  assert (E : sc_size (fh_data h) = sub64 stop (roff r1)).
  { unfold sub64, two64, stop. rewrite E1.
    replace (sc_offset (fh_data h) + sc_size (fh_data h) + 18446744073709551616 - sc_offset (fh_data h))
      with (sc_size (fh_data h) + 1 * 18446744073709551616) by lia.
    rewrite N.mod_add, N.mod_small by lia. reflexivity. }
  rewrite E. apply wp_data_loop; [exact G1|rewrite (proj1 S1); exact HI|rewrite (proj1 S1); unfold len; lia|].
  intros s' r' l G' S' E' F EV RR. rewrite (proj1 S1), (proj2 S1), E1 in RR.
  apply (HQ s' r' l); auto. eapply same_trans; eauto.
Qed.

(** ** Attributes *)
Definition quiet (s s' : fstate) : Prop :=
  fs_mask s' = fs_mask s /\ fs_events s' = fs_events s /\ fs_called s' = fs_called s.
Lemma quiet_refl s : quiet s s. Proof. repeat split. Qed.
Lemma quiet_trans a b c : quiet a b -> quiet b c -> quiet a c.
Proof. intros (?&?&?) (?&?&?). repeat split; congruence. Qed.

Lemma len_mem_write e o d e' : mem_write e o d = Ok e' -> len e' = len e.
Proof.
  unfold mem_write. destruct (o + len d <=? len e) eqn:E; [|discriminate]. intros H. injection H as <-.
  rewrite !len_app, len_firstn, len_skipn by lia. lia.
Qed.
Lemma bytes_mem_write e o d e' : bytes_ok e = true -> bytes_ok d = true -> mem_write e o d = Ok e' -> bytes_ok e' = true.
Proof.
  intros B1 B2. unfold mem_write. destruct (o + len d <=? len e); [|discriminate]. intros H. injection H as <-.
  rewrite !bytes_ok_app, bytes_ok_firstn, bytes_ok_skipn, B2 by auto. reflexivity.
Qed.
Lemma mem_write_ok e o d : o + len d <= len e -> exists e', mem_write e o d = Ok e'.
Proof. intros H. unfold mem_write. replace (o + len d <=? len e) with true by lia. eauto. Qed.

Lemma swap_attr_ok a : bytes_ok a = true -> len a = 96 ->
  exists a', swap_attr a = Ok a' /\ bytes_ok a' = true /\ len a' = 96.
Proof.
  intros B L. unfold swap_attr.
  assert (C : forall fs e, bytes_ok e = true -> len e = 96 ->
      forallb (fun f => existsb (Nat.eqb (snd f)) [1%nat; 2%nat; 4%nat; 8%nat] && (fst f + N.of_nat (snd f) <=? 96)) fs = true ->
      exists e', swap_fields fs e = Ok e' /\ bytes_ok e' = true /\ len e' = 96).
  { intros fs e Be Le HF. destruct (flips_ok fs e 0 Be) as (X1 & X2 & X3 & _).
    - rewrite Le. rewrite forallb_forall in HF. apply Forall_forall. intros f Hf. specialize (HF f Hf).
      apply andb_prop in HF. destruct HF as [HF1 HF2]. split; [|split; lia].
      unfold swap_size. cbn [existsb] in HF1. cbn.
      repeat (apply orb_prop in HF1; destruct HF1 as [HF1|HF1]; [apply Nat.eqb_eq in HF1; rewrite HF1; auto|]).
      discriminate.
    - exists (flips fs e). split; [exact X1|]. split; [exact X3|lia]. }
  match goal with |- context [swap_fields ?fs a] => destruct (C fs a B L eq_refl) as (a1 & E1 & B1 & L1) end.
  rewrite E1. cbn [obind]. unfold mem_read. rewrite L1. change (40 + 8 <=? 96) with true. cbn [obind].
  destruct (mem_write_ok a1 40 (le_bytes 8 (exchange_precise_ip (of_le (map reverse_byte (slice a1 40 8)))))) as (a2 & E2).
  { rewrite len_le_bytes, L1. cbn. lia. }
  rewrite E2. cbn [obind]. apply C; [|rewrite (len_mem_write _ _ _ _ E2); exact L1|reflexivity].
  apply (bytes_mem_write _ _ _ _ B1 (le_bytes_ok _ _) E2).
Qed.

Lemma wp_event_attr r (Q : list N -> reader -> Prop) :
  good r ->
  (forall a r', good r' -> same r r' -> roff r + 8 <= roff r' -> bytes_ok a = true -> len a = 96 -> Q a r') ->
  wp read_event_attr r Q.
Proof.
  intros G HQ. assert (G2 := proj1 (proj2 G)). unfold two63 in G2. unfold read_event_attr.
  apply wp_bind, wp_u32; [exact G|]. intros r1 G1 S1 E1 B1.
  apply wp_bind, wp_u32; [exact G1|]. intros r2 G2' S2 E2 B2. cbv zeta.
  set (ty := int_at (rswap r) (rbuf r) (roff r) 4) in *.
  set (size := int_at (rswap r1) (rbuf r1) (roff r1) 4) in *. unfold two32 in B1, B2.
  set (readable := N.min size 96).
  apply wp_bind, wp_data; [exact G2'|unfold sub64, two64; apply N.mod_lt; lia|]. intros r3 G3 S3 E3 L3 B3.
  assert (S02 : rbuf r2 = rbuf r) by (rewrite (proj1 S2); apply S1).
  assert (H8 : 8 <= readable).
  { destruct (N.le_gt_cases 8 readable); [assumption|]. exfalso.
    assert (L3' : sub64 readable 8 <= len (rbuf r)).
    { rewrite <- L3, S02. unfold slice, len. rewrite firstn_length, skipn_length. lia. }
    unfold sub64, two64 in L3'. rewrite N.mod_small in L3' by lia. lia. }
  assert (ER : sub64 readable 8 = readable - 8).
  { unfold sub64, two64. replace (readable + 18446744073709551616 - 8) with (readable - 8 + 1 * 18446744073709551616) by lia.
    rewrite N.mod_add, N.mod_small by lia. reflexivity. }
  rewrite ER in *.
  set (a0 := le_bytes 4 ty ++ le_bytes 4 size ++ repeat 0 88).
  assert (L0 : len a0 = 96) by (unfold a0; rewrite !len_app, !len_le_bytes; reflexivity).
  assert (B0 : bytes_ok a0 = true) by (unfold a0; rewrite !bytes_ok_app, !le_bytes_ok; reflexivity).
  apply wp_bind, wp_lift.
  destruct (mem_write_ok a0 8 (slice (rbuf r2) (roff r2) (readable - 8))) as (a1 & EA); [rewrite L3, L0; lia|].
  rewrite EA. assert (L1 := len_mem_write _ _ _ _ EA). assert (BA := bytes_mem_write _ _ _ _ B0 B3 EA).
  apply wp_bind, wp_ask. unfold tell.
  assert (G3'' := proj2 (proj2 G3)). rewrite (proj1 S3), S02 in G3''.
  assert (EP : sub64 (w64 (roff r3 + size)) readable = roff r3 + size - readable).
  { rewrite w64_small by (unfold two64; lia). unfold sub64, two64.
    replace (roff r3 + size + 18446744073709551616 - readable) with (roff r3 + size - readable + 1 * 18446744073709551616) by lia.
    rewrite N.mod_add, N.mod_small by lia. reflexivity. }
  rewrite EP. apply wp_bind, wp_seek; [exact G3|]. intros r4 G4 S4 E4.
  apply wp_bind, wp_ask. apply wp_bind, wp_lift.
  assert (SA : exists a2, (if rswap r4 then swap_attr a1 else Ok a1) = Ok a2 /\ bytes_ok a2 = true /\ len a2 = 96).
  { destruct (rswap r4); [apply swap_attr_ok; auto; lia|]. exists a1. repeat split; auto. }
  destruct SA as (a2 & -> & B4 & L4). apply wp_lift.
  destruct (mem_write_ok a2 4 (le_bytes 4 96)) as (a3 & E5); [rewrite len_le_bytes, L4; cbn; lia|]. rewrite E5.
  apply HQ; auto.
  - repeat (eapply same_trans; [eassumption|]). apply same_refl.
  - lia.
  - apply (bytes_mem_write _ _ _ _ B4 (le_bytes_ok _ _) E5).
  - now rewrite (len_mem_write _ _ _ _ E5).
Qed.

Lemma add_file_attr_ok a s :
  match add_file_attr a s with
  | Ok s' => quiet s s' /\ fs_attrs s' = fs_attrs s ++ [a]
  | Fail => True
  | _ => False
  end.
Proof.
  unfold add_file_attr, update_positions. cbv zeta. destruct (id_positions _) as [sp op].
  destruct s as [a1 a2 a3 a4 a5 a6 a7 a8 a9 a10 a11 a12 a13]. cbn [put_attrs put_readers fs_sample_pos fs_other_pos].
  destruct (_ && _); [|exact I]. cbn [obind].
  destruct (fa_ids a); now repeat split.
Qed.

Lemma wp_attr s r (Q : fstate -> reader -> Prop) :
  good r ->
  (forall s' r', good r' -> same r r' -> roff r <= roff r' -> quiet s s' -> Q s' r') ->
  wp (read_attr s) r Q.
Proof.
  intros G HQ. unfold read_attr. apply wp_bind, wp_event_attr; [exact G|]. intros a r1 G1 S1 E1 _ _.
  apply wp_bind, wp_section; [exact G1|]. intros r2 G2 S2 E2 sec HS.
  apply wp_bind, wp_ask. apply wp_bind, wp_seek; [exact G2|]. intros r3 G3 S3 E3.
  apply wp_bind, wp_ids; [exact G3|]. intros l r4 G4 S4 E4 _ _.
  apply wp_bind, wp_seek; [exact G4|]. intros r5 G5 S5 E5. apply wp_lift.
  assert (X := add_file_attr_ok (mkFAttr a l) s). destruct (add_file_attr _ s) as [s'| | | |]; try exact X.
  apply HQ; auto.
  - repeat (eapply same_trans; [eassumption|]). apply same_refl.
  - unfold tell in E5. lia.
  - apply X.
Qed.

Lemma wp_repeat f (P : Prop) :
  (forall s r (Q : fstate -> reader -> Prop), good r ->
     (forall s' r', good r' -> same r r' -> roff r <= roff r' -> quiet s s' -> Q s' r') -> wp (f s) r Q) ->
  forall n s r (Q : fstate -> reader -> Prop), good r ->
    (forall s' r', good r' -> same r r' -> roff r <= roff r' -> quiet s s' -> Q s' r') ->
    wp (repeat_read n f s) r Q.
Proof.
  intros Hf. induction n as [|n IH]; intros s r Q G HQ; cbn [repeat_read].
  - apply wp_ret, HQ; auto using same_refl, quiet_refl; lia.
  - apply wp_bind, Hf; [exact G|]. intros s1 r1 G1 S1 E1 F1. apply IH; [exact G1|].
    intros s2 r2 G2 S2 E2 F2. apply HQ; [exact G2|eapply same_trans; eauto|lia|eapply quiet_trans; eauto].
Qed.

Lemma wp_event_type idx size s r (Q : fstate -> reader -> Prop) :
  good r -> size < two16 -> 
  (forall s' r', good r' -> same r r' -> roff r <= roff r' -> (size = 0 \/ roff r' = roff r + size - 8) -> quiet s s' -> Q s' r') ->
  wp (read_event_type idx size s) r Q.
Proof.
  intros G Hs HQ. assert (G2 := proj1 (proj2 G)). unfold two63 in G2. unfold two16 in Hs.
  unfold read_event_type. apply wp_bind, wp_u64; [exact G|]. intros r1 G1 S1 E1 _. cbv zeta.
  apply wp_bind, wp_str; [exact G1| |].
  { destruct (size =? 0); [unfold two64; lia|unfold sub64, two64; apply N.mod_lt; lia]. }
  intros name r2 G2' S2 E2 _ _. destruct (nth_error _ _) as [a|]; [|apply wp_fail].
  apply wp_bind, wp_guard. intros _. apply wp_ret, HQ; auto.
  - eapply same_trans; eauto.
  - lia.
  - destruct (N.eqb_spec size 0) as [Z|Z]; [auto|]. right.
    assert (G3 := proj2 (proj2 G2')). rewrite (proj1 S2), (proj1 S1) in G3.
    destruct (N.le_gt_cases 16 size) as [L|L].
    + unfold sub64, two64 in E2. replace (size + 18446744073709551616 - 16) with (size - 16 + 1 * 18446744073709551616) in E2 by lia.
      rewrite N.mod_add, N.mod_small in E2 by lia. lia.
    + unfold sub64, two64 in E2. rewrite N.mod_small in E2 by lia. lia.
  - destruct s; now repeat split.
Qed.

Lemma wp_event_types n : forall idx s r (Q : fstate -> reader -> Prop),
  good r -> (forall s' r', good r' -> same r r' -> quiet s s' -> Q s' r') ->
  wp (read_event_types n idx s) r Q.
Proof.
  induction n as [|n IH]; intros idx s r Q G HQ; cbn [read_event_types].
  - apply wp_ret, HQ; auto using same_refl, quiet_refl.
  - apply wp_bind, wp_event_type; [exact G|reflexivity|]. intros s1 r1 G1 S1 _ _ F1. apply IH; [exact G1|].
    intros s2 r2 G2 S2 F2. apply HQ; [exact G2|eapply same_trans; eauto|eapply quiet_trans; eauto].
Qed.

Lemma wp_attrs_section h s r (Q : fstate -> reader -> Prop) :
  good r -> (forall s' r', good r' -> same r r' -> quiet s s' -> Q s' r') ->
  wp (rlet s := read_attrs_section h s in read_event_types_section h s) r Q.
Proof.
  intros G HQ. apply wp_bind. unfold read_attrs_section. apply wp_bind, wp_guard. intros _.
  apply wp_bind, wp_seek; [exact G|]. intros r1 G1 S1 _.
  apply (wp_repeat read_attr True wp_attr); [exact G1|]. intros s2 r2 G2 S2 _ F2.
  assert (S02 : same r r2) by (eapply same_trans; eauto).
  unfold read_event_types_section. cbv zeta. destruct (_ =? 0); [apply wp_ret, HQ; auto|].
  apply wp_bind, wp_guard. intros _. apply wp_bind, wp_guard. intros _.
  apply wp_bind, wp_seek; [exact G2|]. intros r3 G3 S3 _.
  apply wp_event_types; [exact G3|]. intros s4 r4 G4 S4 F4.
  apply HQ; [exact G4| |eapply quiet_trans; eauto].
  eapply same_trans; [exact S02|]. eapply same_trans; eauto.
Qed.

(** ** Metadata *)
Lemma wp_build_id h s r (Q : fstate -> reader -> Prop) :
  good r -> h_type h < two32 -> h_misc h < two16 -> 8 <= h_size h < two16 ->
  (forall s' r', good r' -> same r r' -> roff r' = roff r + h_size h - 8 -> quiet s s' -> Q s' r') ->
  wp (read_build_id h s) r Q.
Proof.
  intros G B1 B2 B3 HQ. unfold read_build_id. apply wp_bind, wp_guard. intros H36.
  apply wp_bind, wp_data; [exact G|unfold two16, two64 in *; lia|]. intros r1 G1 S1 E1 L1 BB.
  apply wp_bind, wp_ask. cbv zeta.
  destruct (new_block_ok h _ B1 B2 B3 BB L1) as (W & _ & _ & _ & L).
  fold (new_block h (slice (rbuf r) (roff r) (h_size h - 8))).
  set (e := new_block h (slice (rbuf r) (roff r) (h_size h - 8))) in *.
  apply wp_bind, wp_lift.
  assert (X : exists e', (if rswap r1 then swap_at 8 4 e else Ok e) = Ok e' /\ len e' = len e).
  { destruct (rswap r1); [|eauto]. exists (flip 8 4 e). split; [|apply len_flip; change (N.of_nat 4) with 4; lia].
    apply swap_at_ok; [apply W|cbn; auto|change (N.of_nat 4) with 4; lia]. }
  destruct X as (e' & -> & L'). apply wp_bind, wp_lift.
  rewrite ev_strnlen_ok by lia. apply wp_bind, wp_guard. intros _. apply wp_bind, wp_guard. intros _.
  apply wp_bind, wp_lift. unfold mem_read. rewrite L', L. replace (8 + 4 <=? h_size h) with true by lia. cbn [obind].
  apply wp_bind, wp_lift. rewrite ?L', ?L. replace (12 + 20 <=? h_size h) with true by lia.
  apply wp_bind, wp_lift. rewrite ?L', ?L. replace (32 + 1 <=? h_size h) with true by lia. cbn [obind].
  destruct (serialize_build_id_event _) as [[|] b]; [|apply wp_fail].
  apply wp_ret, HQ; auto; [lia|]. destruct s; now repeat split.
Qed.

Lemma wp_build_id_loop fuel : forall left s r (Q : fstate -> reader -> Prop),
  good r -> len (rbuf r) - roff r < N.of_nat fuel ->
  (forall s' r', good r' -> same r r' -> quiet s s' -> Q s' r') ->
  wp (build_id_loop fuel left s) r Q.
Proof.
  induction fuel as [|fuel IH]; intros left s r Q G Hf HQ; [lia|]. cbn [build_id_loop].
  destruct (left =? 0); [apply wp_ret, HQ; auto using same_refl, quiet_refl|].
  apply wp_bind, wp_event_header; [exact G|]. intros r1 G1 S1 E1 h B1 B2 B3 _.
  apply wp_bind, wp_guard. intros _.
  apply wp_bind, wp_build_id; [exact G1|exact B1|exact B2|exact B3|]. intros s2 r2 G2 S2 E2 F2.
  assert (S02 : same r r2) by (eapply same_trans; eauto). assert (G3 := proj2 (proj2 G2)).
  apply IH; [exact G2|rewrite (proj1 S02) in *; lia|]. intros s3 r3 G3' S3 F3.
  apply HQ; [exact G3'|eapply same_trans; eauto|eapply quiet_trans; eauto].
Qed.

Lemma wp_single_string size r (Q : list N -> reader -> Prop) :
  good r -> (forall s r', good r' -> same r r' -> Q s r') -> wp (read_single_string size) r Q.
Proof.
  intros G HQ. unfold read_single_string. destruct (size =? 0); [apply wp_ret, HQ; auto using same_refl|].
  apply wp_sized_str; [exact G|]. intros s r' G' S' _ _. now apply HQ.
Qed.

Lemma wp_string_loop count : forall a max r (Q : list (list N) -> reader -> Prop),
  good r -> (forall l r', good r' -> same r r' -> Q l r') -> wp (string_loop count a max) r Q.
Proof.
  induction count as [|c IH]; intros a max r Q G HQ; cbn [string_loop].
  - apply wp_ret, HQ; auto using same_refl.
  - destruct (a <? max); [|apply wp_ret, HQ; auto using same_refl].
    apply wp_bind, wp_ask. apply wp_bind, wp_single_string; [exact G|]. intros t r1 G1 S1.
    apply wp_bind, wp_ask. apply wp_bind, IH; [exact G1|]. intros l r2 G2 S2. apply wp_ret, HQ; auto.
    eapply same_trans; eauto.
Qed.

Lemma wp_number_loop n fuel : In n [4%nat; 8%nat] -> forall size r (Q : list N -> reader -> Prop),
  good r -> len (rbuf r) - roff r < N.of_nat fuel ->
  (forall l r', good r' -> same r r' -> Q l r') -> wp (number_loop fuel n size) r Q.
Proof.
  intros Hn. induction fuel as [|fuel IH]; intros size r Q G Hf HQ; [lia|]. cbn [number_loop].
  destruct (size =? 0); [apply wp_ret, HQ; auto using same_refl|].
  apply wp_bind, wp_int; [exact G|cbn in *; intuition|]. intros r1 G1 S1 E1. assert (G3 := proj2 (proj2 G1)).
  apply wp_bind, IH; [exact G1| |].
  - rewrite (proj1 S1) in *. cbn in Hn. destruct Hn as [<-|[<-|[]]]; lia.
  - intros l r2 G2 S2. apply wp_ret, HQ; auto. eapply same_trans; eauto.
Qed.

Lemma wp_numbers n size r (Q : list N -> reader -> Prop) :
  In n [4%nat; 8%nat] -> good r ->
  (forall l r', good r' -> same r r' -> Q l r') -> wp (read_numbers n size) r Q.
Proof.
  intros Hn G HQ. unfold read_numbers. apply wp_bind, wp_ask.
  apply wp_bind, wp_number_loop; [exact Hn|exact G|unfold loop_fuel, len; lia|]. intros l r1 G1 S1.
  apply wp_bind, wp_guard. intros _. now apply wp_ret, HQ.
Qed.

Lemma wp_event_desc s r (Q : fstate -> reader -> Prop) :
  good r ->
  (forall s' r', good r' -> same r r' -> roff r <= roff r' -> quiet s s' -> Q s' r') ->
  wp (read_event_desc s) r Q.
Proof.
  intros G HQ. unfold read_event_desc. apply wp_bind, wp_event_attr; [exact G|]. intros a r1 G1 S1 E1 _ _.
  apply wp_bind, wp_u32; [exact G1|]. intros r2 G2 S2 E2 _.
  apply wp_bind, wp_sized_str; [exact G2|]. intros name r3 G3 S3 E3 _.
  apply wp_bind, wp_ids; [exact G3|]. intros l r4 G4 S4 E4 _ _. apply wp_bind, wp_lift.
  assert (X := add_file_attr_ok (mkFAttr a l) s). destruct (add_file_attr _ s) as [s'| | | |]; try exact X.
  apply wp_ret, HQ; auto.
  - repeat (eapply same_trans; [eassumption|]). apply same_refl.
  - lia.
  - destruct X as [(X1 & X2 & X3) _]. destruct s'; now repeat split.
Qed.

(** Anything made of reads of numbers and strings. *)
Definition plain {A} (f : rcall A) : Prop :=
  forall r (Q : A -> reader -> Prop), good r -> (forall a r', good r' -> same r r' -> Q a r') -> wp f r Q.
Lemma plain_bind {A B} (f : rcall A) (g : A -> rcall B) : plain f -> (forall a, plain (g a)) -> plain (rbind f g).
Proof.
  intros Hf Hg r Q G HQ. apply wp_bind, Hf; [exact G|]. intros a r1 G1 S1. apply Hg; [exact G1|].
  intros b r2 G2 S2. apply HQ; auto. eapply same_trans; eauto.
Qed.
Lemma plain_ret {A} (a : A) : plain (rret a).
Proof. intros r Q G HQ. apply wp_ret, HQ; auto using same_refl. Qed.
Lemma plain_u32 : plain read_u32.
Proof. intros r Q G HQ. apply wp_u32; [exact G|]. intros. now apply HQ. Qed.
Lemma plain_u64 : plain read_u64.
Proof. intros r Q G HQ. apply wp_u64; [exact G|]. intros. now apply HQ. Qed.
Lemma plain_str : plain read_string_with_size.
Proof. intros r Q G HQ. apply wp_sized_str; [exact G|]. intros. now apply HQ. Qed.
Lemma plain_n {A} n (f : rcall A) : plain f -> plain (read_n n f).
Proof. intros Hf. induction n as [|n IH]; cbn [read_n]; auto using plain_ret, plain_bind. Qed.
Lemma plain_guard b : plain (rguard b).
Proof. intros r Q G HQ. apply wp_guard. intros _. apply HQ; auto using same_refl. Qed.
Lemma plain_ask {A} (f : reader -> A) : plain (rask f).
Proof. intros r Q G HQ. apply wp_ask, HQ; auto using same_refl. Qed.
Lemma plain_data n : n < two64 -> plain (read_data n).
Proof. intros Hn r Q G HQ. apply wp_data; [exact G|exact Hn|]. intros. now apply HQ. Qed.

Ltac plain_tac :=
  repeat first [apply plain_ret | apply plain_u32 | apply plain_u64 | apply plain_str | apply plain_guard
               | apply plain_ask | apply plain_n | apply plain_bind; [|intros]].

(** Metadata readers end in a state that differs in the metadata only. *)
Definition plain_state (f : rcall fstate) (s : fstate) : Prop :=
  forall r (Q : fstate -> reader -> Prop), good r ->
    (forall s' r', good r' -> same r r' -> quiet s s' -> Q s' r') -> wp f r Q.
Lemma ps_bind {A} (f : rcall A) (g : A -> rcall fstate) s :
  plain f -> (forall a, plain_state (g a) s) -> plain_state (rbind f g) s.
Proof.
  intros Hf Hg r Q G HQ. apply wp_bind, Hf; [exact G|]. intros a r1 G1 S1. apply Hg; [exact G1|].
  intros b r2 G2 S2. apply HQ; auto. eapply same_trans; eauto.
Qed.
Lemma ps_ret s s' : quiet s s' -> plain_state (rret s') s.
Proof. intros H r Q G HQ. apply wp_ret, HQ; auto using same_refl. Qed.
Lemma quiet_meta s m : quiet s (put_meta m s).
Proof. destruct s. now repeat split. Qed.

Lemma ps_feature ty size s : size < two64 -> plain_state (read_feature ty size s) s.
Proof.
  intros Hsz. unfold read_feature.
  destruct (ty =? 1).
  { unfold read_tracing. apply ps_bind; [now apply plain_data|]. intros d.
    destruct (size =? 0); apply ps_ret; [apply quiet_refl|apply quiet_meta]. }
  destruct (ty =? 2).
  { intros r Q G HQ. apply wp_bind, wp_ask. apply wp_build_id_loop; [exact G|unfold loop_fuel, len; lia|auto]. }
  destruct (existsb _ _).
  { apply ps_bind; [|intros; apply ps_ret, quiet_meta]. intros r Q G HQ. now apply wp_single_string. }
  destruct (ty =? 11).
  { apply ps_bind; [plain_tac|]. intros c. apply ps_bind; [|intros; apply ps_ret, quiet_meta].
    intros r Q G HQ. now apply wp_string_loop. }
  destruct (ty =? 7).
  { apply ps_bind; [|intros; apply ps_ret, quiet_meta]. intros r Q G HQ. apply wp_numbers; auto. cbn; auto. }
  destruct (ty =? 10).
  { apply ps_bind; [|intros; apply ps_ret, quiet_meta]. intros r Q G HQ. apply wp_numbers; auto. cbn; auto. }
  destruct (ty =? 12).
  { unfold read_event_descs. apply ps_bind; [plain_tac|]. intros nr. apply ps_bind; [plain_tac|]. intros _.
    apply ps_bind; [plain_tac|]. intros _. intros r Q G HQ.
    apply (wp_repeat read_event_desc True wp_event_desc); [exact G|]. intros s' r' G' S' _ F'.
    apply HQ; auto. destruct s; exact F'. }
  destruct (ty =? 13).
  { unfold read_cpu_topology. do 8 (apply ps_bind; [plain_tac|intros]).
    apply ps_bind; [|intros; apply ps_ret, quiet_meta]. destruct (_ <? size); plain_tac. }
  destruct (ty =? 14).
  { unfold read_numa. do 2 (apply ps_bind; [plain_tac|intros]). apply ps_ret, quiet_meta. }
  destruct (ty =? 15); [apply ps_ret, quiet_refl|].
  destruct (ty =? 16).
  { unfold read_pmu. do 3 (apply ps_bind; [plain_tac|intros]). apply ps_ret, quiet_meta. }
  destruct (ty =? 17).
  { unfold read_groups. do 2 (apply ps_bind; [plain_tac|intros]). apply ps_ret, quiet_meta. }
  destruct (ty =? 30).
  { unfold read_hybrid. do 2 (apply ps_bind; [plain_tac|intros]). apply ps_ret, quiet_meta. }
  apply ps_ret, quiet_refl.
Qed.

(** One metadata item: it ends behind its size, and sets at most its own bit. *)
Definition adds_bit (ty : N) (s s' : fstate) : Prop :=
  (forall i, i <> ty -> N.testbit (fs_mask s') i = N.testbit (fs_mask s) i) /\
  fs_events s' = fs_events s /\ fs_called s' = fs_called s.

Lemma wp_metadata_item ty size s r (Q : fstate -> reader -> Prop) :
  good r -> size < two64 ->
  (forall s' r', good r' -> same r r' -> roff r' = roff r + size -> adds_bit ty s s' -> Q s' r') ->
  wp (read_metadata_item ty size s) r Q.
Proof.
  intros G Hs HQ. assert (G2 := proj1 (proj2 G)). assert (G3 := proj2 (proj2 G)). unfold two63 in G2.
  unfold read_metadata_item. apply wp_bind, wp_ask. apply wp_bind, wp_guard. intros HR.
  rewrite remaining_good in HR by exact G. apply wp_bind, wp_ask. unfold tell.
  apply wp_bind, ps_feature; [exact Hs|exact G|]. intros s1 r1 G1 S1 F1. cbv zeta.
  assert (G4 := proj2 (proj2 G1)). rewrite (proj1 S1) in G4.
  set (s2 := if existsb (N.eqb ty) supported_features then add_feature ty s1 else s1).
  assert (AB : adds_bit ty s s2).
  { destruct F1 as (F1 & F2 & F3). unfold s2. destruct (existsb _ _).
    - unfold add_feature, adds_bit. destruct s1 as [m x1 x2 x3 x4 x5 x6 x7 x8 x9 x10 x11 x12]. cbn [put_mask fs_mask fs_events fs_called] in *. subst m.
      repeat split; auto. intros i Hi. apply N.setbit_neq. auto.
    - repeat split; auto. intros i _. now rewrite F1. }
  apply wp_bind, wp_ask. destruct (N.eqb_spec size (sub64 (roff r1) (roff r))) as [E|E].
  - apply wp_ret, HQ; auto. unfold sub64, two64 in E.
    destruct (N.le_gt_cases (roff r) (roff r1)) as [L|L].
    + replace (roff r1 + 18446744073709551616 - roff r) with (roff r1 - roff r + 1 * 18446744073709551616) in E by lia.
      rewrite N.mod_add, N.mod_small in E by lia. lia.
    + rewrite N.mod_small in E by lia. lia.
  - apply wp_bind, wp_seek; [exact G1|]. intros r2 G2' S2 E2. apply wp_ret, HQ; auto; [eapply same_trans; eauto|].
    rewrite E2. unfold w64, sub64, two64.
    destruct (N.le_gt_cases (roff r) (roff r1)) as [L|L].
    + replace (roff r1 + 18446744073709551616 - roff r) with (roff r1 - roff r + 1 * 18446744073709551616) by lia.
      rewrite N.mod_add, (N.mod_small (roff r1 - roff r)) by lia.
      destruct (N.le_gt_cases (roff r1 - roff r) size) as [L'|L'].
      * replace (size + 18446744073709551616 - (roff r1 - roff r)) with (size - (roff r1 - roff r) + 1 * 18446744073709551616) by lia.
        rewrite N.mod_add, (N.mod_small (size - (roff r1 - roff r))) by lia. rewrite N.mod_small by lia. lia.
      * rewrite (N.mod_small (size + 18446744073709551616 - (roff r1 - roff r))) by lia.
        replace (roff r1 + (size + 18446744073709551616 - (roff r1 - roff r))) with (roff r + size + 1 * 18446744073709551616) by lia.
        rewrite N.mod_add, N.mod_small by lia. reflexivity.
    + rewrite (N.mod_small (roff r1 + 18446744073709551616 - roff r)) by lia.
      replace (size + 18446744073709551616 - (roff r1 + 18446744073709551616 - roff r)) with (size + roff r - roff r1) by lia.
      rewrite (N.mod_small (size + roff r - roff r1)) by lia. rewrite N.mod_small by lia. lia.
Qed.

Definition same_events (s s' : fstate) : Prop :=
  fs_events s' = fs_events s /\ fs_called s' = fs_called s.
Lemma same_events_trans a b c : same_events a b -> same_events b c -> same_events a c.
Proof. intros [] []. split; congruence. Qed.

(** Enough sections for the bits still to be visited. *)
Lemma wp_metadata_loop types : forall sections s r (Q : fstate -> reader -> Prop),
  good r -> NoDup types ->
  (length (filter (N.testbit (fs_mask s)) types) <= length sections)%nat ->
  Forall (fun c => sc_size c < two64) sections ->
  (forall s' r', good r' -> same r r' -> same_events s s' -> Q s' r') ->
  wp (metadata_loop types sections s) r Q.
Proof.
  induction types as [|ty types IH]; intros sections s r Q G ND HL HS HQ; cbn [metadata_loop].
  - apply wp_ret, HQ; auto using same_refl. now split.
  - inversion_clear ND as [|? ? ND1 ND2]. cbn [filter] in HL. unfold has_feature.
    destruct (N.testbit (fs_mask s) ty) eqn:E.
    + cbn [length] in HL. destruct sections as [|sec rest]; [cbn in HL; lia|]. cbn [length] in HL.
      inversion_clear HS as [|? ? HS1 HS2].
      apply wp_bind, wp_seek; [exact G|]. intros r1 G1 S1 _.
      apply wp_bind, wp_metadata_item; [exact G1|exact HS1|]. intros s2 r2 G2 S2 _ (M & A1 & A2).
      apply IH; [exact G2|exact ND2| |exact HS2|].
      * assert (EF : filter (N.testbit (fs_mask s2)) types = filter (N.testbit (fs_mask s)) types).
        { apply filter_ext_in. intros i Hi. apply M. intros ->. contradiction. }
        rewrite EF. lia.
      * intros s' r' G' S' F'. apply HQ; [exact G'| |eapply same_events_trans; [split; eauto|exact F']].
        eapply same_trans; [exact S1|]. eapply same_trans; eauto.
    + apply IH; auto.
Qed.

Lemma bits_filter x (l : list nat) :
  fold_right (fun i acc => acc + (if N.testbit x (N.of_nat i) then 1 else 0)) 0 l =
  N.of_nat (length (filter (fun i => N.testbit x (N.of_nat i)) l)).
Proof.
  induction l as [|i l IH]; [reflexivity|]. cbn [fold_right filter]. rewrite IH.
  destruct (N.testbit x (N.of_nat i)); cbn [length]; lia.
Qed.

Lemma feature_bits x : x < two64 ->
  (length (filter (N.testbit x) feature_types) <= N.to_nat (get_num_bits x))%nat.
Proof.
  intros H. rewrite (get_num_bits_spec 64 x H). unfold bits_upto.
  change (SampleModel.seq) with (SampleModel.seq). rewrite bits_filter, Nat2N.id.
  unfold feature_types.
  assert (E : forall l, length (filter (N.testbit x) (map N.of_nat l)) = length (filter (fun i => N.testbit x (N.of_nat i)) l)).
  { induction l as [|i l IH]; [reflexivity|]. cbn [map filter]. destruct (N.testbit x (N.of_nat i)); cbn [length]; now rewrite IH. }
  rewrite E. change (List.seq 0 64) with ([0%nat] ++ List.seq 1 30 ++ List.seq 31 33).
  rewrite !filter_app, !app_length. lia.
Qed.

Lemma feature_types_nodup : NoDup feature_types.
Proof.
  unfold feature_types. apply FinFun.Injective_map_NoDup; [intros a b; apply Nat2N.inj|apply seq_NoDup].
Qed.

Lemma wp_metadata h s r (Q : fstate -> reader -> Prop) :
  good r -> fs_mask s < two64 ->
  (forall s' r', good r' -> same r r' -> same_events s s' -> Q s' r') ->
  wp (read_metadata h s) r Q.
Proof.
  intros G HM HQ. unfold read_metadata. apply wp_bind, wp_seek; [exact G|]. intros r1 G1 S1 _.
  apply wp_bind, (wp_read_n read_section 16 (fun c => sc_size c < two64)); [|exact G1|].
  - intros r0 Q0 G0 HQ0. apply wp_section; [exact G0|]. intros r' G' S' E' sec HI. apply HQ0; auto; [lia|].
    assert (X := proj1 (proj2 G0)). unfold two63, two64 in *. lia.
  - intros l r2 G2 S2 _ L F. apply wp_metadata_loop; [exact G2|exact feature_types_nodup| |exact F|].
    + rewrite L. now apply feature_bits.
    + intros s' r' G' S' F'. apply HQ; auto. eapply same_trans; [exact S1|]. eapply same_trans; eauto.
Qed.
