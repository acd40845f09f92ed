(** Reading whole inputs. *)
From Verif Require Import Base BytesModel BytesProofs BytesMoreProofs BufferModel BufferSpec BufferProofs TextModel Assoc
  EventSizeModel EventSizeSpec EventSizeProofs SampleModel ReaderOpsModel ReaderOpsProofs FileModel FileSpec
  FileProofs FileEventProofs FileReadProofs FileMetaProofs.
Local Open Scope N_scope.

Lemma magic_match b : bytes_ok b = true -> 8 <= len b ->
  (int_at false b 0 8 = perf_magic -> slice b 0 8 = magic_bytes false) /\
  (int_at false b 0 8 = bswap64 perf_magic -> slice b 0 8 = magic_bytes true).
Proof.
  intros B L. unfold int_at. change (N.of_nat 8) with 8. set (d := slice b 0 8).
  assert (Bd : bytes_ok d = true) by now apply bytes_ok_slice.
  assert (Ld : len d = 8) by (apply len_slice; lia).
  assert (E : d = le_bytes 8 (of_le d)).
  { rewrite <- (le_bytes_of_le d) at 1 by exact Bd. f_equal. unfold len in Ld. lia. }
  cbv zeta. split; intros H; rewrite E, H; vm_compute; reflexivity.
Qed.

Definition header_result (sw : bool) (b : list N) (s : fstate) (x : fstate * N * option fheader) : Prop :=
  let '(s', size, oh) := x in
  len b >= 16 /\ slice b 0 8 = magic_bytes sw /\ int_at sw b 8 8 = size /\
  match oh with
  | None => size = 16 /\ s' = s
  | Some h => 104 <= len b /\ (exists m, s' = put_mask m s /\ m < two64) /\
      fh_attr_size h = int_at sw b 16 8 /\ fh_attrs h = section_at sw b 24 /\
      fh_data h = section_at sw b 40 /\ fh_types h = section_at sw b 56 /\
      section_inside b (section_at sw b 24) /\ section_inside b (section_at sw b 40) /\
      section_inside b (section_at sw b 56)
  end.

Lemma wp_header b s (Q : fstate * N * option fheader -> reader -> Prop) :
  bytes_ok b = true -> len b < two63 ->
  (forall sw x r', good r' -> rbuf r' = b -> rswap r' = sw ->
     header_result sw b s x -> (snd x = None -> roff r' = 16) -> Q x r') ->
  wp (read_header s) (mkReader b 0 false) Q.
Proof.
  intros B L HQ. assert (G : good (mkReader b 0 false)) by (repeat split; cbn [rbuf roff]; auto; lia).
  unfold read_header. apply wp_bind, wp_ask. apply wp_bind, wp_check; [reflexivity|].
  apply wp_bind, wp_u64; [exact G|]. cbn [rbuf roff rswap]. intros r1 G1 [S1 S1'] E1 B1. cbn [rbuf roff rswap] in *.
  assert (L8 : 8 <= len b) by (destruct G1 as (_ & _ & G1); rewrite S1 in G1; lia).
  destruct (magic_match b B L8) as [M1 M2].
  set (m := int_at false b 0 8) in *.
  apply wp_bind, wp_guard. intros HM. set (sw := negb (m =? perf_magic)).
  assert (MB : slice b 0 8 = magic_bytes sw).
  { unfold sw. destruct (N.eqb_spec m perf_magic) as [E|E]; [now apply M1|].
    apply M2. cbn [orb] in HM. now apply N.eqb_eq. }
  apply wp_bind. unfold wp at 1. cbv beta iota.
  set (r2 := mkReader (rbuf r1) (roff r1) sw).
  assert (G2 : good r2) by (unfold r2, good in *; cbn [rbuf roff]; exact G1).
  assert (Bu2 : rbuf r2 = b) by exact S1. assert (O2 : roff r2 = 8) by exact E1.
  apply wp_bind, wp_u64; [exact G2|]. change (rswap r2) with sw. rewrite Bu2, O2.
  intros r3 G3 [S3 S3'] E3 B3. rewrite Bu2 in S3. change (rswap r2) with sw in S3'.
  apply wp_bind, wp_ask. unfold tell. apply wp_bind, wp_check; [rewrite E3; reflexivity|].
  assert (L16 : 16 <= len b) by (destruct G3 as (_ & _ & G3); rewrite S3 in G3; lia).
  destruct (N.eqb_spec (int_at sw b 8 8) 16) as [E16|E16].
  { apply wp_ret, (HQ sw); auto. unfold header_result. repeat split; auto. lia. }
  replace (8 + 8) with 16 in E3 by reflexivity.
  apply wp_bind, wp_u64; [exact G3|]. rewrite S3, S3', E3.
  intros r4 G4 [S4 S4'] E4 _. rewrite S3 in S4. rewrite S3' in S4'. replace (16 + 8) with 24 in E4 by reflexivity.
  apply wp_bind, wp_section; [exact G4|]. rewrite S4, S4', E4. intros r5 G5 [S5 S5'] E5 a1 I1.
  rewrite S4 in S5. rewrite S4' in S5'. replace (24 + 16) with 40 in E5 by reflexivity.
  apply wp_bind, wp_section; [exact G5|]. rewrite S5, S5', E5. intros r6 G6 [S6 S6'] E6 a2 I2.
  rewrite S5 in S6. rewrite S5' in S6'. replace (40 + 16) with 56 in E6 by reflexivity.
  apply wp_bind, wp_section; [exact G6|]. rewrite S6, S6', E6. intros r7 G7 [S7 S7'] E7 a3 I3.
  rewrite S6 in S7. rewrite S6' in S7'. replace (56 + 16) with 72 in E7 by reflexivity.
  unfold a1, a2, a3 in *.
  apply wp_bind, wp_ask. unfold tell. apply wp_bind, wp_check; [rewrite E7; reflexivity|].
  apply wp_bind, wp_data; [exact G7|unfold two64; lia|]. intros r8 G8 [S8 S8'] E8 L8' B8.
  rewrite S7 in S8. rewrite S7' in S8'. cbv zeta. apply wp_ret, (HQ sw); auto; [|discriminate].
  assert (L104 : 104 <= len b) by (destruct G8 as (_ & _ & G8); rewrite S8 in G8; lia).
  unfold header_result. cbn [fh_attr_size fh_attrs fh_data fh_types].
  split; [lia|]. split; [exact MB|]. split; [reflexivity|]. split; [exact L104|].
  split; [|repeat split; auto].
  eexists. split; [reflexivity|]. rewrite S7. 
  assert (X := of_le_bound (slice (slice b (roff r7) 32) 0 8)).
  eapply N.lt_le_trans; [apply X; now apply bytes_ok_slice, bytes_ok_slice|].
  change two64 with (256 ^ 8). apply N.pow_le_mono_r; [lia|].
  unfold slice, len. rewrite firstn_length. lia.
Qed.

Lemma put_mask_same m s : same_events s (put_mask m s).
Proof. destruct s. now split. Qed.

Lemma wp_file_data cf sw b h s r (Q : fstate -> reader -> Prop) :
  good r -> rbuf r = b -> rswap r = sw -> fs_mask s < two64 -> fh_data h = section_at sw b 40 ->
  section_inside b (section_at sw b 40) ->
  (forall s' r' l, records (cf_skip cf) (no_kernel s') sw b (sc_offset (section_at sw b 40))
       (sc_offset (section_at sw b 40) + sc_size (section_at sw b 40)) l ->
     fs_events s' = fs_events s ++ l -> Q s' r') ->
  wp (read_file_data cf h s) r Q.
Proof.
  intros G Rb Rs HM HD HI HQ. unfold read_file_data. apply wp_bind, wp_ask. apply wp_bind, wp_guard. intros _.
  apply wp_bind.
  assert (P1 : wp (if has_feature s 12 then rret s
                   else rlet s := read_attrs_section h s in read_event_types_section h s) r
                  (fun s1 r1 => good r1 /\ same r r1 /\ quiet s s1)).
  { destruct (has_feature s 12); [apply wp_ret; auto using same_refl, quiet_refl|].
    apply wp_attrs_section; [exact G|]. auto. }
  eapply wp_mono; [|exact P1]. intros s1 r1 (G1 & S1 & (F1 & F2 & F3)). cbv beta.
  apply wp_bind, wp_metadata; [exact G1|now rewrite F1|]. intros s2 r2 G2 S2 (F4 & F5).
  apply wp_bind, wp_data_section; [exact G2| |].
  { rewrite (proj1 S2), (proj1 S1), Rb, HD. exact HI. }
  intros s3 r3 l G3 S3 F6 EV RR. apply wp_ret.
  rewrite (proj1 S2), (proj1 S1), Rb, (proj2 S2), (proj2 S1), Rs, HD in RR.
  rewrite <- (no_kernel_frame _ _ F6) in RR.
  assert (X : fs_events (match fs_types s3 with [] => s3 | _ => add_feature 12 s3 end) = fs_events s3 /\
              no_kernel (match fs_types s3 with [] => s3 | _ => add_feature 12 s3 end) = no_kernel s3).
  { destruct (fs_types s3); [auto|]. destruct s3; auto. }
  destruct X as [X1 X2]. apply (HQ _ _ l); [rewrite X2; exact RR|]. congruence.
Qed.

(** ** Piped data *)
Lemma wp_attr_event size s r (Q : fstate -> reader -> Prop) :
  good r -> size < two16 ->
  (forall s' r', good r' -> same r r' -> roff r < roff r' -> roff r' <= roff r + size < roff r' + 8 ->
     quiet s s' -> Q s' r') ->
  wp (read_attr_event size s) r Q.
Proof.
  intros G Hs HQ. unfold two16 in Hs. assert (G2 := proj1 (proj2 G)). unfold two63 in G2.
  unfold read_attr_event. apply wp_bind, wp_ask. unfold tell.
  apply wp_bind, wp_event_attr; [exact G|]. intros a r1 G1 S1 E1 _ _. apply wp_bind, wp_ask. cbv zeta.
  assert (G3 := proj2 (proj2 G1)). rewrite (proj1 S1) in G3.
  assert (ES : sub64 (roff r1) (roff r) = roff r1 - roff r).
  { unfold sub64, two64. replace (roff r1 + 18446744073709551616 - roff r) with (roff r1 - roff r + 1 * 18446744073709551616) by lia.
    rewrite N.mod_add, N.mod_small by lia. reflexivity. }
  rewrite ES. apply wp_bind, wp_guard. intros HU.
  set (n := (size - (roff r1 - roff r)) / 8).
  assert (HN := N.div_mod (size - (roff r1 - roff r)) 8 ltac:(lia)). fold n in HN.
  assert (HN' := N.mod_lt (size - (roff r1 - roff r)) 8 ltac:(lia)).
  apply wp_bind.
  assert (PI : wp (read_ids n) r1 (fun l r2 => good r2 /\ same r1 r2 /\ roff r2 = roff r1 + 8 * n)).
  { clearbody n. clear - G1. unfold read_ids.
    replace (8 * n) with (8 * N.of_nat (N.to_nat n)) by lia. generalize (N.to_nat n) as k. clear n.
    intros k. revert r1 G1. induction k as [|k IH]; intros r G; cbn [read_n].
    - apply wp_ret. repeat split; auto using same_refl; try apply G. lia.
    - apply wp_bind, wp_u64; [exact G|]. intros r1 G1 S1 E1 _. apply wp_bind.
      eapply wp_mono; [|exact (IH r1 G1)]. intros l r2 (G2 & S2 & E2). apply wp_ret.
      split; [exact G2|]. split; [eapply same_trans; eauto|lia]. }
  eapply wp_mono; [|exact PI]. intros l r2 (G2' & S2 & E2). cbv beta.
  assert (HR : forall s', quiet s s' -> Q s' r2).
  { intros s' F. apply HQ; auto; [eapply same_trans; eauto|lia|lia]. }
  assert (X := add_file_attr_ok (mkFAttr a l) s).
  destruct l as [|id l].
  - destruct (existsb _ _); [apply wp_ret, HR, quiet_refl|]. apply wp_lift.
    destruct (add_file_attr _ s); try exact X. apply HR, X.
  - destruct (existsb _ _); [apply wp_ret, HR, quiet_refl|]. apply wp_lift.
    destruct (add_file_attr _ s); try exact X. apply HR, X.
Qed.

Lemma wp_header_feature h s r (Q : fstate -> reader -> Prop) :
  good r -> h_size h < two16 ->
  (forall s' r', good r' -> same r r' -> roff r' = roff r + h_size h - 8 -> same_events s s' -> Q s' r') ->
  wp (read_header_feature h s) r Q.
Proof.
  intros G Hs HQ. unfold read_header_feature. apply wp_bind, wp_guard. intros H16.
  apply wp_bind, wp_data; [exact G|unfold two64; lia|]. intros r1 G1 S1 E1 _ _.
  apply wp_bind, wp_ask. cbv zeta. apply wp_bind, wp_guard. intros _.
  apply wp_metadata_item; [exact G1|unfold two16, two64 in *; lia|]. intros s' r' G' S' E' (_ & F).
  apply HQ; auto; [eapply same_trans; eauto|lia].
Qed.

Lemma wp_piped_loop cf fuel : forall types s r (Q : fstate * N -> reader -> Prop),
  good r -> len (rbuf r) - roff r < N.of_nat fuel ->
  (forall s' n r' l, stream (cf_skip cf) (rswap r) (rbuf r) (roff r) l ->
     fs_events s' = fs_events s ++ l -> Q (s', n) r') ->
  wp (piped_loop fuel cf types s) r Q.
Proof.
  induction fuel as [|fuel IH]; intros types s r Q G Hf HQ; [lia|]. cbn [piped_loop].
  assert (G3 := proj2 (proj2 G)).
  apply wp_bind, wp_ask. destruct (N.leb_spec (len (rbuf r)) (roff r)) as [E|E].
  { apply wp_ret, (HQ s types r []); [|now rewrite app_nil_r].
    replace (roff r) with (len (rbuf r)) by lia. apply stream_end. }
  apply wp_bind, wp_event_header; [exact G|]. intros r1 G1 S1 E1 h B1 B2 B3 B4.
  assert (IH' : forall types' s1 r2, good r2 -> same r1 r2 -> roff r1 <= roff r2 -> fs_events s1 = fs_events s ->
    (forall l, stream (cf_skip cf) (rswap r) (rbuf r) (roff r2) l -> stream (cf_skip cf) (rswap r) (rbuf r) (roff r) l) ->
    wp (piped_loop fuel cf types' s1) r2 Q).
  { intros types' s1 r2 G2 S2 L2 EV HS. assert (S02 : same r r2) by (eapply same_trans; eauto).
    assert (G4 := proj2 (proj2 G2)). rewrite (proj1 S02) in G4.
    apply IH; [exact G2|rewrite (proj1 S02); lia|]. intros s' n r' l ST EV'.
    rewrite (proj1 S02), (proj2 S02) in ST. apply (HQ s' n r' l); [now apply HS|congruence]. }
  destruct (N.eqb_spec (h_type h) 64) as [T|T64].
  { apply wp_bind, wp_attr_event; [exact G1|lia|]. intros s1 r2 G2 S2 L2 L2' (_ & F & _).
    apply IH'; auto; [lia|]. intros l ST. apply (stream_attr _ _ _ _ (roff r2)); auto; [lia|fold h; lia]. }
  destruct (N.eqb_spec (h_type h) 65) as [T|T65].
  { apply wp_bind, wp_event_type; [exact G1|lia|]. intros s1 r2 G2 S2 L2 L2' (_ & F & _).
    apply IH'; auto. intros l ST. apply stream_about; fold h; [rewrite T; cbn; auto|lia|].
    replace (roff r + h_size h) with (roff r2) by lia. exact ST. }
  destruct (N.eqb_spec (h_type h) 66) as [T|T66].
  { apply wp_bind, wp_u32; [exact G1|]. intros r2 G2 S2 E2 B5.
    unfold read_tracing. apply wp_bind. apply wp_bind, wp_data; [exact G2|unfold two32, two64 in *; lia|].
    intros r3 G3' S3 E3 _ _.
    assert (HS : forall l, stream (cf_skip cf) (rswap r) (rbuf r) (roff r3) l -> stream (cf_skip cf) (rswap r) (rbuf r) (roff r) l).
    { intros l ST. apply stream_tracing; fold h; [exact T|lia|].
      rewrite (proj2 S1), (proj1 S1), E1 in E3.
      replace (roff r + 12 + int_at (rswap r) (rbuf r) (roff r + 8) 4) with (roff r3) by lia. exact ST. }
    assert (S13 : same r1 r3) by (eapply same_trans; eauto).
    destruct (int_at (rswap r1) (rbuf r1) (roff r1) 4 =? 0); apply wp_ret; apply IH'; auto; try lia; now destruct s. }
  destruct (N.eqb_spec (h_type h) 67) as [T|T67].
  { apply wp_bind, wp_build_id; auto. intros s1 r2 G2 S2 E2 (_ & F & _).
    apply IH'; auto; [lia|rewrite F; now destruct s|]. intros l ST. apply stream_about; fold h; [rewrite T; cbn; auto|lia|].
    replace (roff r + h_size h) with (roff r2) by lia. exact ST. }
  destruct (N.eqb_spec (h_type h) 80) as [T|T80].
  { apply wp_bind, wp_header_feature; [exact G1|apply B3|]. intros s1 r2 G2 S2 E2 (F & _).
    apply IH'; auto; [lia|]. intros l ST. apply stream_about; fold h; [rewrite T; cbn; auto|lia|].
    replace (roff r + h_size h) with (roff r2) by lia. exact ST. }
  assert (H8 : roff r + h_size h <= len (rbuf r)).
  { destruct G1 as (_ & _ & G1). rewrite (proj1 S1) in *. lia. }
  apply wp_bind. unfold h in B3, B4, H8 |- *. rewrite <- (proj1 S1), <- (proj2 S1).
  apply (wp_event cf (roff r) s r1); rewrite ?(proj1 S1), ?(proj2 S1); auto; [lia|].
  intros s1 n r2 G2' S2 E2 Hn F1 R1. cbn [fst].
  assert (S02 : same r r2) by (eapply same_trans; eauto).
  assert (G4 := proj2 (proj2 G2')). rewrite (proj1 S02) in G4.
  apply IH; [exact G2'|rewrite (proj1 S02); lia|].
  intros s' m r' l ST EV. rewrite (proj1 S02), (proj2 S02) in ST.
  fold h in B3, B4, H8, R1.
  unfold record_read in R1. cbv zeta in R1. fold h in R1.
  assert (NI : ~ In (h_type h) [64; 65; 66; 67; 80]) by (cbn [In]; intros [X|[X|[X|[X|[X|[]]]]]]; symmetry in X; contradiction).
  destruct (becomes_event (cf_skip cf) (no_kernel s) (rswap r) (rbuf r) (roff r)) eqn:BE.
  - destruct R1 as (e & t & V1 & V2 & V3 & V4 & V5 & V6).
    apply (HQ s' m r' ([mkFEvent e t] ++ l)).
    + apply (stream_record _ _ _ _ (roff r2) (no_kernel s)); auto; [lia|].
      apply records_kept; auto; fold h; [lia|].
      replace (roff r + h_size h + len t) with (roff r2) by lia. apply records_end.
    + rewrite EV, V1, <- app_assoc. reflexivity.
  - destruct R1 as [V1 V2]. apply (HQ s' m r' ([] ++ l)).
    + apply (stream_record _ _ _ _ (roff r2) (no_kernel s)); auto; [lia|].
      apply records_dropped; auto; fold h; [lia|].
      replace (roff r + h_size h) with (roff r2) by lia. apply records_end.
    + now rewrite EV, V1.
Qed.

Lemma read_ok cf b : bytes_ok b = true -> len b < two63 ->
  match read_perf_data cf b with
  | Ok s => exists sw,
      (file_header sw b /\
       records (cf_skip cf) (no_kernel s) sw b (sc_offset (section_at sw b 40))
         (sc_offset (section_at sw b 40) + sc_size (section_at sw b 40)) (fs_events s)) \/
      (pipe_header sw b /\ stream (cf_skip cf) sw b 16 (fs_events s))
  | Fail => True
  | _ => False
  end.
Proof.
  intros B L. unfold read_perf_data.
  assert (P : wp (read_from_reader cf fs_new) (mkReader b 0 false)
    (fun s _ => exists sw,
      (file_header sw b /\
       records (cf_skip cf) (no_kernel s) sw b (sc_offset (section_at sw b 40))
         (sc_offset (section_at sw b 40) + sc_size (section_at sw b 40)) (fs_events s)) \/
      (pipe_header sw b /\ stream (cf_skip cf) sw b 16 (fs_events s)))).
  { unfold read_from_reader. apply wp_bind, wp_ask. apply wp_bind, wp_guard. intros _.
    apply wp_bind, wp_header; auto. intros sw [[s size] oh] r G Rb Rs HR HO. cbn [snd] in HO.
    destruct HR as (H16 & HM & HS & HR). destruct oh as [h|].
    - destruct HR as (H104 & (m & -> & Hm) & _ & _ & HD & _ & I1 & I2 & I3).
      apply wp_bind, wp_guard. intros E104. apply N.eqb_eq in E104.
      apply (wp_file_data cf sw b); auto. intros s' r' l RR EV. exists sw. left.
      cbn [fs_new put_mask fs_events app] in EV. rewrite EV. split; [|exact RR].
      repeat split; auto. congruence.
    - destruct HR as [E16 ->]. unfold read_piped_data.
      apply wp_bind, wp_ask. unfold tell. rewrite HO by reflexivity. apply wp_bind, wp_check; [reflexivity|].
      apply wp_bind, wp_ask. apply wp_bind, wp_piped_loop; [exact G|unfold loop_fuel, len; lia|].
      intros s' n r' l ST EV. apply wp_ret. exists sw. right. rewrite HO, Rb, Rs in ST by reflexivity.
      split; [repeat split; auto; [lia|congruence]|].
      cbn [fs_new fs_events app] in EV. rewrite <- EV in ST.
      destruct (_ && _); [|exact ST]. destruct s'; exact ST. }
  unfold wp in P. destruct (read_from_reader cf fs_new (mkReader b 0 false)) as [[s| | | |] r]; exact P.
Qed.
