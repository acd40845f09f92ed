(** The events a reader holds after reading a file. *)
From Verif Require Import Base BytesModel BytesProofs BytesMoreProofs BufferModel BufferSpec BufferProofs TextModel TextProofs Assoc
  EventSizeModel EventSizeSpec EventSizeProofs SampleModel SampleProofs ReaderOpsModel ReaderOpsProofs FileModel FileSpec
  FileProofs FileEventProofs FileOrderProofs FileReadProofs FileMetaProofs SerializerModel SerializerSpec SerializerProofs SerializerTotalProofs
  AttrModel AttrSpec WriteSpec RereadSpec RereadBuildProofs RereadEventProofs PipelineModel RewriteReadProofs.
From Verif Require RereadAttrProofs.
Local Open Scope N_scope.

Lemma text_short e off ty fixed max t : raw_event e -> In (ty, fixed, max) text_events -> ev_type e = ty -> event_data_size e = Ok off ->
  ev_c_str e fixed = Ok t -> ~ In 0 t /\ len t < max.
Proof.
  intros He Hin Ht Hd Ec. assert (C := Ec). apply c_str_text in C. destruct C as [C1 C2 [C3 C4]]. split; [exact C1|].
  apply (text_event_size e ty fixed max off He Hin Ht) in Hd as (_ & v & -> & u & U1 & U2 & -> & U4).
  unfold ev_c_str in Ec. cbv zeta in Ec. destruct (_ <? _); [|discriminate]. apply Ok_inj in Ec. subst t.
  assert (G : forall d, firstn (N.to_nat (len u + 1)) d = u ++ [0] -> c_str d = u).
  { clear - U1. induction u as [|y u IH]; intros d E; (destruct d as [|x d]; [rewrite firstn_nil in E; discriminate E|]).
    - cbn in E. injection E as ->. reflexivity.
    - rewrite len_cons in E. replace (N.to_nat (1 + len u + 1)) with (S (N.to_nat (len u + 1))) in E by lia. cbn [firstn app] in E.
      injection E as -> E. cbn [c_str]. destruct (N.eqb_spec y 0) as [->|]; [exfalso; apply U1; now left|]. f_equal. apply IH; [|exact E].
      intros X. apply U1. now right. }
  rewrite (G _ U2). assert (len u < 8 * (len u / 8 + 1)) by (pose proof (N.div_mod (len u) 8 ltac:(discriminate)); pose proof (N.mod_lt (len u) 8 ltac:(discriminate)); lia).
  lia.
Qed.
Lemma mmap2_size s e x : serialize s e = Ok x -> ev_type e = R_MMAP2 -> N.testbit (ev_misc e) 14 = true -> byte e 40 <= 20.
Proof.
  intros H T B. unfold serialize in H. rewrite T in H. change (64 <=? R_MMAP2) with false in H. cbv iota in H.
  unfold ser_kernel in H. rewrite T in H. change (R_MMAP2 =? R_SAMPLE) with false in H. change (R_MMAP2 =? R_MMAP) with false in H.
  change (R_MMAP2 =? R_MMAP2) with true in H. cbv iota in H. apply obind_inv in H as (y & H & _).
  unfold omap in H. destruct (ser_mmap2 s e) as [m| | | |] eqn:E; try discriminate. clear H. unfold ser_mmap2 in E.
  do 5 (apply obind_inv in E as (? & _ & E)). rewrite B in E. apply obind_inv in E as (? & E & _). apply obind_inv in E as (n & E1 & E).
  unfold num in E1. apply obind_inv in E1 as (d & E1 & E2). apply Ok_inj in E2. subst n. apply mem_read_inv in E1 as [-> L].
  destruct (N.ltb_spec 20 (of_le (slice e 40 1))) as [X|X]; [discriminate|].
  replace (byte e 40) with (of_le (slice e 40 1)); [exact X|].
  unfold slice, byte. change (N.to_nat 1) with 1%nat.
  assert (G : (N.to_nat 40 < length e)%nat) by (unfold len in L; lia).
  destruct (skipn (N.to_nat 40) e) as [|y' r] eqn:Es.
  - apply (f_equal (@length N)) in Es. rewrite skipn_length in Es. cbn [length] in Es. lia.
  - cbn [firstn of_le]. rewrite <- (firstn_skipn (N.to_nat 40) e), Es.
    rewrite app_nth2; rewrite firstn_length_le by lia; [rewrite Nat.sub_diag; cbn; lia|lia].
Qed.

(** An event that was read with its trace. *)
Definition event_kept (s : sstate) (nk : bool) (fe : fevent) : Prop :=
  event_ok s nk (fe_raw fe) /\
  (if ev_type (fe_raw fe) =? R_AUXTRACE then number_at (fe_raw fe) 8 = len (fe_trace fe) else fe_trace fe = []).
Definition excludes (s : fstate) : bool := match fs_attrs s with a :: _ => attr_exclude_kernel (fa_attr a) | [] => false end.
(** What the events leave of the state [s0] in front of them. *)
Record events_inv (s0 s : fstate) : Prop := mkEventsInv {
  vi_mask : fs_mask s = fs_mask s0; vi_meta : fs_meta s = fs_meta s0; vi_attrs : fs_attrs s = fs_attrs s0;
  vi_types : fs_types s = fs_types s0;
  vi_readers : fs_readers s = fs_readers s0; vi_sample : fs_sample_pos s = fs_sample_pos s0; vi_other : fs_other_pos s = fs_other_pos s0;
  vi_builds : Forall build_read (fs_builds s);
  vi_some : fs_events s = [] \/ fs_readers s0 <> [];
  vi_events : Forall (event_kept (serializer_of s0) (excludes s0)) (fs_events s) }.
Lemma serializer_same s0 s : events_inv s0 s -> serializer_of s = serializer_of s0.
Proof. intros []. unfold serializer_of. congruence. Qed.

Lemma mmap2_inv s0 e off s s' : raw_event e -> event_data_size e = Ok off -> ev_type e = R_MMAP2 ->
  mmap2_build_id e s = Ok s' -> events_inv s0 s -> events_inv s0 s' /\ fs_events s' = fs_events s.
Proof.
  intros He D T H I. unfold mmap2_build_id in H. apply obind_inv in H as (t & Et & H).
  destruct (text_short e off R_MMAP2 72 4096 t He ltac:(cbn; tauto) T D Et) as (Nt & Lt).
  destruct (mem_by _ _ _); [apply Ok_inj in H; subst; auto|].
  apply obind_inv in H as (size & _ & H). destruct (20 <? of_le size); [discriminate|]. apply obind_inv in H as (id & _ & H).
  assert (B : build_read (snd (serialize_build_id_event (create_build_id_event (raw_to_hex id) t (ev_misc e))))).
  { unfold create_build_id_event. fold (new_raw (raw_to_hex id)). destruct (new_raw_shape (raw_to_hex id)) as [S1 S2].
    rewrite (TextProofs.c_str_id _ Nt). apply trimmed_ok; auto; try reflexivity.
    - unfold ev_misc. apply (of_le_small _ 2); [apply bytes_ok_slice, He|apply len_slice]. destruct He as (_ & He & _). lia.
    - unfold len. now rewrite S2. }
  destruct (serialize_build_id_event _) as [[|] x]; [|discriminate]. apply Ok_inj in H. subst s'.
  destruct I. destruct s as [x0 x1 x2 x3 x4 x5 x6 x7 x8 x9 x10 x11 x12].
  split; [|reflexivity]. constructor; auto. cbn [put_files put_builds fs_builds] in *. apply Forall_app. split; [assumption|]. now constructor.
Qed.

Section Reading.
Variable b : list N.
Hypothesis Hb : bytes_ok b = true.
Hypothesis Lb : len b < 2 ^ 31.
Notation gives := (gives b).
Ltac go := repeat match goal with
  | |- gives (rbind (rguard _) _) _ => eapply gives_bind; [apply gives_guard; try assumption|cbv beta; intros ? ?]
  | |- gives (rbind (rask rswap) _) _ => eapply gives_bind; [apply gives_swap; try assumption|cbv beta; intros ? ->]
  | |- gives (rbind (rask tell) _) _ => eapply gives_bind; [apply gives_tell; try assumption|cbv beta; intros ? ?]
  | |- gives (rbind (rask _) _) _ => eapply gives_bind; [apply gives_ask; try assumption|cbv beta; intros ? ?]
  | |- gives (rbind (seek_set _) _) _ => eapply gives_bind; [apply gives_seek; try assumption|cbv beta; intros ? ?]
  | |- gives (rbind (rlift _) _) _ => eapply gives_bind; [apply gives_lift; try assumption|cbv beta; intros ? ?]
  | |- gives (rret _) _ => apply gives_ret; try assumption
  | |- gives rfail _ => apply gives_fail
  | |- gives rhang _ => apply gives_hang
  end.

Lemma gives_event h s0 s : h_type h < two32 -> h_misc h < two16 -> 8 <= h_size h < two16 -> events_inv s0 s ->
  gives (read_event (new_reader false) h s) (fun r => events_inv s0 (fst r)).
Proof.
  intros B1 B2 B3 I. unfold read_event. cbv zeta.
  destruct (negb (supported_event (h_type h))); [go; exact I|]. go.
  assert (NR : fs_readers s0 <> []).
  { rewrite <- (vi_readers _ _ I). match goal with H : match fs_readers s with _ => _ end = true |- _ => destruct (fs_readers s); discriminate end. }
  destruct (fixed_payload (h_type h)) as [fixed|] eqn:Fx; [|apply gives_fail]. go.
  destruct (is_timeout_mmap h) eqn:Tm; [go; exact I|].
  eapply gives_bind; [apply gives_data; unfold two16, two64 in *; lia|]. cbv beta. intros d (D1 & D2 & _). go.
  destruct (new_block_ok h d B1 B2 B3 D1 D2) as (W & T1 & T2 & T3 & L).
  fold (new_block h d) in *. set (e := new_block h d) in *.
  match goal with H : localise_event false fixed e = Ok ?p |- _ => destruct p as [e' var]; rename H into HL end.
  unfold localise_event in HL. cbn [obind] in HL. apply obind_inv in HL as (var' & V & HL). apply Ok_inj in HL. injection HL as <- <-.
  assert (He : raw_event e) by (now apply whole_raw).
  match goal with H : (fixed <=? h_size h) = true |- _ => apply N.leb_le in H; rename H into Fl end.
  assert (D : event_data_size e = Ok (w64 (fixed + var'))).
  { unfold event_data_size. rewrite T1, Fx, T3. replace (h_size h <? fixed) with false by lia. rewrite T3 in V. now rewrite V. }
  go. match goal with H : contains_sample_info _ s || _ = true |- _ => rename H into HC end.
  match goal with H : _ = Ok ?z |- gives (if _ && _ && _ && ?z then _ else _) _ => rename z into zero; rename H into Hz end.
  destruct (_ && _ && _ && zero) eqn:Ex; [go; exact I|]. go.
  match goal with H : (if (h_type h =? R_MMAP2) && _ then _ else _) = Ok ?z |- _ => rename z into s1; rename H into H1 end.
  assert (I1 : events_inv s0 s1 /\ fs_events s1 = fs_events s).
  { destruct ((h_type h =? R_MMAP2) && N.testbit (h_misc h) 14) eqn:E; [|apply Ok_inj in H1; subst; auto].
    apply andb_prop in E as (E & _). apply N.eqb_eq in E. eapply mmap2_inv; eauto. congruence. }
  destruct I1 as (I1 & _). cbn [cf_skip new_reader]. go.
  match goal with H : cf_accept _ s1 e = true |- _ => rename H into HA end.
  cbn [cf_accept new_reader] in HA. change (serializer false s1) with (serializer_of s1) in HA. rewrite (serializer_same _ _ I1) in HA.
  destruct (serialize (serializer_of s0) e) as [x| | | |] eqn:Sx; try discriminate HA.
  assert (K : event_ok (serializer_of s0) (excludes s0) e).
  { constructor.
    - exists (w64 (fixed + var')). constructor; auto; [congruence|]. intros C.
      rewrite (contains_same s (serializer_of s)) in HC by reflexivity. rewrite (serializer_same _ _ I), <- T1, C in HC.
      cbn [orb] in HC. apply N.eqb_eq in HC. congruence.
    - intros T. unfold is_timeout_mmap in Tm. rewrite <- T1, <- T2 in Tm. destruct T as [T|T]; rewrite T in Tm; exact Tm.
    - intros T Nk Kb. intros Z.
      assert (Mp : (h_type h =? R_MMAP) || (h_type h =? R_MMAP2) = true) by (rewrite <- T1; destruct T as [->| ->]; reflexivity).
      rewrite Mp in Hz, Ex. apply obind_inv in Hz as (l & Hl & Hz). apply Ok_inj in Hz. unfold ev_u64 in Hl. apply obind_inv in Hl as (q & Hq & Hl).
      apply mem_read_inv in Hq as [-> _]. apply Ok_inj in Hl. fold (number_at e 24) in Hl. rewrite Z in Hl. subst l zero.
      unfold excludes in Nk. rewrite <- (vi_attrs _ _ I) in Nk. rewrite Nk in Ex. change (0 =? 0) with true in Ex. rewrite Bool.andb_true_r in Ex. cbn [andb] in Ex.
      apply negb_false_iff, N.eqb_eq in Ex. rewrite <- T2 in Ex. apply (f_equal (fun v => N.testbit v 0)) in Ex. rewrite N.land_spec, Kb in Ex. discriminate Ex.
    - intros T B. exact (mmap2_size _ _ _ Sx T B).
    - now exists x. }
  destruct (h_type h =? R_AUXTRACE) eqn:TA.
  - eapply (gives_bind b _ _ (fun t => number_at e 8 = len t)).
    + unfold read_trace. go. match goal with H : ev_u64 e 8 = Ok ?n |- _ => unfold ev_u64 in H; apply obind_inv in H as (q & Hq & Hn) end.
      apply mem_read_inv in Hq as [-> Hq]. apply Ok_inj in Hn.
      eapply gives_mono; [apply gives_data; try assumption|].
      * subst. assert (Bq : bytes_ok (slice e 8 8) = true) by apply bytes_ok_slice, He.
        apply (of_le_small _ 8 Bq). apply len_slice. lia.
      * cbv beta. intros t (_ & Lt & _). unfold number_at. congruence.
    + intros t Ht. go. cbn [fst]. destruct I1. destruct s1 as [x0 x1 x2 x3 x4 x5 x6 x7 x8 x9 x10 x11 x12].
      constructor; auto. cbn [put_events fs_events] in *. apply Forall_app. split; [assumption|]. constructor; [|constructor].
      split; [exact K|]. cbn [fe_raw fe_trace]. rewrite T1, TA. exact Ht.
  - cbn [cf_callback new_reader]. rewrite Bool.andb_false_r. go. cbn [fst].
    destruct I1. destruct s1 as [x0 x1 x2 x3 x4 x5 x6 x7 x8 x9 x10 x11 x12].
    constructor; auto. cbn [put_events fs_events] in *. apply Forall_app. split; [assumption|]. constructor; [|constructor].
    split; [exact K|]. cbn [fe_raw fe_trace]. rewrite T1, TA. reflexivity.
Qed.
Lemma gives_data_loop s0 fuel : forall left s, events_inv s0 s -> gives (data_loop fuel (new_reader false) left s) (events_inv s0).
Proof.
  induction fuel as [|fuel IH]; intros left s I; cbn [data_loop]; (destruct (left =? 0); [now apply gives_ret|]); [apply gives_hang; try assumption|].
  eapply gives_bind; [apply gives_event_header; try assumption|]. cbv beta. intros h (B1 & B2 & B3).
  eapply gives_bind; [apply gives_event; eauto|]. cbv beta. intros [s' n] I'. now apply IH.
Qed.

(** ** The whole file *)
Lemma gives_file_data M h s : s = put_mask M fs_new -> sc_size (fh_attrs h) <= len b -> sc_size (fh_types h) <= len b ->
  gives (read_file_data (new_reader false) h s) (fun s' => exists s0 s1, state_inv b M 31 s0 /\ events_inv s0 s1 /\
    s' = match fs_types s1 with [] => s1 | _ => add_feature 12 s1 end).
Proof.
  intros -> H1 H2. unfold read_file_data. go.
  eapply (gives_bind b _ _ (state_inv b M 1)).
  { unfold has_feature. change (fs_mask (put_mask M fs_new)) with M. destruct (N.testbit M 12) eqn:E.
    - apply gives_ret. now apply start_inv.
    - now apply gives_file_attrs. }
  intros s1 S1. eapply gives_bind; [apply gives_metadata; eauto|]. cbv beta. intros s0 S0.
  eapply (gives_bind b _ _ (events_inv s0)).
  - unfold read_data_section. go. apply gives_data_loop. constructor; auto; [apply S0|left; apply S0|rewrite (si_events _ _ _ _ S0); constructor].
  - intros s2 I2. go. exists s0, s2. auto.
Qed.
End Reading.
