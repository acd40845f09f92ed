(** The size of the data part is that of the cleaned event. *)
From Verif Require Import Base BytesModel BytesProofs BytesMoreProofs BufferModel EventSizeModel
  EventSizeSpec EventSizeProofs TextModel SampleModel SampleSpec SampleProofs SampleReadProofs
  FileModel FileProofs SerializerModel SerializerSpec SerializerProofs.
Local Open Scope N_scope.

Lemma clean_slice e o n :
  In (o, n) (fields e) -> (forall i, o <= i -> i < o + n -> whole e i) -> o + n <= len e ->
  slice (clean e) o n = slice e o n.
Proof.
  intros H W L. apply slice_bytes; [now rewrite len_clean|exact L|].
  intros i H1 H2. rewrite byte_clean by lia. apply (kept_field e o n); auto.
Qed.

Lemma clean_header e o n : 8 <= len e -> o + n <= 8 -> slice (clean e) o n = slice e o n.
Proof.
  intros H L. apply slice_bytes; [rewrite len_clean; lia|lia|].
  intros i H1 H2. rewrite byte_clean by lia. unfold kept. destruct (N.ltb_spec i 8); [reflexivity|lia].
Qed.

Lemma clean_type e : 8 <= len e -> ev_type (clean e) = ev_type e.
Proof. intros H. unfold ev_type. now rewrite clean_header by lia. Qed.
Lemma clean_size e : 8 <= len e -> ev_size (clean e) = ev_size e.
Proof. intros H. unfold ev_size. now rewrite clean_header by lia. Qed.
Lemma clean_misc e : 8 <= len e -> ev_misc (clean e) = ev_misc e.
Proof. intros H. unfold ev_misc. now rewrite clean_header by lia. Qed.

Lemma clean_raw e : raw_event e -> raw_event (clean e).
Proof.
  intros (A & B & C). split; [now apply clean_ok|]. rewrite len_clean, clean_size by exact B. auto.
Qed.

Lemma text_clean e off room v :
  text_at e off room v -> (forall n, (off, n) = text_field e off -> In (off, n) (fields e)) ->
  ev_type e <> R_AUX -> ev_type e <> R_TIME_CONV -> off + v <= len e ->
  text_at (clean e) off room v.
Proof.
  intros (s & A1 & A2 & A3 & A4) Hin W1 W2 L. exists s. repeat split; auto.
  rewrite <- A2. apply clean_slice; [|intros i _ _; split; congruence|lia].
  apply Hin. unfold text_field. f_equal.
  rewrite <- (firstn_skipn (N.to_nat (len s + 1)) (skipn (N.to_nat off) e)).
  unfold slice in A2. rewrite A2, <- app_assoc. cbn [app]. now rewrite (strnlen_app s) by exact A1.
Qed.

Lemma in_entry_fields f size n : forall off i x,
  (i < n)%nat -> In x (f (off + size * N.of_nat i)) -> In x (entry_fields f off size n).
Proof.
  induction n as [|n IH]; intros off i x Hi Hx; [lia|]. cbn [entry_fields]. apply in_app_iff.
  destruct i as [|i].
  - left. replace (off + size * N.of_nat 0) with off in Hx by lia. exact Hx.
  - right. apply (IH (off + size) i); [lia|].
    replace (off + size + size * N.of_nat i) with (off + size * N.of_nat (S i)) by lia. exact Hx.
Qed.

Ltac fields_of T := unfold fields; cbv zeta; rewrite T; repeat pick_type; cbn [orb].

Lemma number_clean e o : In (o, 8) (fields e) -> (forall i, o <= i -> i < o + 8 -> whole e i) -> o + 8 <= len e ->
  number_at (clean e) o = number_at e o.
Proof. intros A B C. unfold number_at. now rewrite clean_slice. Qed.

Lemma clean_data_size e off :
  raw_event e -> event_data_size e = Ok off -> event_data_size (clean e) = Ok off.
Proof.
  intros He Hd. assert (H8 : 8 <= len e) by apply He. assert (Hsl : ev_size e <= len e) by apply He.
  assert (He' := clean_raw e He).
  assert (Et := clean_type e H8). assert (Es := clean_size e H8).
  destruct (data_size_total e He) as [Hx|(n' & fixed & Hx & Hk & Hf & Hn & _)]; [congruence|].
  assert (n' = off) by congruence. subst n'. clear Hx.
  unfold known_events in Hk. rewrite !in_app_iff in Hk. destruct Hk as [Hk|[Hk|[Hk|Hk]]].
  - apply in_map_iff in Hk as (((ty & fx) & max) & E & Hin). cbn [fst] in E. injection E as E1 E2. subst ty fx.
    apply (text_event_size _ _ _ _ _ He' Hin Et). rewrite Es.
    apply (text_event_size e _ _ _ _ He Hin eq_refl) in Hd. destruct Hd as (A & v & -> & T).
    split; [exact A|]. exists v. split; [reflexivity|].
    assert (Q : In (text_field e fixed) (fields e) /\ ev_type e <> R_AUX /\ ev_type e <> R_TIME_CONV).
    { cbn [text_events In] in Hin.
      destruct Hin as [X|[X|[X|[X|[X|[]]]]]]; injection X as X1 <- _; symmetry in X1;
        (split; [|rewrite X1; split; discriminate]); fields_of X1;
        try (cbn [In]; auto 10; fail); rewrite !in_app_iff; cbn [In]; auto 10. }
    destruct Q as (Q & W1 & W2).
    apply text_clean; auto; [intros n En; rewrite En; exact Q|lia].
  - rewrite (plain_event_size _ _ _ Hk Et), Es, <- (plain_event_size e _ _ Hk eq_refl). exact Hd.
  - rewrite (closed_event_size _ _ _ Hk Et), Es, <- (closed_event_size e _ _ Hk eq_refl). exact Hd.
  - assert (AR : forall ty at_ fx en, In (ty, at_, fx, en) array_events -> ev_type e = ty ->
               event_data_size (clean e) = Ok off).
    { intros ty at_ fx en Hin Ht.
      apply (array_event_size e _ _ _ _ _ He Hin Ht) in Hd.
      assert (A8 : at_ = 8 /\ fx = 16).
      { cbn in Hin. destruct Hin as [X|[X|[X|[]]]]; injection X as _ <- <- _; auto. }
      destruct A8 as [-> ->]. destruct Hd as (D1 & D2 & D3).
      assert (Q : In (8, 8) (fields e) /\ ev_type e <> R_AUX /\ ev_type e <> R_TIME_CONV).
      { cbn [array_events In] in Hin.
        destruct Hin as [X|[X|[X|[]]]]; injection X as X1 _; rewrite <- X1 in Ht;
          (split; [|rewrite Ht; split; discriminate]); fields_of Ht; cbn [array_fields In]; auto 10. }
      destruct Q as (Q & W1 & W2).
      assert (Wh : forall i, whole e i) by (intros i; split; congruence).
      apply (array_event_size _ ty 8 16 en off He' Hin (eq_trans Et Ht)).
      rewrite Es, number_clean by (auto; lia). split; [exact D1|]. split; [exact D2|].
      intros T i Hi. rewrite number_clean in Hi by (auto; lia). specialize (D3 T i Hi).
      assert (en = 24).
      { rewrite T in Hin. cbn in Hin. unfold R_ID_INDEX, R_STAT_CONFIG, R_THREAD_MAP in Hin.
        destruct Hin as [X|[X|[X|[]]]]; [discriminate|discriminate|].
        injection X as <-. reflexivity. }
      subst en.
      assert (Li : 16 + 24 * i + 24 <= len e) by lia.
      set (o := 16 + 24 * i + 8) in *.
      assert (Ld : len (slice e o 16) = 16) by (apply len_slice; lia).
      assert (St := proj2 (strnlen_nul _) D3). rewrite Ld in St.
      destruct (c_str_spec (slice e o 16)) as (C1 & C2 & C3); [rewrite Ld; exact St|].
      set (n := strnlen (slice e o 16)) in *.
      rewrite slice_firstn in C3 by lia.
      assert (Fo : text_field e o = (o, n + 1)).
      { unfold text_field. f_equal. f_equal.
        rewrite <- (firstn_skipn (N.to_nat (n + 1)) (skipn (N.to_nat o) e)).
        unfold slice in C3. rewrite C3, <- app_assoc. cbn [app]. rewrite (strnlen_app _ _ C1). exact C2. }
      assert (Sc : slice (clean e) o (n + 1) = slice e o (n + 1)).
      { apply clean_slice; [|auto|lia]. rewrite <- Fo.
        assert (Tt : ev_type e = R_THREAD_MAP) by congruence. fields_of Tt.
        unfold array_fields. right. apply (in_entry_fields _ _ _ _ (N.to_nat i)); [lia|].
        rewrite N2Nat.id. right. left. f_equal. }
      rewrite <- (firstn_skipn (N.to_nat (n + 1)) (slice (clean e) o 16)).
      rewrite slice_firstn by lia. rewrite Sc, C3, !in_app_iff. cbn [In]. auto. }
    cbn [In] in Hk.
    destruct Hk as [X|[X|[X|[X|[X|[X|[X|[X|[]]]]]]]]]; injection X as X1 X2; symmetry in X1.
    + eapply AR; [|exact X1]. cbn. auto.
    + eapply AR; [|exact X1]. cbn. auto.
    + eapply AR; [|exact X1]. cbn. auto.
    + apply (namespaces_size _ off He' (eq_trans Et X1)).
      apply (namespaces_size e off He X1) in Hd. rewrite Es, number_clean; [exact Hd| | |lia].
      * fields_of X1. unfold array_fields. rewrite in_app_iff. right. now left.
      * intros i _ _. split; rewrite X1; discriminate.
    + rewrite (auxtrace_info_size _ He' (eq_trans Et X1)), Es, <- (auxtrace_info_size e He X1). exact Hd.
    + apply (auxtrace_error_size _ off He' (eq_trans Et X1)).
      apply (auxtrace_error_size e off He X1) in Hd. rewrite Es. destruct Hd as (D1 & D2 & D3).
      split; [exact D1|]. split; [exact D2|].
      apply text_clean; [exact D3| |rewrite X1; discriminate|rewrite X1; discriminate|lia].
      intros n En. rewrite En. fields_of X1. cbn [In]. auto 10.
    + rewrite (time_conv_size _ He' (eq_trans Et X1)), Es, <- (time_conv_size e He X1). exact Hd.
    + rewrite (bpf_size _ He' (eq_trans Et X1)), Es, number_clean, <- (bpf_size e He X1); [exact Hd| | |lia].
      * fields_of X1. unfold array_fields. right. now left.
      * intros i _ _. split; rewrite X1; discriminate.
Qed.
