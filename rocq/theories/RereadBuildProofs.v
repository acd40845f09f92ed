(** Reading the build ids that were written. *)
From Verif Require Import Base BytesModel BytesProofs BytesMoreProofs BufferModel BufferSpec BufferProofs
  EventSizeModel EventSizeSpec Assoc TextModel TextProofs ReaderOpsModel ReaderOpsProofs SampleModel FileModel SerializerModel SerializerSpec AttrModel
  MapperProofs WriteModel WriteSpec WriteProofs WriteFileProofs WriteFeatureProofs WriteLayoutProofs RereadProofs RereadSpec RereadMetaProofs.
Local Open Scope N_scope.

(** A trimmed id stays as it is. *)
Lemma trimmed_id h : bytes_ok h = true -> (length h <= 20)%nat -> (exists j, length h = 4 * j)%nat ->
  (forall t, h <> t ++ [0; 0; 0; 0]) ->
  trim_zeroes_build_id (raw_to_hex (h ++ repeat 0 (20 - length h))) = raw_to_hex h.
Proof.
  intros B L (j & J) NZ.
  destruct (trim_hex (h ++ repeat 0 (20 - length h))) as (k & T & D & K & M).
  { now rewrite bytes_ok_app, B, bytes_ok_repeat. }
  rewrite T. f_equal. rewrite app_length, repeat_length in *.
  replace (length h + (20 - length h))%nat with 20%nat in * by lia.
  set (g := firstn (20 - 4 * k) (h ++ repeat 0 (20 - length h))) in *.
  assert (G : length g = (20 - 4 * k)%nat).
  { unfold g. rewrite firstn_length, app_length, repeat_length. lia. }
  destruct (Nat.eq_dec (5 - j) k) as [E|E].
  - apply (app_inj_length _ _ (repeat 0 (4 * k)) (repeat 0 (20 - length h))); [lia|now symmetry].
  - exfalso. destruct (Nat.lt_ge_cases k (5 - j)) as [C|C].
    + assert (X : g = h ++ repeat 0 (4 * (5 - j - k))).
      { apply (app_inj_length _ _ (repeat 0 (4 * k)) (repeat 0 (4 * k))); [rewrite app_length, repeat_length; lia|].
        rewrite <- D, <- app_assoc, <- repeat_app. do 2 f_equal. lia. }
      apply (M (h ++ repeat 0 (4 * (5 - j - k) - 4))). rewrite X, <- app_assoc, <- repeat_app. do 2 f_equal. lia.
    + assert (X : h = g ++ repeat 0 (4 * (k - (5 - j)))).
      { apply (app_inj_length _ _ (repeat 0 (20 - length h)) (repeat 0 (20 - length h))); [rewrite app_length, repeat_length; lia|].
        rewrite D at 1. rewrite <- app_assoc, <- repeat_app. do 2 f_equal. lia. }
      apply (NZ (g ++ repeat 0 (4 * (k - (5 - j)) - 4))).
      change [0; 0; 0; 0] with (repeat 0 4). rewrite X at 1. rewrite <- app_assoc, <- repeat_app. do 2 f_equal. lia.
Qed.
Lemma serialize_trimmed misc pid size h name : bytes_ok h = true -> (length h <= 20)%nat -> (exists j, length h = 4 * j)%nat ->
  (forall t, h <> t ++ [0; 0; 0; 0]) ->
  serialize_build_id_event (mkBIE misc pid size (h ++ repeat 0 (20 - length h)) name) =
  (true, mkRBuild misc pid name (Some name) (if N.testbit misc 15 then Some size else None) h false).
Proof.
  intros B L J NZ. unfold serialize_build_id_event. cbn [be_build_id be_misc be_pid be_filename be_size].
  rewrite trimmed_id by assumption. rewrite hex_roundtrip_gen by exact B.
  rewrite hex_length. replace (2 * length h)%nat with (length h * 2)%nat by lia.
  rewrite Nat.div_mul by lia. rewrite repeat_length. unfold build_id_array.
  do 2 f_equal. rewrite (firstn_all2 (n := 20) h) by exact L.
  rewrite firstn_app, firstn_all, Nat.sub_diag. cbn [firstn]. apply app_nil_r.
Qed.

(** The build id as it is read. *)
Definition build_size (b : rbuild) : N := if N.testbit (rb_misc b) 15 then value_or 0 (rb_size b) mod 256 else 0.
Definition read_back (b : rbuild) : rbuild :=
  mkRBuild (rb_misc b) (rb_pid b) (rb_file b) (Some (rb_file b))
    (if N.testbit (rb_misc b) 15 then Some (build_size b) else None) (rb_hash b) false.
Lemma read_back_same b : same_build b (read_back b).
Proof.
  unfold same_build, read_back, build_size. cbn. repeat split. now destruct (N.testbit (rb_misc b) 15).
Qed.

Lemma more_builds s b l :
  put_builds (fs_builds s ++ b :: l) s =
  put_builds (fs_builds (put_builds (fs_builds s ++ [b]) s) ++ l) (put_builds (fs_builds s ++ [b]) s).
Proof. destruct s as [x0 x1 x2 x3 x4 x5 x6 x7 x8 x9 x10 x11 x12]. unfold put_builds, fs_builds. now rewrite <- app_assoc. Qed.

Section Builds.
Variable f : list N.
Hypothesis Hf : len f < two63.
Notation gets := (gets f).

Lemma gets_header o ty misc size (rest : list N) : at_off f o (le_bytes 4 ty ++ le_bytes 2 misc ++ le_bytes 2 size ++ rest) ->
  ty < two32 -> misc < two16 -> size < two16 -> 8 <= size <= 8 + len rest ->
  gets read_event_header o (mkHdr ty misc size) (o + 8).
Proof.
  intros A T M S [S1 S2]. assert (E := at_end_le _ _ _ A). rewrite !len_app, !len_le_bytes in E.
  assert (A8 : at_off f o (le_bytes 4 ty ++ le_bytes 2 misc ++ le_bytes 2 size)).
  { apply (at_left f o _ rest). now rewrite <- !app_assoc. }
  unfold read_event_header.
  next; [apply gets_data'; [exact Hf|exact A8|rewrite !len_app, !len_le_bytes; reflexivity]|].
  next; [apply gets_ask|]. cbn [rswap rd]. unfold sw16, sw32.
  assert (X0 : slice (le_bytes 4 ty ++ le_bytes 2 misc ++ le_bytes 2 size) 0 4 = le_bytes 4 ty)
    by (apply (slice_app []); rewrite ?len_le_bytes; reflexivity).
  rewrite X0.
  assert (X4 : slice (le_bytes 4 ty ++ le_bytes 2 misc ++ le_bytes 2 size) 4 2 = le_bytes 2 misc)
    by (apply slice_app; rewrite ?len_le_bytes; reflexivity).
  rewrite X4.
  assert (X : slice (le_bytes 4 ty ++ le_bytes 2 misc ++ le_bytes 2 size) 6 2 = le_bytes 2 size).
  { rewrite app_assoc. rewrite <- (app_nil_r (le_bytes 2 size)) at 1.
    apply slice_app; rewrite ?len_app, ?len_le_bytes; reflexivity. }
  rewrite X. rewrite !of_le_le_bytes by assumption.
  next; [apply gets_guard, N.leb_le; exact S1|].
  next; [apply gets_ask|]. next; [apply gets_guard, N.leb_le|apply gets_ret].
  unfold remaining. cbn [rbuf roff rd].
  rewrite sub64_le; clear - S1 S2 E Hf; unfold two63, two64 in *; lia.
Qed.

Lemma build_room b : build_ok b -> 36 + room_of (rb_file b) < two16 /\ len (rb_file b) < room_of (rb_file b) <= 4096.
Proof.
  intros B. destruct (bo_file _ B) as [_ L]. assert (R := room_bounds (rb_file b)).
  unfold room_of, two16 in *. assert (X := N.div_lt_upper_bound (len (rb_file b)) 8 512 ltac:(discriminate) L).
  clear - X R. lia.
Qed.
Lemma len_build b : build_ok b -> len (build_id_bytes b) = 36 + room_of (rb_file b).
Proof.
  intros B. destruct (bo_hash _ B) as (_ & L & _). unfold build_id_bytes.
  rewrite !len_app, !len_le_bytes, len_padded_text, len_repeat. rewrite !len_cons. change (len []) with 0. clear - L. lia.
Qed.
Lemma gets_build b s o : build_ok b -> at_off f o (build_id_bytes b) ->
  gets (read_build_id (mkHdr 67 (rb_misc b) (36 + room_of (rb_file b))) s) (o + 8)
    (put_builds (fs_builds s ++ [read_back b]) s) (o + len (build_id_bytes b)).
Proof.
  intros B A. destruct (build_room b B) as (R1 & R2 & R3). assert (LB := len_build b B).
  destruct (bo_hash _ B) as (B1 & B2 & B3 & B4). destruct (bo_file _ B) as [Z L4].
  set (h := rb_hash b) in *. set (name := rb_file b) in *.
  set (payload := le_bytes 4 (rb_pid b) ++ h ++ repeat 0 (N.to_nat (20 - len h)) ++
                  [build_size b; 0; 0; 0] ++ padded_text name).
  assert (EB : build_id_bytes b = le_bytes 4 67 ++ le_bytes 2 (rb_misc b) ++ le_bytes 2 (36 + room_of name) ++ payload)
    by reflexivity.
  assert (LP : len payload = 28 + room_of name).
  { rewrite EB in LB. rewrite !len_app, !len_le_bytes in LB. clear - LB. lia. }
  assert (AP : at_off f (o + 8) payload).
  { rewrite EB in A. replace (o + 8) with (o + len (le_bytes 4 67 ++ le_bytes 2 (rb_misc b) ++ le_bytes 2 (36 + room_of name)))
      by (rewrite !len_app, !len_le_bytes; reflexivity).
    apply at_right. now rewrite <- !app_assoc. }
  unfold read_build_id. cbn [h_size h_type h_misc].
  next; [apply gets_guard, N.leb_le; clear; lia|].
  next; [apply gets_data'; [exact Hf|exact AP|rewrite LP; clear; lia]|].
  next; [apply gets_ask|]. cbn [rswap rd]. next; [apply gets_lift; reflexivity|].
  rewrite <- EB.
  replace (36 + room_of name - 36) with (room_of name) by (clear; lia). rewrite N.min_l by exact R3.
  assert (E36 : build_id_bytes b = (le_bytes 4 67 ++ le_bytes 2 (rb_misc b) ++ le_bytes 2 (36 + room_of name) ++
     le_bytes 4 (rb_pid b) ++ h ++ repeat 0 (N.to_nat (20 - len h)) ++ [build_size b; 0; 0; 0]) ++ padded_text name ++ []).
  { rewrite EB. unfold payload. now rewrite app_nil_r, <- !app_assoc. }
  assert (L36 : 36 = len (le_bytes 4 67 ++ le_bytes 2 (rb_misc b) ++ le_bytes 2 (36 + room_of name) ++
     le_bytes 4 (rb_pid b) ++ h ++ repeat 0 (N.to_nat (20 - len h)) ++ [build_size b; 0; 0; 0])).
  { rewrite !len_app, !len_le_bytes, len_repeat, !len_cons. change (len []) with 0. clear - B2. lia. }
  assert (S36 : slice (build_id_bytes b) 36 (room_of name) = padded_text name).
  { rewrite E36. apply slice_app; [exact L36|now rewrite len_padded_text]. }
  assert (SN : slice (build_id_bytes b) 36 (len name) = name).
  { rewrite E36. unfold padded_text. rewrite <- (app_assoc name). apply slice_app; [exact L36|reflexivity]. }
  assert (T : ev_strnlen (build_id_bytes b) 36 (room_of name) = Ok (len name)).
  { unfold ev_strnlen. rewrite S36, len_padded_text. unfold padded_text.
    rewrite strnlen_text; [|exact Z|clear - R2; lia].
    destruct (N.leb_spec (room_of name) (len name)) as [X|X]; [clear - X R2; lia|]. now rewrite Bool.andb_false_r. }
  next; [apply gets_lift; exact T|].
  next; [apply gets_guard; apply Bool.negb_true_iff, N.eqb_neq; clear - R2; lia|].
  next; [apply gets_guard, N.leb_le; rewrite aligned_room; [apply N.le_refl|clear - L4; unfold two64; lia]|].
  assert (MR : forall q n d, slice (build_id_bytes b) q n = d -> q + n <= 36 -> mem_read (build_id_bytes b) q n = Ok d).
  { intros q n d Sd Q. unfold mem_read. rewrite (proj2 (N.leb_le _ _)) by (rewrite LB; clear - Q; lia). now rewrite Sd. }
  assert (S8 : slice (build_id_bytes b) 8 4 = le_bytes 4 (rb_pid b)).
  { rewrite EB. unfold payload.
    rewrite (app_assoc (le_bytes 4 67)), (app_assoc (le_bytes 4 67 ++ _)).
    apply slice_app; rewrite ?len_app, ?len_le_bytes; reflexivity. }
  assert (S12 : slice (build_id_bytes b) 12 20 = h ++ repeat 0 (20 - length h)).
  { replace (20 - length h)%nat with (N.to_nat (20 - len h)) by (unfold len; lia).
    rewrite EB. unfold payload. rewrite (app_assoc h).
    rewrite (app_assoc (le_bytes 4 67)), (app_assoc (le_bytes 4 67 ++ _)), (app_assoc ((le_bytes 4 67 ++ _) ++ _)).
    apply slice_app; rewrite ?len_app, ?len_le_bytes; [reflexivity|rewrite len_repeat; clear - B2; lia]. }
  assert (S32 : slice (build_id_bytes b) 32 1 = [build_size b]).
  { assert (Q : build_id_bytes b = (le_bytes 4 67 ++ le_bytes 2 (rb_misc b) ++ le_bytes 2 (36 + room_of name) ++
     le_bytes 4 (rb_pid b) ++ h ++ repeat 0 (N.to_nat (20 - len h))) ++ [build_size b] ++ [0; 0; 0] ++ padded_text name).
    { rewrite EB. unfold payload. rewrite <- !app_assoc. reflexivity. }
    rewrite Q. apply slice_app; [|reflexivity].
    rewrite !len_app, !len_le_bytes, len_repeat. clear - B2. lia. }
  next; [apply gets_lift; rewrite (MR _ _ _ S8) by (clear; lia); reflexivity|].
  next; [apply gets_lift, (MR _ _ _ S12); clear; lia|].
  next; [apply gets_lift; rewrite (MR _ _ _ S32) by (clear; lia); reflexivity|].
  rewrite of_le_le_bytes by exact (bo_pid _ B). rewrite SN.
  replace (of_le [build_size b]) with (build_size b) by (cbn [of_le]; clear; lia).
  rewrite serialize_trimmed; [| exact B1 | unfold len in B2; lia | | exact B4].
  - rewrite LB. rewrite LP || idtac. replace (o + (36 + room_of name)) with (o + 8 + (36 + room_of name - 8)) by (clear; lia).
    apply gets_ret.
  - exists (N.to_nat (len h / 4)). assert (Q := N.div_mod (len h) 4 ltac:(discriminate)). rewrite B3 in Q. clear - Q. unfold len in *. lia.
Qed.

Lemma gets_builds l : Forall build_ok l -> forall fuel o s, (length l < fuel)%nat ->
  at_off f o (concat (map build_id_bytes l)) ->
  gets (build_id_loop fuel (len (concat (map build_id_bytes l))) s) o
    (put_builds (fs_builds s ++ map read_back l) s) (o + len (concat (map build_id_bytes l))).
Proof.
  induction 1 as [|b l Fb F IH]; intros fuel o s K A; (destruct fuel as [|fuel]; [inversion K|]).
  - cbn [map concat build_id_loop]. change (len []) with 0. rewrite N.add_0_r, app_nil_r.
    replace (put_builds (fs_builds s) s) with s by (now destruct s). apply gets_ret.
  - cbn [map concat build_id_loop] in *. apply split2 in A as [A1 A2].
    assert (LB := len_build b Fb). destruct (build_room b Fb) as (R1 & R2 & R3).
    rewrite len_app. rewrite (proj2 (N.eqb_neq _ _)) by (clear - LB; lia).
    next.
    { unfold build_id_bytes in A1. apply (gets_header _ _ _ _ _ A1); [reflexivity|exact (bo_misc _ Fb)|exact R1|].
      split; [clear; lia|]. unfold build_id_bytes in LB. rewrite !len_app, !len_le_bytes in LB. rewrite !len_app, !len_le_bytes. clear - LB. lia. }
    next; [apply gets_guard, N.leb_le; cbn [h_size]; clear - LB; lia|].
    next; [apply gets_build; [exact Fb|exact A1]|]. cbn [h_size].
    replace (len (build_id_bytes b) + len (concat (map build_id_bytes l)) - (36 + room_of (rb_file b)))
      with (len (concat (map build_id_bytes l))) by (clear - LB; lia).
    rewrite N.add_assoc.
    rewrite (more_builds s (read_back b) (map read_back l)).
    apply IH; [cbn [length] in K; lia|exact A2].
Qed.
Lemma build_many l : Forall build_ok l -> (length l <= length (concat (map build_id_bytes l)))%nat.
Proof.
  clear. induction 1 as [|b l Fb F IH]; [apply le_n|]. cbn [map concat length]. rewrite app_length.
  assert (LB := len_build b Fb). unfold len in LB. lia.
Qed.
Lemma gets_build_feature p s o : metadata_ok p -> asked p 2 = true -> at_off f o (feature_bytes p 2) ->
  gets (read_feature 2 (len (feature_bytes p 2)) s) o
    (put_builds (fs_builds s ++ map read_back (wd_builds p)) s) (o + len (feature_bytes p 2)).
Proof.
  intros M K A. change (feature_bytes p 2) with (concat (map build_id_bytes (wd_builds p))) in *.
  assert (F := mk_builds _ M K). assert (E := at_end_le _ _ _ A). assert (X := build_many _ F).
  change (read_feature 2 (len (concat (map build_id_bytes (wd_builds p)))) s) with
    (rlet fuel := rask loop_fuel in build_id_loop fuel (len (concat (map build_id_bytes (wd_builds p)))) s).
  next; [apply gets_ask|]. apply gets_builds; [exact F| |exact A].
  unfold loop_fuel. cbn [rbuf rd]. unfold len in E. lia.
Qed.
End Builds.
