(** Writing a whole file: what is written if the writer succeeds, and when it does. *)
From Verif Require Import Base BytesModel BytesProofs BytesMoreProofs BufferModel BufferSpec BufferProofs
  EventSizeModel Assoc TextModel ReaderOpsModel SampleModel FileModel SerializerModel SerializerProofs AttrModel
  WriteModel WriteSpec WriteProofs WriteFeatureProofs WriteEventProofs WriteFileProofs WriteAllProofs WriteMetadataProofs.
Local Open Scope N_scope.

Definition sum {A} (f : A -> N) (l : list A) : N := fold_right (fun x n => f x + n) 0 l.

Lemma total_from {A} (f : A -> N) l : forall n, n < two64 -> fold_left (fun n x => w64 (n + f x)) l n = w64 (n + sum f l).
Proof.
  induction l as [|x l IH]; intros n H; cbn [fold_left sum fold_right].
  - rewrite N.add_0_r. symmetry. now apply w64_small.
  - rewrite IH by (unfold w64; apply N.mod_lt; discriminate). fold (sum f l).
    unfold w64. rewrite N.add_mod_idemp_l by discriminate. f_equal. lia.
Qed.
Lemma total_sum {A} (f : A -> N) l : total f l = w64 (sum f l).
Proof. unfold total. rewrite total_from by reflexivity. now rewrite N.add_0_l. Qed.
Lemma w64_lt n : w64 n < two64.
Proof. unfold w64. apply N.mod_lt. discriminate. Qed.

Lemma sum_len {A} (f : A -> N) (d : A -> list N) l : (forall x, In x l -> len (d x) = f x) -> len (concat (map d l)) = sum f l.
Proof.
  induction l as [|x l IH]; intros H; [reflexivity|]. cbn [map concat sum fold_right]. rewrite len_app.
  rewrite H by now left. fold (sum f l). rewrite IH; [reflexivity|]. intros y Hy. apply H. now right.
Qed.

Lemma ids_size_len p : ids_size p = w64 (len (ids_bytes (wd_attrs p))).
Proof.
  unfold ids_size. rewrite total_sum. f_equal. symmetry. unfold ids_bytes. apply sum_len.
  intros a _. rewrite len_words. lia.
Qed.

(** Two numbers that differ by a common summand, up to 2^64. *)
Lemma w64_cancel a b c : b < two64 -> c < two64 -> w64 (a + b) = w64 (a + c) -> b = c.
Proof.
  intros Hb Hc H. unfold w64 in H.
  assert (Ea := N.div_mod (a + b) two64 ltac:(discriminate)). assert (Ec := N.div_mod (a + c) two64 ltac:(discriminate)).
  rewrite H in Ea. set (q1 := (a + b) / two64) in *. set (q2 := (a + c) / two64) in *. set (r := (a + c) mod two64) in *.
  clearbody q1 q2 r. clear H. unfold two64 in *. destruct (N.lt_trichotomy q1 q2) as [L|[->|L]]; lia.
Qed.

Definition data_bytes ord s (p : wdata) : list N := concat (map (event_bytes ord s) (wd_events p)).

Definition image_head ord s (p : wdata) : list N :=
  let attrs_off := 104 + len (ids_bytes (wd_attrs p)) in
  let data_off := attrs_off + 112 * len (wd_attrs p) in
  le_bytes 8 perf_magic ++ le_bytes 8 104 ++ le_bytes 8 112 ++
  place attrs_off (112 * len (wd_attrs p)) ++ place data_off (len (data_bytes ord s p)) ++ place data_off 0 ++
  le_bytes 8 (feature_word p) ++ repeat 0 24.

Definition image_body ord s (p : wdata) : list N :=
  ids_bytes (wd_attrs p) ++ attr_entries 104 (wd_attrs p) ++ data_bytes ord s p.

Lemma len_head ord s p : len (image_head ord s p) = 104.
Proof.
  unfold image_head. rewrite !len_app, !len_place, !len_le_bytes. reflexivity.
Qed.

Definition image_prefix ord s (p : wdata) : N :=
  104 + len (ids_bytes (wd_attrs p)) + 112 * len (wd_attrs p) + len (data_bytes ord s p).
Lemma len_image_prefix ord s p : len (image_head ord s p ++ image_body ord s p) = image_prefix ord s p.
Proof.
  unfold image_body, image_prefix. rewrite !len_app, len_head, len_entries. lia.
Qed.

Lemma image_split ord s p : file_image ord s p =
  (image_head ord s p ++ image_body ord s p) ++ metadata_bytes p (image_prefix ord s p).
Proof.
  unfold file_image, image_head, image_body, metadata_bytes, table_and, image_prefix, data_bytes, feature_parts.
  fold (ids_bytes (wd_attrs p)). rewrite len_entries. cbv zeta.
  rewrite <- !app_assoc. reflexivity.
Qed.

(** The header that is written. *)
Lemma header_fits ord s p :
  104 + len (ids_bytes (wd_attrs p)) + 112 * len (wd_attrs p) < two64 -> data_size p = len (data_bytes ord s p) ->
  header_bytes (generate_header p) = image_head ord s p /\
  sc_offset (fh_attrs (generate_header p)) = 104 + len (ids_bytes (wd_attrs p)) /\
  sc_offset (fh_data (generate_header p)) = 104 + len (ids_bytes (wd_attrs p)) + 112 * len (wd_attrs p) /\
  sc_size (fh_data (generate_header p)) = len (data_bytes ord s p).
Proof.
  intros H D. unfold header_bytes, generate_header. cbn [fh_attrs fh_data fh_types fh_features fh_attr_size sc_offset sc_size].
  fold (fword p). rewrite D, ids_size_len, fword_word.
  rewrite (w64_small (len (ids_bytes (wd_attrs p)))) by lia.
  rewrite (w64_small (104 + _)) by lia. rewrite (w64_small (112 * _)) by lia. rewrite w64_small by lia.
  repeat split.
Qed.

Lemma event_fits_all p : representable p -> Forall event_fits (wd_events p).
Proof.
  intros R. assert (E := rp_events p R). eapply Forall_impl; [|exact E]. intros x (H1 & H2). split; [exact H1|].
  exact H2.
Qed.

Definition header_run h (p : wdata) : wres unit := wlet _ := write_header h in write_attrs h p.

(** Each step adds its part. *)
Lemma header_step h p ids l rest u w : len rest < two63 -> ids = ids_bytes l -> wd_attrs p = l ->
  len (header_bytes h) = 104 ->
  header_run h p (at_end [] rest) = (Ok u, w) ->
  sc_offset (fh_attrs h) = 104 + len ids /\ 104 + len ids + 112 * len l <= len rest /\
  w = at_end (header_bytes h ++ ids ++ attr_entries 104 l) (drop (104 + len ids + 112 * len l) rest).
Proof.
  intros H -> Hl Lh E. unfold header_run in E.
  unfold write_header in E. set (hb := header_bytes h) in *. clearbody hb.
  apply wthen_ok in E as (u1 & w1 & E1 & E).
  assert (Pd := puts_data hb). destruct (Pd [] rest) as [S _]; [change (len []) with 0; lia|].
  destruct (S _ _ E1) as (_ & _ & L1 & ->). clear S E1 Pd. cbn [snd app] in *. rewrite Lh in *.
  unfold write_attrs in E. rewrite Hl in E.
  apply wthen_ok in E as (pos & w1 & E1 & E). unfold wtell in E1. injection E1 as <- <-.
  apply wthen_ok in E as (u2 & w1 & E1 & E). apply wcheck_ok in E1 as [_ ->].
  apply wthen_ok in E as (secs & w1 & E1 & E).
  assert (B1 : len hb + len (drop 104 rest) < two63) by (rewrite len_drop; lia).
  destruct (emits_ids l _ _ B1) as [S _]. destruct (S _ _ E1) as (_ & -> & L2 & ->). clear S E1. cbn [fst snd] in *.
  rewrite Lh, len_drop in *.
  apply wthen_ok in E as (pos & w1 & E1 & E). unfold wtell in E1. injection E1 as <- <-.
  apply wthen_ok in E as (u3 & w1 & E1 & E). apply wcheck_ok in E1 as [E1 ->].
  cbn [at_end woff] in E1. apply N.eqb_eq in E1. rewrite len_app, Lh in E1.
  match type of E with _ (at_end ?a ?b) = _ => assert (B2 : len a + len b < two63) by (rewrite len_app, !len_drop; lia) end.
  destruct (puts_entries l 104 _ _ B2) as [S _]. destruct (S _ _ E) as (_ & _ & L3 & ->). cbn [snd] in *.
  rewrite len_entries, !len_drop in *. split; [now symmetry|]. split; [lia|].
  rewrite !drop_drop, <- !app_assoc, N.add_assoc. reflexivity.
Qed.

Lemma header_steps h p ids l rest : len rest < two63 -> ids = ids_bytes l -> wd_attrs p = l ->
  len (header_bytes h) = 104 ->
  sc_offset (fh_attrs h) = 104 + len ids -> 104 + len ids + 112 * len l <= len rest ->
  header_run h p (at_end [] rest) =
  (Ok tt, at_end (header_bytes h ++ ids ++ attr_entries 104 l) (drop (104 + len ids + 112 * len l) rest)).
Proof.
  intros H -> Hl Lh Eo Room. unfold header_run, write_header. set (hb := header_bytes h) in *. clearbody hb.
  assert (Pd := puts_data hb). destruct (Pd [] rest) as [_ C]; [change (len []) with 0; lia|].
  cbn [fst snd app] in C. rewrite Lh in C.
  unfold wthen at 1. rewrite C; [|exact I|destruct (nonempty hb) eqn:Z; [lia|]].
  2: { unfold nonempty in Z. destruct hb; [discriminate|discriminate]. }
  clear C Pd. unfold write_attrs. rewrite Hl.
  unfold wthen at 1, wtell at 1. unfold wthen at 1, wcheck at 1. cbn [at_end woff].
  assert (Z : (len hb =? 104) = true) by (rewrite Lh; reflexivity). rewrite Z. fold (at_end hb (drop 104 rest)).
  assert (B1 : len hb + len (drop 104 rest) < two63) by (rewrite len_drop; lia).
  destruct (emits_ids l _ _ B1) as [_ C]. cbn [fst snd] in C. rewrite Lh, len_drop in C.
  unfold wthen at 1. rewrite C by (auto; lia). clear C.
  unfold wthen at 1, wtell at 1. unfold wthen at 1, wcheck at 1. cbn [at_end woff].
  assert (Z2 : (len (hb ++ ids_bytes l) =? sc_offset (fh_attrs h)) = true) by (rewrite len_app, Lh, Eo; apply N.eqb_refl).
  rewrite Z2.
  match goal with |- weach _ _ (at_end ?a ?b) = _ =>
    assert (B2 : len a + len b < two63) by (rewrite len_app, !len_drop; lia);
    destruct (puts_entries l 104 a b B2) as [_ C] end.
  cbn [fst snd] in C. rewrite len_entries, !len_drop in C. 
  rewrite C by (auto; lia). rewrite !drop_drop, <- !app_assoc, N.add_assoc. reflexivity.
Qed.

Lemma events_step ord s h p pre rest u w : representable p -> len pre + len rest < two63 ->
  write_events ord s h p (at_end pre rest) = (Ok u, w) ->
  Forall (event_ok ord s) (wd_events p) /\ (wd_events p = [] \/ ss_readers s <> []) /\
  len (data_bytes ord s p) <= len rest /\
  w = at_end (pre ++ data_bytes ord s p) (drop (len (data_bytes ord s p)) rest).
Proof.
  intros R H E. assert (F := event_fits_all p R). unfold write_events in E. unfold data_bytes.
  destruct (wd_events p) as [|x l] eqn:Ev.
  - unfold wret in E. injection E as _ <-. cbn [map concat]. change (len []) with 0.
    rewrite app_nil_r, drop_0. split; [constructor|]. split; [now left|]. split; [lia|reflexivity].
  - apply wthen_ok in E as (u1 & w1 & E1 & E). apply wcheck_ok in E1 as [E1 ->].
    apply wthen_ok in E as (pos & w1 & E2 & E). unfold wtell in E2. injection E2 as <- <-.
    apply wthen_ok in E as (u2 & w1 & E2 & E). apply wcheck_ok in E2 as [_ ->].
    destruct (puts_events ord s (x :: l) F _ _ H) as [S _]. destruct (S _ _ E) as (K & _ & L & ->). cbn [snd] in *.
    split; [exact K|]. split; [right; intros Z; rewrite Z in E1; discriminate|]. split; [exact L|reflexivity].
Qed.

Lemma events_steps ord s h p pre rest : representable p -> len pre + len rest < two63 ->
  Forall (event_ok ord s) (wd_events p) -> (wd_events p = [] \/ ss_readers s <> []) ->
  len pre = sc_offset (fh_data h) -> len (data_bytes ord s p) < len rest ->
  write_events ord s h p (at_end pre rest) =
  (Ok tt, at_end (pre ++ data_bytes ord s p) (drop (len (data_bytes ord s p)) rest)).
Proof.
  intros R H K Hr Ho Room. assert (F := event_fits_all p R). unfold write_events. unfold data_bytes in *.
  destruct (wd_events p) as [|x l] eqn:Ev.
  - cbn [map concat]. change (len []) with 0. rewrite app_nil_r, drop_0. reflexivity.
  - destruct Hr as [Hr|Hr]; [discriminate|].
    unfold wthen at 1, wcheck at 1. destruct (ss_readers s); [contradiction|]. cbn [negb].
    unfold wthen at 1, wtell at 1. unfold wthen at 1, wcheck at 1. cbn [at_end woff]. rewrite Ho, N.eqb_refl.
    
    destruct (puts_events ord s (x :: l) F _ _ H) as [_ C]. now apply C.
Qed.

Lemma write_all_split ord s p w : write_all ord s p w =
  wthen (header_run (generate_header p) p)
    (fun _ => wlet _ := write_events ord s (generate_header p) p in write_metadata (generate_header p) p) w.
Proof.
  unfold write_all, header_run, wthen. destruct (write_header (generate_header p) w) as [[a| | | |] w1]; reflexivity.
Qed.

(** What the header says about the data is right if all checks pass. *)
Lemma header_len h : len (header_bytes h) = 72 + len (fh_features h).
Proof. unfold header_bytes, section_bytes. rewrite !len_app, !len_le_bytes. lia. Qed.
Lemma generated_len p : len (header_bytes (generate_header p)) = 104.
Proof.
  rewrite header_len. unfold generate_header. cbn [fh_features]. rewrite len_app, len_le_bytes. reflexivity.
Qed.
Lemma data_size_lt p : data_size p < two64.
Proof. unfold data_size. rewrite total_sum. apply w64_lt. Qed.
Lemma generated p :
  sc_offset (fh_attrs (generate_header p)) = w64 (104 + ids_size p) /\
  sc_offset (fh_data (generate_header p)) = w64 (w64 (104 + ids_size p) + w64 (112 * len (wd_attrs p))) /\
  sc_size (fh_data (generate_header p)) = data_size p.
Proof. repeat split. Qed.

Theorem write_all_sound ord s p rest u w : representable p -> len rest < two63 ->
  write_all ord s p (at_end [] rest) = (Ok u, w) ->
  len (file_image ord s p) <= len rest /\
  w = at_end (file_image ord s p) (drop (len (file_image ord s p)) rest) /\
  Forall (event_ok ord s) (wd_events p) /\ (wd_events p = [] \/ ss_readers s <> []) /\
  Forall (feature_ok p) (features_of p) /\ data_size p = len (data_bytes ord s p).
Proof.
  intros R H E. rewrite write_all_split in E.
  apply wthen_ok in E as (u1 & w1 & E1 & E).
  destruct (header_step _ p (ids_bytes (wd_attrs p)) (wd_attrs p) rest u1 w1 H eq_refl eq_refl (generated_len p) E1)
    as (Ho & L1 & ->). clear E1.
  set (ids := ids_bytes (wd_attrs p)) in *. set (n := len (wd_attrs p)) in *.
  apply wthen_ok in E as (u2 & w2 & E2 & E).
  assert (Lp : len (header_bytes (generate_header p) ++ ids ++ attr_entries 104 (wd_attrs p)) = 104 + len ids + 112 * n).
  { rewrite !len_app, generated_len, len_entries. fold n. lia. }
  match type of E2 with write_events _ _ _ _ (at_end ?a ?b) = _ =>
    assert (B : len a + len b < two63) by (rewrite Lp, len_drop; lia) end.
  destruct (events_step ord s _ p _ _ _ _ R B E2) as (K1 & K2 & L2 & ->). clear E2 B.
  rewrite len_drop in L2.
  match type of E with write_metadata _ _ (at_end ?a ?b) = _ =>
    assert (B : len a + len b < two63) by (rewrite len_app, Lp, !len_drop; lia) end.
  destruct (metadata_sound _ p _ _ _ _ R eq_refl B E) as (Hd & K3 & L3 & ->). clear E B.
  assert (Lq : len ((header_bytes (generate_header p) ++ ids ++ attr_entries 104 (wd_attrs p)) ++ data_bytes ord s p)
               = image_prefix ord s p) by (rewrite len_app, Lp; reflexivity).
  rewrite Lq in *. rewrite !drop_drop in *. rewrite len_drop in L3.
  assert (D : data_size p = len (data_bytes ord s p)).
  { destruct (generated p) as (_ & G2 & G3). rewrite G2, G3, ids_size_len in Hd. fold ids n in Hd.
    assert (B1 : len ids < two64) by (clear - L1 H; unfold two63, two64 in *; lia).
    assert (B2 : 104 + len ids + 112 * n < two64) by (clear - L1 H; unfold two63, two64 in *; lia).
    rewrite (w64_small (len ids) B1) in Hd.
    rewrite (w64_small (104 + len ids)) in Hd by (clear - B2; lia). rewrite (w64_small (112 * n)) in Hd by (clear - B2; lia).
    rewrite (w64_small (_ + 112 * n) B2) in Hd.
    symmetry. apply (w64_cancel (104 + len ids + 112 * n)).
    - clear - L2 H. unfold two63, two64 in *. lia.
    - apply data_size_lt.
    - rewrite <- Hd. unfold image_prefix. fold ids n. rewrite w64_small; [reflexivity|].
      clear - L1 L2 H. unfold two63, two64 in *. lia. }
  assert (HF : header_bytes (generate_header p) = image_head ord s p).
  { apply header_fits; [|exact D]. fold ids n. clear - L1 H; unfold two63, two64 in *; lia. }
  rewrite image_split. rewrite HF in *. unfold image_body. fold ids.
  assert (Lt : len ((image_head ord s p ++ ids ++ attr_entries 104 (wd_attrs p) ++ data_bytes ord s p) ++
                 metadata_bytes p (image_prefix ord s p)) =
               104 + len ids + 112 * n + len (data_bytes ord s p) + len (metadata_bytes p (image_prefix ord s p))).
  { rewrite !len_app, len_head, len_entries. fold n. lia. }
  rewrite Lt. split; [clear - L1 L2 L3; lia|]. split; [|tauto].
  rewrite <- !app_assoc. f_equal. f_equal. lia.
Qed.

Theorem write_all_complete ord s p rest : representable p -> len rest < two63 ->
  Forall (event_ok ord s) (wd_events p) -> (wd_events p = [] \/ ss_readers s <> []) ->
  Forall (feature_ok p) (features_of p) -> data_size p = len (data_bytes ord s p) ->
  len (file_image ord s p) < len rest \/ (N.testbit (wd_mask p) 30 = true /\ len (file_image ord s p) <= len rest) ->
  write_all ord s p (at_end [] rest) =
  (Ok tt, at_end (file_image ord s p) (drop (len (file_image ord s p)) rest)).
Proof.
  intros R H K1 K2 K3 D Room. rewrite write_all_split.
  rewrite image_split in *. rewrite (len_app (_ ++ _)), len_image_prefix in *.
  unfold image_body. set (ids := ids_bytes (wd_attrs p)) in *. set (n := len (wd_attrs p)) in *.
  set (M := metadata_bytes p (image_prefix ord s p)) in *.
  assert (Lm : N.testbit (wd_mask p) 30 = true -> 0 < len M).
  { intros B. exact (hybrid_room p _ _ B (N.le_refl _)). }
  assert (Pr : image_prefix ord s p = 104 + len ids + 112 * n + len (data_bytes ord s p)) by reflexivity.
  assert (Le : image_prefix ord s p < len rest) by (destruct Room as [|[B ?]]; [lia|specialize (Lm B); lia]).
  destruct (header_fits ord s p) as (HF & H1 & H2 & H3); [|exact D|].
  { fold ids n. clear - Le Pr H. unfold two63, two64 in *. lia. }
  fold ids n in H1, H2.
  unfold wthen at 1.
  rewrite (header_steps _ p ids (wd_attrs p) rest H eq_refl eq_refl (generated_len p) H1) by (fold n; clear - Le Pr; lia).
  fold n.
  assert (Lp : len (header_bytes (generate_header p) ++ ids ++ attr_entries 104 (wd_attrs p)) = 104 + len ids + 112 * n).
  { rewrite !len_app, generated_len, len_entries. fold n. lia. }
  unfold wthen at 1.
  rewrite events_steps; [|exact R|rewrite Lp, len_drop; clear - Le Pr H; lia|exact K1|exact K2|
    rewrite Lp, H2; reflexivity|rewrite len_drop; clear - Le Pr; lia].
  match goal with |- write_metadata _ _ (at_end ?a ?b) = _ =>
    assert (B : len a + len b < two63) by (rewrite len_app, Lp, !len_drop; clear - Le Pr H; lia);
    assert (Lq : len a = image_prefix ord s p) by (rewrite len_app, Lp; reflexivity) end.
  rewrite metadata_complete; [|exact R|reflexivity|exact B| |exact K3|].
  - rewrite Lq. fold M. rewrite HF, !drop_drop, <- !app_assoc. do 3 f_equal. clear - Pr. lia.
  - rewrite Lq, H2, H3, w64_small; [exact Pr|]. clear - Le Pr H. unfold two63, two64 in *. lia.
  - rewrite Lq. fold M. rewrite !len_drop. clear - Le Pr Room Lm. destruct Room as [|[B ?]]; [left; lia|right; split; [exact B|lia]].
Qed.
