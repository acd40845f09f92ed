(** Writing the metadata of a perf data file. *)
From Verif Require Import Base BytesModel BytesProofs BytesMoreProofs BufferModel BufferSpec BufferProofs
  EventSizeModel Assoc TextModel ReaderOpsModel SampleModel FileModel SerializerModel SerializerProofs AttrModel
  WriteModel WriteSpec WriteProofs WriteFeatureProofs WriteEventProofs WriteFileProofs WriteAllProofs.
Local Open Scope N_scope.
Lemma wthen_ok {A B} (c : wres A) (k : A -> wres B) w b w' :
  wthen c k w = (Ok b, w') -> exists a w1, c w = (Ok a, w1) /\ k a w1 = (Ok b, w').
Proof. unfold wthen. destruct (c w) as [[a| | | |] w1]; try discriminate. eauto. Qed.
Lemma wcheck_ok b w u w' : wcheck b w = (Ok u, w') -> b = true /\ w' = w.
Proof. unfold wcheck. destruct b; [|discriminate]. intros H. injection H as _ <-. auto. Qed.

Lemma goto_forward pre rest n : n <= len rest ->
  wseek (len pre + n) (at_end pre rest) = at_end (pre ++ firstn (N.to_nat n) rest) (drop n rest).
Proof.
  intros H. unfold wseek, at_end, drop. cbn [wbuf]. rewrite len_app, len_firstn by exact H.
  rewrite <- app_assoc, firstn_skipn. reflexivity.
Qed.
Lemma goto_back pre mid rest : wseek (len pre) (at_end (pre ++ mid) rest) = at_end pre (mid ++ rest).
Proof. unfold wseek, at_end. cbn [wbuf]. now rewrite <- app_assoc. Qed.


(** The table and the parts behind it, for any command that writes the parts. *)
Definition table_and (off : N) (parts : list (list N)) : list N :=
  concat (places (off + 16 * len parts) parts) ++ concat parts.

Definition metadata_with (header_off n : N) (cmd : wres (list section)) : wres unit :=
  wlet pos := wtell in
  wlet _ := wcheck (pos =? header_off) in
  wlet _ := wgoto (w64 (header_off + 16 * n)) in
  wlet secs := cmd in
  wlet _ := wcheck (n =? len secs) in
  wlet old := wtell in
  wlet _ := wgoto header_off in
  wlet d := wlift (mem_read (concat (map section_bytes secs)) 0 (16 * n)) in
  wlet _ := write_data d in
  wlet pos := wtell in
  wlet _ := wcheck (pos =? w64 (header_off + 16 * n)) in
  wgoto old.

Lemma table_read parts off n : len parts = n ->
  mem_read (concat (map section_bytes (part_sections off parts))) 0 (16 * n) = Ok (concat (places off parts)).
Proof.
  intros <-. rewrite sections_places. assert (L := len_places parts off).
  unfold mem_read. rewrite L, N.add_0_l, N.leb_refl. f_equal. unfold slice. change (N.to_nat 0) with O. cbn [skipn].
  rewrite <- L, to_nat_len. apply firstn_all.
Qed.

Section With.
Context (n : N) (cmd : wres (list section)) (ok : Prop) (parts : list (list N)).
Hypothesis Hn : len parts = n.
Hypothesis Hn18 : n <= 18.
Hypothesis Hcmd : emits false cmd ok (fun o => (part_sections o parts, concat parts)).
Hypothesis Hroom : forall w, len (wbuf (snd (cmd w))) = len (wbuf w).

Lemma with_sound header_off pre rest u w : len pre + len rest < two63 ->
  metadata_with header_off n cmd (at_end pre rest) = (Ok u, w) ->
  len pre = header_off /\ ok /\ len (table_and (len pre) parts) <= len rest /\
  w = at_end (pre ++ table_and (len pre) parts) (drop (len (table_and (len pre) parts)) rest).
Proof.
  intros H. unfold metadata_with. set (hs := 16 * n).
  intros E. apply wthen_ok in E as (pos & w1 & E1 & E). unfold wtell in E1. injection E1 as <- <-.
  apply wthen_ok in E as (u1 & w1 & E1 & E). apply wcheck_ok in E1 as [E1 ->].
  cbn [at_end woff] in E1. apply N.eqb_eq in E1. split; [exact E1|]. subst header_off.
  assert (Hs : hs <= 288) by (unfold hs; clear - Hn18; lia).
  rewrite (w64_small (len pre + hs)) in E by (clear - H Hs; unfold two63, two64 in *; lia).
  apply wthen_ok in E as (u2 & w1 & E1 & E). unfold wgoto in E1. injection E1 as _ <-.
  apply wthen_ok in E as (secs & w2 & E1 & E).
  apply wthen_ok in E as (u3 & w3 & E3 & E). apply wcheck_ok in E3 as [_ ->].
  apply wthen_ok in E as (old & w3 & E4 & E). unfold wtell in E4. injection E4 as <- <-.
  apply wthen_ok in E as (u4 & w3 & E4 & E). unfold wgoto in E4. injection E4 as _ <-.
  apply wthen_ok in E as (d & w3 & E4 & E). unfold wlift in E4. injection E4 as E4 <-.
  apply wthen_ok in E as (u5 & w3 & E5 & E).
  apply wthen_ok in E as (pos & w4 & E6 & E). unfold wtell in E6. injection E6 as <- <-.
  apply wthen_ok in E as (u6 & w4 & E6 & E). apply wcheck_ok in E6 as [_ ->].
  unfold wgoto in E. injection E as _ <-.
  destruct (N.le_gt_cases hs (len rest)) as [Le|Gt].
  2: { exfalso. assert (K := Hroom (wseek (len pre + hs) (at_end pre rest))).
       rewrite E1 in K. cbn [snd wseek wbuf at_end] in K. rewrite len_app in K.
       assert (Ld : len d = hs).
       { unfold mem_read in E4. destruct (N.leb_spec (0 + hs) (len (concat (map section_bytes secs)))) as [B|B]; [|discriminate].
         injection E4 as <-. apply len_slice. exact B. }
       unfold write_data in E5. cbn [wseek wbuf woff] in E5. rewrite K, Ld in E5.
       rewrite (w64_small (len pre + hs)) in E5 by (clear - H Hs; unfold two63, two64 in *; lia).
       destruct (N.ltb_spec (len pre + len rest) (len pre + hs)); [discriminate|lia]. }
  rewrite goto_forward in E1 by exact Le.
  set (tab := firstn (N.to_nat hs) rest) in *.
  assert (Lt : len tab = hs) by (apply len_firstn; exact Le).
  assert (B1 : len (pre ++ tab) + len (drop hs rest) < two63) by (rewrite len_app, len_drop; lia).
  destruct (Hcmd _ _ B1) as [S _]. destruct (S _ _ E1) as (K1 & -> & K2 & ->). clear S E1.
  cbn [fst snd] in *.
  rewrite len_app, Lt in E4. rewrite len_drop in K2.
  unfold hs in E4 at 2. rewrite (table_read parts _ n Hn) in E4. injection E4 as <-.
  unfold table_and. rewrite Hn. fold hs. set (D := concat parts) in *.
  set (T := concat (places (len pre + hs) parts)) in *.
  assert (LT : len T = hs) by (unfold T; rewrite len_places, Hn; reflexivity).
  rewrite <- app_assoc, goto_back in E5.
  assert (B2 : len pre + len ((tab ++ D) ++ drop (len D) (drop hs rest)) < two63) by
    (rewrite !len_app, !len_drop; lia).
  destruct (write_data_room _ _ _ _ _ B2 E5) as [Q1 Q2].
  rewrite write_data_at in E5 by auto. injection E5 as _ <-.
  assert (Q : drop (len T) ((tab ++ D) ++ drop (len D) (drop hs rest)) = D ++ drop (len D) (drop hs rest)).
  { unfold drop at 1. rewrite <- app_assoc, LT, <- Lt. apply skipn_len_app. }
  rewrite Q. split; [exact K1|].
  split. { rewrite len_app. lia. }
  unfold wseek, at_end. cbn [wbuf woff]. rewrite !len_app, LT, Lt. f_equal.
  - rewrite drop_drop, <- !app_assoc. reflexivity.
  - lia.
Qed.

Lemma with_complete f pre rest : emits f cmd ok (fun o => (part_sections o parts, concat parts)) ->
  len pre + len rest < two63 -> ok -> 0 < len rest ->
  (if f then len (table_and (len pre) parts) <= len rest else len (table_and (len pre) parts) < len rest) ->
  metadata_with (len pre) n cmd (at_end pre rest) =
    (Ok tt, at_end (pre ++ table_and (len pre) parts) (drop (len (table_and (len pre) parts)) rest)).
Proof.
  intros Hf H K P0 Room. unfold metadata_with.
  set (hs := 16 * n).
  assert (Hs : hs <= 288) by (unfold hs; clear - Hn18; lia).
  unfold table_and in *. rewrite Hn in *. fold hs in Room |- *.
  set (T := concat (places (len pre + hs) parts)) in *.
  assert (LT : len T = hs) by (unfold T; rewrite len_places, Hn; reflexivity).
  rewrite len_app in Room |- *.
  assert (Le : hs + len (concat parts) <= len rest) by (destruct f; lia).
  unfold wthen at 1, wtell at 1. unfold wthen at 1, wcheck at 1. cbn [at_end woff]. fold (at_end pre rest).
  rewrite N.eqb_refl. unfold wthen at 1, wgoto at 1.
  rewrite (w64_small (len pre + hs)) by (clear - H Hs; unfold two63, two64 in *; lia).
  rewrite goto_forward by lia. set (tab := firstn (N.to_nat hs) rest) in *.
  assert (Lt : len tab = hs) by (apply len_firstn; lia).
  assert (B1 : len (pre ++ tab) + len (drop hs rest) < two63) by (rewrite len_app, len_drop; lia).
  destruct (Hf _ _ B1) as [_ W]. cbn [fst snd] in W. rewrite len_drop in W.
  unfold wthen at 1. rewrite W; [|exact K|destruct f; lia]. clear W. set (D := concat parts) in *.
  unfold wthen at 1, wcheck at 1. rewrite len_part_sections, Hn, N.eqb_refl.
  unfold wthen at 1, wtell at 1. unfold wthen at 1, wgoto at 1. unfold wthen at 1, wlift at 1.
  rewrite len_app, Lt. unfold hs at 3. rewrite (table_read parts _ n Hn). fold T.
  rewrite <- app_assoc, goto_back.
  assert (Q : drop (len T) ((tab ++ D) ++ drop (len D) (drop hs rest)) = D ++ drop (len D) (drop hs rest)).
  { unfold drop at 1. rewrite <- app_assoc, LT, <- Lt. apply skipn_len_app. }
  unfold wthen at 1. rewrite write_data_at by (rewrite ?len_app, ?len_drop; try right; lia).
  rewrite Q. unfold wthen at 1, wtell at 1. unfold wthen at 1, wcheck at 1. cbn [at_end woff].
  rewrite !len_app, LT, N.eqb_refl. unfold wgoto, wseek, at_end. cbn [wbuf woff]. rewrite !len_app, LT, Lt.
  rewrite drop_drop, <- !app_assoc. reflexivity.
Qed.
End With.

Lemma metadata_is h p : fh_features h = fh_features (generate_header p) ->
  write_metadata h p =
  metadata_with (w64 (sc_offset (fh_data h) + sc_size (fh_data h))) (num_metadata p) (write_features p (fword p) feature_types).
Proof.
  intros Hh. unfold write_metadata. rewrite Hh, header_word. reflexivity.
Qed.

Definition feature_parts (p : wdata) : list (list N) := map (feature_bytes p) (features_of p).
Lemma len_parts p : len (feature_parts p) = num_metadata p.
Proof. rewrite num_features. unfold feature_parts, len. now rewrite map_length. Qed.

Lemma features_known p ty : In ty (features_of p) -> In ty known_features.
Proof. exact (fun H => proj1 (proj1 (filter_In _ _ _) H)). Qed.
Lemma selected_known p ty : In ty feature_types -> N.testbit (fword p) ty = true -> In ty known_features.
Proof.
  exact (fun H T => features_known p ty (eq_ind _ (fun l => In ty l) (proj2 (filter_In _ _ _) (conj H T)) _ (selected p))).
Qed.

Lemma filter_len {A} (f : A -> bool) l : len (filter f l) <= len l.
Proof.
  unfold len. induction l as [|x l IH]; cbn [filter length]; [lia|]. destruct (f x); cbn [length]; lia.
Qed.
Lemma num_bound p : num_metadata p <= 18.
Proof.
  rewrite num_features. unfold features_of. apply filter_len.
Qed.

Lemma emits_selected p : representable p ->
  emits false (write_features p (fword p) feature_types) (Forall (feature_ok p) (features_of p))
    (fun o => (part_sections o (feature_parts p), concat (feature_parts p))).
Proof.
  intros R. assert (E := emits_features false p (fword p) feature_types R). rewrite selected in E. apply E.
  intros ty H T. split; [now apply selected_known with p|discriminate].
Qed.

Lemma features_app p F l1 l2 w : write_features p F (l1 ++ l2) w =
  wthen (write_features p F l1) (fun a => wthen (write_features p F l2) (fun b => wret (a ++ b))) w.
Proof.
  revert w. induction l1 as [|ty l1 IH]; intros w; cbn [app write_features].
  - unfold wthen, wret. destruct (write_features p F l2 w) as [[b| | | |] w1]; reflexivity.
  - destruct (N.testbit F ty); [|apply IH].
    unfold wthen, wtell, wret in *.
    destruct (write_feature p ty w) as [[[]| | | |] w1]; try reflexivity. rewrite IH.
    destruct (write_features p F l1 w1) as [[a| | | |] w2]; try reflexivity.
    destruct (write_features p F l2 w2) as [[b| | | |] w3]; reflexivity.
Qed.

Lemma part_sections_app o a b : part_sections o (a ++ b) = part_sections o a ++ part_sections (o + len (concat a)) b.
Proof.
  revert o. induction a as [|d a IH]; intros o; cbn [app part_sections concat].
  - now rewrite N.add_0_r.
  - rewrite IH, len_app. cbn [app]. do 2 f_equal. f_equal. lia.
Qed.


Lemma emits_last p F l ty : representable p -> N.testbit F ty = true ->
  (forall t, In t l -> N.testbit F t = true -> In t known_features) -> In ty known_features -> ends_full ty = true ->
  0 < len (feature_bytes p ty) ->
  emits true (write_features p F (l ++ [ty])) (Forall (feature_ok p) (filter (N.testbit F) (l ++ [ty])))
    (fun o => (part_sections o (map (feature_bytes p) (filter (N.testbit F) (l ++ [ty]))),
               concat (map (feature_bytes p) (filter (N.testbit F) (l ++ [ty]))))).
Proof.
  intros R T Kl Ky Fy D2 pre rest H. split.
  - assert (E := emits_features false p F (l ++ [ty]) R).
    apply E; [|exact H]. intros t I B. split; [|discriminate]. apply in_app_or in I as [I|[<-|[]]]; auto.
  - cbn [fst snd]. rewrite filter_app. cbn [filter]. rewrite T.
    rewrite map_app, concat_app. cbn [map concat]. rewrite app_nil_r.
    set (fl := filter (N.testbit F) l). set (d2 := feature_bytes p ty) in *.
    intros K Room. apply Forall_app in K as [K1 K2].
    rewrite features_app.
    assert (E1 := emits_features false p F l R).
    assert (E2 := emits_features true p F [ty] R). cbn [filter] in E2. rewrite T in E2. fold fl in E1.
    set (d1 := concat (map (feature_bytes p) fl)) in *.
    rewrite len_app in Room.
    unfold wthen at 1. destruct (E1 ltac:(intros t I B; split; [now apply Kl|discriminate]) pre rest H) as [_ C1].
    cbn [fst snd] in C1. fold d1 in C1. rewrite C1 by (auto; lia).
    assert (H2 : len (pre ++ d1) + len (drop (len d1) rest) < two63) by (rewrite len_app, len_drop; lia).
    destruct (E2 ltac:(intros t [<-|[]] _; split; [exact Ky|intros _; exact Fy]) _ _ H2) as [_ C2].
    cbn [fst snd map concat] in C2. rewrite app_nil_r in C2. fold d2 in C2.
    unfold wthen at 1. rewrite C2 by (auto; rewrite len_drop; lia). unfold wret.
    rewrite part_sections_app, drop_drop, !len_app, <- !app_assoc. reflexivity.
Qed.

Lemma hybrid_nonempty p : 0 < len (feature_bytes p 30).
Proof.
  unfold feature_bytes. change (30 =? 30) with true. cbn [N.eqb Pos.eqb existsb orb].
  rewrite len_app, len_le_bytes. lia.
Qed.

Lemma types_last : feature_types = firstn 29 feature_types ++ [30].
Proof. reflexivity. Qed.

Lemma emits_selected_full p : representable p -> N.testbit (fword p) 30 = true ->
  emits true (write_features p (fword p) feature_types) (Forall (feature_ok p) (features_of p))
    (fun o => (part_sections o (feature_parts p), concat (feature_parts p))).
Proof.
  intros R T. unfold feature_parts. rewrite <- selected. generalize (selected_known p).
  rewrite types_last. generalize (firstn 29 feature_types) as l. intros l K.
  apply emits_last; [exact R|exact T| | |reflexivity|apply hybrid_nonempty].
  - intros t I. apply K, in_or_app. now left.
  - apply K; [|exact T]. apply in_or_app. right. now left.
Qed.

Lemma features_in p ty : In ty known_features -> N.testbit (wd_mask p) ty = true -> In ty (features_of p).
Proof. exact (fun K T => proj2 (filter_In _ _ _) (conj K T)). Qed.
Lemma in_room (f : N -> list N) ty l off n : In ty l -> len (table_and off (map f l)) <= n -> 0 < n.
Proof.
  intros I H. unfold table_and in H. rewrite len_app, len_places in H.
  destruct l as [|t l]; [contradiction|]. cbn [map] in H. rewrite len_cons in H. lia.
Qed.
Lemma known_30 : In 30 known_features.
Proof. vm_compute. intuition. Qed.
Lemma hybrid_room p off n : N.testbit (wd_mask p) 30 = true -> len (table_and off (feature_parts p)) <= n -> 0 < n.
Proof. exact (fun T H => in_room (feature_bytes p) 30 (features_of p) off n (features_in p 30 known_30 T) H). Qed.

Definition metadata_bytes (p : wdata) (off : N) : list N := table_and off (feature_parts p).

Lemma metadata_sound h p pre rest u w : representable p -> fh_features h = fh_features (generate_header p) ->
  len pre + len rest < two63 ->
  write_metadata h p (at_end pre rest) = (Ok u, w) ->
  len pre = w64 (sc_offset (fh_data h) + sc_size (fh_data h)) /\
  Forall (feature_ok p) (features_of p) /\
  len (metadata_bytes p (len pre)) <= len rest /\
  w = at_end (pre ++ metadata_bytes p (len pre)) (drop (len (metadata_bytes p (len pre))) rest).
Proof.
  intros R Hh H E. rewrite (metadata_is h p Hh) in E.
  exact (with_sound _ _ _ _ (len_parts p) (num_bound p) (emits_selected p R)
           (room_features p (fword p) feature_types) _ _ _ _ _ H E).
Qed.

Lemma metadata_complete h p pre rest : representable p -> fh_features h = fh_features (generate_header p) ->
  len pre + len rest < two63 ->
  len pre = w64 (sc_offset (fh_data h) + sc_size (fh_data h)) ->
  Forall (feature_ok p) (features_of p) ->
  len (metadata_bytes p (len pre)) < len rest \/
    (N.testbit (wd_mask p) 30 = true /\ len (metadata_bytes p (len pre)) <= len rest) ->
  write_metadata h p (at_end pre rest) =
    (Ok tt, at_end (pre ++ metadata_bytes p (len pre)) (drop (len (metadata_bytes p (len pre))) rest)).
Proof.
  intros R Hh H Hp K Room. rewrite (metadata_is h p Hh), <- Hp. unfold metadata_bytes in *.
  destruct Room as [Room|[B30 Room]].
  - assert (P0 : 0 < len rest) by (clear - Room; lia).
    exact (with_complete (num_metadata p) (write_features p (fword p) feature_types) (Forall (feature_ok p) (features_of p))
             (feature_parts p) (len_parts p) (num_bound p) false pre rest (emits_selected p R) H K P0 Room).
  - assert (F30 : N.testbit (fword p) 30 = true) by (unfold fword; rewrite N.land_spec, B30; reflexivity).
    enough (P0 : 0 < len rest) by
      exact (with_complete (num_metadata p) (write_features p (fword p) feature_types) (Forall (feature_ok p) (features_of p))
               (feature_parts p) (len_parts p) (num_bound p) true pre rest (emits_selected_full p R F30) H K P0 Room).
    exact (hybrid_room p _ _ B30 Room).
Qed.
