(** Header and mapping table of the profiles. *)
From Coq Require Import String.
From Verif Require Import Base BytesModel TextModel Assoc ProfileModel BuilderModel BuilderSpec BuilderProofs
  SpeModel PerfProto NormalizerModel NormalizerSpec NormalizerProofs ConverterModel ConverterSpec ConverterProofs
  ConverterOpenProofs ConverterInvProofs ConverterKeyProofs ConverterStateProofs ConverterRunProofs
  ConverterTrackProofs ConverterMainProofs ConverterTotalProofs ConverterFinalProofs ConverterHeadSpec.
Local Open Scope N_scope.
Local Open Scope list_scope.

Lemma den_string_of b s i : den b s i -> string_of (b_profile b) i = Some s.
Proof. intros (_ & A & B). unfold string_of. apply Z.leb_le in A. now rewrite A. Qed.

Lemma string_of_app p p' i s t :
  pf_string p' = pf_string p ++ t -> string_of p i = Some s -> string_of p' i = Some s.
Proof.
  unfold string_of. intros ->. destruct (0 <=? i)%Z; [|discriminate]. intros H.
  rewrite nth_error_app1; [exact H|]. exact (nth_error_len_some _ _ _ H).
Qed.

Lemma shows_app p p' h m t : pf_string p' = pf_string p ++ t -> shows p h m -> shows p' h m.
Proof. intros E (A & B & C & D & F). repeat split; auto; eapply string_of_app; eassumption. Qed.

Lemma from_frame_app c p p' l l' m t :
  pf_string p' = pf_string p ++ t -> (forall x, In x l -> In x l') -> from_frame c p l m -> from_frame c p' l' m.
Proof.
  intros E I (cx & a & q & h & A & B & S). exists cx, a, q, h. split; [auto|]. split; [exact B|].
  eapply shows_app; eassumption.
Qed.

Definition titled (c : cfg) (l : list sctx) (b : builder) : Prop := tables b /\ headed c (b_profile b) l.

Lemma main_of_app p p' l x m t : pf_string p' = pf_string p ++ t -> main_of p l m -> main_of p' (l ++ x) m.
Proof.
  intros E. destruct l as [|cx l]; [intros []|]. cbn [main_of app]. destruct (cx_main cx) as [[q h]|].
  - now apply shows_app with (t := t).
  - intros (A & B & C & D & F). repeat split; auto; eapply string_of_app; eassumption.
Qed.

Lemma Forall2_mono {A B} (P Q : A -> B -> Prop) l m : (forall x y, P x y -> Q x y) -> Forall2 P l m -> Forall2 Q l m.
Proof. intros H F. induction F; constructor; auto. Qed.

(** New strings, mappings, locations, samples. *)
Lemma titled_gx c l x b b' t :
  gx b b' -> pf_mapping (b_profile b') = pf_mapping (b_profile b) ++ t ->
  Forall (from_frame c (b_profile b') (l ++ x)) t -> titled c l b -> titled c (l ++ x) b'.
Proof.
  intros G M F (T & H). destruct (gx_tab _ _ G T) as (T' & W). split; [exact T'|].
  destruct (gr_str _ _ W) as (u & E). destruct H as [H1 H2 H3 (m & r & H4 & H5 & H6)]. constructor.
  - rewrite (gx_types _ _ G). eapply Forall2_mono; [|exact H1]. intros s v (A & B).
    split; eapply string_of_app; eassumption.
  - rewrite (gx_def _ _ G). eapply string_of_app; eassumption.
  - rewrite (gx_com _ _ G). eapply Forall2_mono; [|exact H3]. intros s v A. eapply string_of_app; eassumption.
  - exists m, (r ++ t). rewrite M, H4. split; [reflexivity|]. split; [eapply main_of_app; eassumption|].
    apply Forall_app. split; [|exact F]. eapply Forall_impl; [|exact H6]. intros y.
    apply from_frame_app with (t := u); [exact E|]. intros z Hz. apply in_or_app. now left.
Qed.

Lemma titled_gx0 c l b b' :
  gx b b' -> pf_mapping (b_profile b') = pf_mapping (b_profile b) -> titled c l b -> titled c l b'.
Proof.
  intros G M T. rewrite <- (app_nil_r l). apply titled_gx with (b := b) (t := []); auto. now rewrite app_nil_r.
Qed.

Lemma titled_samples c l b x :
  titled c l b -> titled c l (with_profile b (set_sample x (b_profile b))).
Proof.
  intros (T & [H1 H2 H3 H4]). split.
  - revert T. apply tables_with; reflexivity.
  - constructor; assumption.
Qed.

(** * Mappings *)

Lemma add_mapping_shows pi b o pi' b' id :
  tables b -> add_mapping pi b o = Ok (pi', b', id) ->
  exists t, pf_mapping (b_profile b') = pf_mapping (b_profile b) ++ t /\
    (forall q h, o = Some (q, h) -> aget Nat.eqb q (pi_map pi) = None -> exists m, t = [m]) /\
    Forall (fun m => exists q h, o = Some (q, h) /\ shows (b_profile b') h m) t.
Proof.
  intros T. unfold add_mapping. destruct o as [[q m]|].
  2:{ intros H. injection H as <- <- <-. exists []. rewrite app_nil_r. split; [reflexivity|]. split; [discriminate|constructor]. }
  destruct (aget Nat.eqb q (pi_map pi)) eqn:EQ.
  { intros H. injection H as <- <- <-. exists []. rewrite app_nil_r. split; [reflexivity|].
    split; [|constructor]. intros q0 h E. injection E as <- <-. congruence. }
  destruct (if is_empty (fst (hm_build m)) then (b, 0%Z) else utf8_id b (fst (hm_build m))) as [b1 build] eqn:E1.
  assert (X1 : sx b b1 /\ den b1 (text (fst (hm_build m))) build).
  { destruct (fst (hm_build m)) as [|x l] eqn:EB; cbn [is_empty] in E1.
    - injection E1 as <- <-. split; [apply sx_refl|]. apply den0. exact T.
    - split; [exact (string_id_sx _ _ _ _ E1)|exact (string_id_den _ _ _ _ T E1)]. }
  destruct X1 as (X1 & D1). pose proof (proj2 (proj2 (proj2 X1)) T) as (T1 & G1).
  destruct (utf8_id b1 (mapping_filename m)) as [b2 file] eqn:E2.
  pose proof (string_id_sx _ _ _ _ E2) as X2. pose proof (string_id_den _ _ _ _ T1 E2) as D2.
  pose proof (proj2 (proj2 (proj2 X2)) T1) as (T2 & G2).
  apply (den_grows _ _ _ _ T1 G2) in D1.
  destruct (hm_start m <=? hm_limit m); [|discriminate].
  intros H. injection H as <- <- <-.
  destruct X1 as (P1 & _), X2 as (P2 & _).
  eexists. split; [|split].
  - cbn [b_profile with_profile pf_mapping set_mapping]. f_equal. rewrite P2, P1. reflexivity.
  - intros q0 h _ _. eexists. reflexivity.
  - constructor; [|constructor]. exists q, m. split; [reflexivity|]. repeat split; cbn [mp_file mp_build].
    + exact (den_string_of _ _ _ D2).
    + exact (den_string_of _ _ _ D1).
Qed.

Lemma add_location_shows pi b a o pi' b' id :
  tables b -> add_location pi b a o = Ok (pi', b', id) ->
  exists t, pf_mapping (b_profile b') = pf_mapping (b_profile b) ++ t /\
    Forall (fun m => exists q h, o = Some (q, h) /\ shows (b_profile b') h m) t.
Proof.
  intros T. unfold add_location. destruct (aget N.eqb a (pi_loc pi)).
  { intros H. injection H as <- <- <-. exists []. rewrite app_nil_r. split; [reflexivity|constructor]. }
  intros H. destruct (add_mapping pi b o) as [[[pi1 b1] mid]| | | |] eqn:E; try discriminate H.
  cbn [obind] in H. destruct (add_mapping_shows _ _ _ _ _ _ T E) as (t & M & _ & F).
  destruct ((mid =? 0) && negb (a =? 0)); [discriminate|]. injection H as <- <- <-.
  exists t. split; [exact M|]. exact F.
Qed.

Lemma add_locations_shows fs : forall pi b pi' b' ids,
  tables b -> add_locations pi b fs = Ok (pi', b', ids) ->
  exists t, pf_mapping (b_profile b') = pf_mapping (b_profile b) ++ t /\
    Forall (fun m => exists a q h, In (a, Some (q, h)) fs /\ shows (b_profile b') h m) t.
Proof.
  induction fs as [|[a o] fs IH]; intros pi b pi' b' ids T H; cbn [add_locations] in H.
  - injection H as <- <- <-. exists []. rewrite app_nil_r. split; [reflexivity|constructor].
  - destruct (add_location pi b a o) as [[[pi1 b1] id]| | | |] eqn:E; try discriminate H.
    cbn [obind] in H.
    destruct (add_locations pi1 b1 fs) as [[[pi2 b2] ids2]| | | |] eqn:E2; try discriminate H.
    cbn [obind] in H. injection H as <- <- <-.
    destruct (add_location_shows _ _ _ _ _ _ _ T E) as (t1 & M1 & F1).
    destruct (add_location_gx _ _ _ _ _ _ _ E) as (G1 & _). destruct (gx_tab _ _ G1 T) as (T1 & _).
    destruct (IH _ _ _ _ _ T1 E2) as (t2 & M2 & F2).
    destruct (add_locations_gx _ _ _ _ _ _ E2) as (G2 & _). destruct (gx_tab _ _ G2 T1) as (_ & W2).
    destruct (gr_str _ _ W2) as (u & EU).
    exists (t1 ++ t2). rewrite M2, M1, app_assoc. split; [reflexivity|]. apply Forall_app. split.
    + eapply Forall_impl; [|exact F1]. intros m (q & h & -> & S). exists a, q, h. split; [now left|].
      eapply shows_app; eassumption.
    + eapply Forall_impl; [|exact F2]. intros m (a0 & q & h & I & S). exists a0, q, h. split; [now right|exact S].
Qed.

(** * A fresh profile *)

Definition typed (p : profile) (t : list N) (v : vtype) : Prop :=
  string_of p (vt_type v) = Some t /\ string_of p (vt_unit v) = Some (str "count").

Lemma typed_app p p' u t v : pf_string p' = pf_string p ++ u -> typed p t v -> typed p' t v.
Proof. intros E (A & B). split; eapply string_of_app; eassumption. Qed.

Lemma c_str_count : c_str (str "count") = str "count".
Proof. reflexivity. Qed.

Lemma add_types_titles ns : forall b n last b' last' d,
  tables b -> string_of (b_profile b) last = Some d ->
  add_types b n ns last = (b', last') ->
  tables b' /\ (exists u, pf_string (b_profile b') = pf_string (b_profile b) ++ u) /\
  (exists vs, pf_sample_type (b_profile b') = pf_sample_type (b_profile b) ++ vs /\
     Forall2 (typed (b_profile b')) (titles n ns) vs) /\
  string_of (b_profile b') last' = Some (List.last (titles n ns) d) /\
  pf_mapping (b_profile b') = pf_mapping (b_profile b) /\
  pf_comment (b_profile b') = pf_comment (b_profile b).
Proof.
  induction ns as [|o ns IH]; intros b n l b' l' d T D H; cbn [add_types] in H.
  - injection H as <- <-. split; [exact T|]. split; [exists []; now rewrite app_nil_r|].
    split; [exists []; rewrite app_nil_r; split; [reflexivity|constructor]|]. auto.
  - destruct (match o with
              | Some s => (s ++ str "_", n)
              | None => (str "event_" ++ print_dec n ++ str "_", n + 1) end) as [name n'] eqn:EN.
    destruct (utf8_id b (name ++ str "sample")) as [b1 ts] eqn:E1.
    destruct (string_id b1 (str "count")) as [b2 us] eqn:E2.
    destruct (utf8_id b2 (name ++ str "event")) as [b3 te] eqn:E3.
    destruct (string_id b3 (str "count")) as [b4 ue] eqn:E4.
    assert (TT : titles n (o :: ns) = text (name ++ str "sample") :: text (name ++ str "event") :: titles n' ns).
    { assert (N1 : name = fst (name, n')) by reflexivity. assert (N2 : n' = snd (name, n')) by reflexivity.
      rewrite <- EN in N1, N2. rewrite N1, N2. clear. destruct o as [s|]; cbn [titles fst snd].
      - rewrite <- (app_assoc s (str "_") (str "sample")), <- (app_assoc s (str "_") (str "event")). reflexivity.
      - rewrite <- (app_assoc (str "event_") (print_dec n ++ str "_") (str "sample")),
          <- (app_assoc (str "event_") (print_dec n ++ str "_") (str "event")).
        rewrite <- (app_assoc (print_dec n) (str "_") (str "sample")),
          <- (app_assoc (print_dec n) (str "_") (str "event")). reflexivity. }
    pose proof (string_id_sx _ _ _ _ E1) as X1. pose proof (proj2 (proj2 (proj2 X1)) T) as (T1 & G1).
    pose proof (string_id_den _ _ _ _ T E1) as D1.
    pose proof (string_id_sx _ _ _ _ E2) as X2. pose proof (proj2 (proj2 (proj2 X2)) T1) as (T2 & G2).
    pose proof (string_id_den _ _ _ _ T1 E2) as D2.
    pose proof (string_id_sx _ _ _ _ E3) as X3. pose proof (proj2 (proj2 (proj2 X3)) T2) as (T3 & G3).
    pose proof (string_id_den _ _ _ _ T2 E3) as D3.
    pose proof (string_id_sx _ _ _ _ E4) as X4. pose proof (proj2 (proj2 (proj2 X4)) T3) as (T4 & G4).
    pose proof (string_id_den _ _ _ _ T3 E4) as D4.
    pose proof (sx_trans _ _ _ (sx_trans _ _ _ (sx_trans _ _ _ X1 X2) X3) X4) as X.
    apply (den_grows _ _ _ _ T1 G2), (den_grows _ _ _ _ T2 G3), (den_grows _ _ _ _ T3 G4), den_string_of in D1.
    apply (den_grows _ _ _ _ T2 G3), (den_grows _ _ _ _ T3 G4), den_string_of in D2.
    apply (den_grows _ _ _ _ T3 G4), den_string_of in D3. apply den_string_of in D4.
    set (b5 := with_profile b4 _) in H.
    assert (T5 : tables b5) by (unfold b5; apply (tables_with b4); [reflexivity| |exact T4]; reflexivity).
    destruct (IH b5 n' te b' l' (text (name ++ str "event")) T5 D3 H) as (A1 & (u & A2) & (vs & A3 & A4) & A5 & A6 & A7).
    destruct (gr_str _ _ (proj2 (proj2 (proj2 (proj2 X)) T))) as (w & EW). destruct X as (P & _).
    assert (AU : pf_string (b_profile b') = pf_string (b_profile b4) ++ u) by exact A2.
    split; [exact A1|]. split; [exists (w ++ u); rewrite AU, EW, app_assoc; reflexivity|]. split; [|split; [|split]].
    + eexists. split.
      * rewrite A3. unfold b5. cbn [b_profile with_profile set_sample_type pf_sample_type].
        rewrite P at 1. cbn [set_string pf_sample_type]. rewrite <- app_assoc. reflexivity.
      * rewrite TT. cbn [app]. constructor; [|constructor; [|exact A4]].
        -- apply (typed_app _ _ _ _ _ AU). split; [exact D1|exact D2].
        -- apply (typed_app _ _ _ _ _ AU). split; [exact D3|exact D4].
    + rewrite A5, TT. f_equal. cbn [List.last]. generalize (titles n' ns). intros [|x l0]; [reflexivity|].
      clear. revert x. induction l0 as [|y l0 IH]; intros x; [reflexivity|]. cbn [List.last] in *. apply (IH y).
    + rewrite A6. unfold b5. cbn [b_profile with_profile set_sample_type pf_mapping]. rewrite P. reflexivity.
    + rewrite A7. unfold b5. cbn [b_profile with_profile set_sample_type pf_comment]. rewrite P. reflexivity.
Qed.

Lemma names_eq d : event_names d = names d.
Proof.
  unfold event_names, names. rewrite Nat.eqb_sym. destruct (_ =? _)%nat; [reflexivity|].
  induction (pp_attrs d) as [|x l IH]; [reflexivity|]. cbn. now rewrite IH.
Qed.

(** The header without comments. *)
Record started (c : cfg) (b : builder) (rs : list (list N)) (o : option mref) : Prop := {
  st_tab : tables b;
  st_types : Forall2 (typed (b_profile b)) (titles 0 (names (cf_data c))) (pf_sample_type (b_profile b));
  st_default : string_of (b_profile b) (pf_default_type (b_profile b)) =
     Some (last (titles 0 (names (cf_data c))) []);
  st_comments : Forall2 (fun t i => string_of (b_profile b) i = Some t) rs (pf_comment (b_profile b));
  st_map : exists m, pf_mapping (b_profile b) = [m] /\
     match o with
     | Some (_, h) => shows (b_profile b) h m
     | None => mp_start m = 0 /\ mp_limit m = 1 /\ mp_off m = 0 /\
               string_of (b_profile b) (mp_file m) = Some [] /\ string_of (b_profile b) (mp_build m) = Some []
     end }.

Lemma add_comment_started c b rs o p v :
  started c b rs o -> started c (add_comment b p v) (rs ++ remark p v) o.
Proof.
  intros S. destruct v as [v|]; cbn [add_comment remark]; [|now rewrite app_nil_r].
  destruct (utf8_id b (p ++ v)) as [b1 i] eqn:E.
  pose proof (string_id_sx _ _ _ _ E) as X. pose proof (string_id_den _ _ _ _ (st_tab _ _ _ _ S) E) as D.
  pose proof (proj2 (proj2 (proj2 X)) (st_tab _ _ _ _ S)) as (T1 & G1). destruct (gr_str _ _ G1) as (u & EU).
  destruct X as (P & _). destruct S as [S1 S2 S3 S4 (m & S5 & S6)].
  assert (EQ : forall A (f : profile -> A), (forall x q, f (set_string x q) = f q) -> f (b_profile b1) = f (b_profile b)).
  { intros A f Hf. rewrite P. apply Hf. }
  constructor.
  - revert T1. apply tables_with; reflexivity.
  - cbn [b_profile with_profile set_comment pf_sample_type]. rewrite (EQ _ pf_sample_type) by reflexivity.
    eapply Forall2_mono; [|exact S2]. intros t w. now apply typed_app with (u := u).
  - cbn [b_profile with_profile set_comment pf_default_type]. rewrite (EQ _ pf_default_type) by reflexivity.
    eapply string_of_app; [exact EU|exact S3].
  - cbn [b_profile with_profile set_comment pf_comment]. rewrite (EQ _ pf_comment) by reflexivity.
    apply Forall2_app.
    + eapply Forall2_mono; [|exact S4]. intros t w A. eapply string_of_app; [exact EU|exact A].
    + constructor; [|constructor]. exact (den_string_of _ _ _ D).
  - exists m. cbn [b_profile with_profile set_comment pf_mapping]. rewrite (EQ _ pf_mapping) by reflexivity.
    split; [exact S5|]. destruct o as [[q h]|].
    + eapply shows_app; [exact EU|exact S6].
    + destruct S6 as (A & B & C & F & G). repeat split; auto; eapply string_of_app; eassumption.
Qed.

Lemma new_builder_titled c pi cx pi' b :
  pi_map pi = [] -> new_builder c pi (cx_main cx) = Ok (pi', b) -> titled c [cx] b.
Proof.
  intros EM. unfold new_builder. intros H.
  destruct (add_types builder0 0 (event_names (cf_data c)) 0) as [b0 la] eqn:E.
  apply add_types_titles with (d := []) in E; [|exact (co_tab _ core0)|reflexivity]. rewrite names_eq in E.
  destruct E as (T0 & _ & (vs & V & F) & D & M & K). cbn [app] in V. change (pf_mapping (b_profile builder0)) with (@nil pmapping) in M.
  change (pf_comment (b_profile builder0)) with (@nil Z) in K.
  change (pf_sample_type (b_profile builder0)) with (@nil vtype) in V. cbn [app] in V. subst vs.
  set (b1 := with_profile b0 (set_default_type la (b_profile b0))) in H.
  assert (T1 : tables b1) by (unfold b1; apply (tables_with b0); [reflexivity| |exact T0]; reflexivity).
  match type of H with obind ?e _ = _ => destruct e as [[pi1 b2]| | | |] eqn:E2; try discriminate H end.
  cbn [obind] in H. injection H as <- <-.
  assert (S : started c b2 [] (cx_main cx)).
  { revert E2. destruct (cx_main cx) as [[q h]|].
    - intros E2. match type of E2 with context [add_mapping pi b1 ?o] =>
        destruct (add_mapping pi b1 o) as [[[pi3 b3] id]| | | |] eqn:E3; try discriminate E2 end.
      cbn [obind] in E2. injection E2 as <- <-.
      destruct (add_mapping_gx _ _ _ _ _ _ E3) as (G & _).
      destruct (add_mapping_shows _ _ _ _ _ _ T1 E3) as (t & MM & N1 & S).
      destruct (N1 q h eq_refl) as (m & ->); [now rewrite EM|].
      destruct (gx_tab _ _ G T1) as (T3 & W). destruct (gr_str _ _ W) as (u & EU). constructor.
      + exact T3.
      + rewrite (gx_types _ _ G). eapply Forall2_mono; [|exact F]. intros x y. now apply typed_app with (u := u).
      + rewrite (gx_def _ _ G). eapply string_of_app; [exact EU|exact D].
      + rewrite (gx_com _ _ G). unfold b1. cbn [b_profile with_profile set_default_type pf_comment]. rewrite K. constructor.
      + exists m. rewrite MM. unfold b1. cbn [b_profile with_profile set_default_type pf_mapping]. rewrite M.
        split; [reflexivity|]. apply Forall_inv in S. destruct S as (q1 & h1 & Q1 & S1).
        assert (h = h1) by congruence. subst h1. exact S1.
    - intros E2. injection E2 as <- <-. constructor.
      + revert T1. apply tables_with; reflexivity.
      + exact F.
      + exact D.
      + cbn [b_profile with_profile set_mapping pf_comment b1 set_default_type]. rewrite K. constructor.
      + eexists. split.
        * cbn [b_profile with_profile set_mapping pf_mapping b1 set_default_type]. rewrite M. reflexivity.
        * cbn [mp_start mp_limit mp_off mp_file mp_build]. do 3 (split; [reflexivity|]).
          pose proof (tb_first _ T0) as Z0. split; exact Z0. }
  apply add_comment_started with (p := str "perf-version:") (v := pp_version (cf_data c)) in S.
  apply add_comment_started with (p := str "perf-command:") (v := pp_command (cf_data c)) in S.
  destruct S as [S1 S2 S3 S4 (m & S5 & S6)]. split; [exact S1|]. constructor.
  - exact S2.
  - exact S3.
  - exact S4.
  - exists m, []. split; [exact S5|]. split; [|constructor]. exact S6.
Qed.

(** * Runs *)

Definition heads (c : cfg) (bs bs' : list builder) : Prop :=
  forall k b', nth_error bs' k = Some b' ->
    exists b, nth_error bs k = Some b /\ forall l, titled c l b -> titled c l b'.

Lemma heads_refl c bs : heads c bs bs.
Proof. intros k b H. eauto. Qed.
Lemma heads_trans c x y z : heads c x y -> heads c y z -> heads c x z.
Proof.
  intros A B k b H. destruct (B k b H) as (b1 & H1 & F1). destruct (A k b1 H1) as (b2 & H2 & F2). exists b2. auto.
Qed.

Lemma heads_set c bs n b b' :
  nth_error bs n = Some b -> (forall l, titled c l b -> titled c l b') -> heads c bs (set_nth n b' bs).
Proof.
  intros H F k x. rewrite nth_error_set_nth. destruct (Nat.eqb_spec k n) as [->|_]; cbn [andb]; [|eauto].
  rewrite (proj2 (Nat.ltb_lt _ _) (nth_error_len_some _ _ _ H)). intros E. injection E as <-. eauto.
Qed.

Lemma bump_heads c s r i w s' : bump_sample s r i w = Ok s' -> heads c (cs_builders s) (cs_builders s').
Proof.
  unfold bump_sample. intros H.
  destruct (at_ (cs_builders s) (fst r)) as [b| | | |] eqn:E; try discriminate H. cbn [obind] in H.
  destruct (at_ (pf_sample (b_profile b)) (snd r)) as [p| | | |]; try discriminate H. cbn [obind] in H.
  destruct (bump (ps_val p) i w) as [vals| | | |]; try discriminate H. cbn [obind] in H.
  injection H as <-. cbn [cs_builders set_builders]. eapply heads_set; [apply at_ok; exact E|].
  intros l. apply titled_samples.
Qed.

Lemma new_sample_titled c b sm k l : titled c l b -> titled c l (new_sample c b sm k).
Proof.
  intros T. unfold new_sample. destruct (emit_labels b (label_list c sm k)) as [b1 ls] eqn:E.
  apply titled_samples. pose proof (emit_labels_sx _ _ _ _ E) as X. apply titled_gx0 with (b := b); [now apply sx_gx| |exact T].
  destruct X as (P & _). rewrite P. reflexivity.
Qed.

Lemma add_or_update_heads c s cx pid k bi s' r :
  add_or_update c s cx pid k bi = Ok (s', r) -> heads c (cs_builders s) (cs_builders s').
Proof.
  unfold add_or_update. intros H. destruct (aget skey_eqb k (pi_sample (info s pid))) as [r0|].
  - destruct (bump_sample s r0 _ _) as [s1| | | |] eqn:E; try discriminate H. cbn [obind] in H.
    injection H as <- <-. exact (bump_heads _ _ _ _ _ _ E).
  - destruct (at_ (cs_builders s) bi) as [b| | | |] eqn:E; try discriminate H. cbn [obind] in H.
    match type of H with obind (bump_sample ?s0 ?r ?i ?w) _ = _ => destruct (bump_sample s0 r i w)
        as [s1| | | |] eqn:E1; try discriminate H end.
    cbn [obind] in H. injection H as <- <-. apply (bump_heads c) in E1.
    cbn [cs_builders set_info set_pids set_builders] in E1. eapply heads_trans; [|exact E1].
    eapply heads_set; [apply at_ok; exact E|]. intros l. apply new_sample_titled.
Qed.

(** The profile a callback is filed into. *)
Definition target (c : cfg) (n : nat) (openp : N -> option nat) (h : hcall) : option nat :=
  match h with
  | HSample cx => if kept c cx then match openp (filed_under c cx) with Some k => Some k | None => Some n end else None
  | _ => None
  end.

Definition step_head (c : cfg) (bs bs' : list builder) (h : hcall) (a : option nat) : Prop :=
  forall k b', nth_error bs' k = Some b' ->
    match nth_error bs k with
    | Some b => forall l, titled c l b ->
        titled c (match h, a with HSample cx, Some j => if (j =? k)%nat then l ++ [cx] else l | _, _ => l end) b'
    | None => match h, a with HSample cx, Some j => j = k /\ titled c [cx] b' | _, _ => False end
    end.

Lemma heads_step c bs bs' h : heads c bs bs' -> step_head c bs bs' h None.
Proof.
  intros H k b' E. destruct (H k b' E) as (b & -> & F). intros l T. destruct h; auto.
Qed.

Lemma call_head c R hh s h s' o openp :
  Inv c R hh s -> is_open s openp -> on_call c s h = Ok (s', o) ->
  step_head c (cs_builders s) (cs_builders s') h (target c (List.length (cs_builders s)) openp h).
Proof.
  intros I (L & O & M) H. destruct h as [cx|cm e|pid [q m]]; cbn [on_call target] in *.
  - destruct (on_sample_inv _ _ _ _ _ H) as [(K & -> & ->)|(K & X)]; rewrite K.
    { apply heads_step, heads_refl. }
    cbn zeta in X. destruct X as (s1 & bi & b & b1 & k & pi2 & b2 & ids & r & G & Nb & MK & AL & AU & ->).
    apply (add_or_update_heads c) in AU.
    cbn [cs_builders set_stats set_builders set_info set_pids] in AU.
    pose proof (make_key_sx _ _ _ _ _ _ MK) as KX.
    assert (TI : forall l, titled c l b -> In cx l -> titled c l b2).
    { intros l T Hin. apply (titled_gx0 c l b b1) in T; [|now apply sx_gx|destruct KX as (P & _); now rewrite P].
      destruct (add_locations_gx _ _ _ _ _ _ AL) as (G2 & _).
      destruct (add_locations_shows _ _ _ _ _ _ (proj1 T) AL) as (t & MM & F).
      rewrite <- (app_nil_r l). apply titled_gx with (b := b1) (t := t); [exact G2|exact MM| |exact T].
      rewrite app_nil_r. eapply Forall_impl; [|exact F]. intros y (a & q & h & IN & S). exists cx, a, q, h. auto. }
    assert (TI' : forall l, titled c l b -> titled c (l ++ [cx]) b2).
    { intros l T. apply TI; [|apply in_or_app; right; now left].
      apply titled_gx with (b := b) (t := []); [apply gx_refl|now rewrite app_nil_r|constructor|exact T]. }
    assert (LT : (bi < List.length (cs_builders s1))%nat) by exact (nth_error_len_some _ _ _ Nb).
    destruct (get_or_create_inv _ _ _ _ _ G) as [(P & _ & B & Q & _ & MM)|(P & Hbi & pi & b0 & NB & B & _ & Q & MM)].
    + rewrite <- O, P. intros j b' Hj. rewrite <- B.
      destruct (AU j b' Hj) as (b3 & H3 & F3). rewrite nth_error_set_nth in H3.
      rewrite (Nat.eqb_sym bi j). destruct (Nat.eqb_spec j bi) as [->|_]; cbn [andb] in H3.
      * rewrite (proj2 (Nat.ltb_lt _ _) LT) in H3. injection H3 as <-. rewrite Nb. intros l T. apply F3. now apply TI'.
      * rewrite H3. exact F3.
    + rewrite <- O, P. rewrite B in Nb, AU, LT.
      rewrite nth_error_app2, Hbi, Nat.sub_diag in Nb by lia. cbn in Nb. injection Nb as ->.
      assert (TN : titled c [cx] b).
      { refine (new_builder_titled c _ cx _ b _ NB). rewrite info_set.
        change (filed_under c cx) with (okey c (dflt (s_pid (cx_sample cx)))) in *.
        destruct (iv_none _ _ _ _ I _ P) as (_ & Y & _).
        destruct (N.eqb_spec (dflt (s_pid (cx_sample cx))) (okey c (dflt (s_pid (cx_sample cx))))) as [EQ|_]; [|exact Y].
        cbn [pi_map pi_set_builder]. now rewrite <- EQ. }
      intros j b' Hj. destruct (AU j b' Hj) as (b3 & H3 & F3). rewrite nth_error_set_nth in H3.
      rewrite <- Hbi. rewrite (Nat.eqb_sym bi j).
      destruct (Nat.eqb_spec j bi) as [->|Hne]; cbn [andb] in H3.
      * rewrite (proj2 (Nat.ltb_lt _ _) LT) in H3. injection H3 as <-.
        replace (nth_error (cs_builders s) bi) with (@None builder)
          by (symmetry; apply nth_error_None; lia).
        split; [reflexivity|]. apply F3. apply TI; [exact TN|now left].
      * destruct (Nat.ltb_spec j (List.length (cs_builders s))) as [Hl|Hl].
        -- rewrite nth_error_app1 in H3 by exact Hl. rewrite H3. exact F3.
        -- exfalso. apply nth_error_len_some in H3. rewrite app_length in H3. cbn in H3. lia.
  - injection H as <- <-. apply heads_step.
    replace (cs_builders (on_comm_call s cm e)) with (cs_builders s) by (unfold on_comm_call; now destruct e).
    apply heads_refl.
  - unfold on_mmap_call in H. destruct (hm_limit m <? hm_start m); [discriminate H|].
    cbn [obind] in H. injection H as <- <-. apply heads_step, heads_refl.
Qed.

Lemma run_head c R hs : forall hh s s' os openp,
  Inv c R hh s -> Forall (refs_known R) hs -> Forall (fun x => ~ resets c x) hs ->
  is_open s openp -> run_calls c s hs = Ok (s', os) ->
  forall k b', nth_error (cs_builders s') k = Some b' ->
    let l := filed k hs (assign c (List.length (cs_builders s)) openp hs) in
    match nth_error (cs_builders s) k with
    | Some b => forall l0, titled c l0 b -> titled c (l0 ++ l) b'
    | None => titled c l b'
    end.
Proof.
  induction hs as [|h hs IH]; intros hh s s' os openp I K NR OP H k b' Hb; cbn [run_calls] in H.
  - injection H as <- <-. cbn [filed assign]. rewrite Hb. intros l0. now rewrite app_nil_r.
  - destruct (on_call c s h) as [[s1 o]| | | |] eqn:E; try discriminate H. cbn [obind] in H.
    destruct (run_calls c s1 hs) as [[s2 os2]| | | |] eqn:E2; try discriminate H. cbn [obind] in H.
    injection H as <- <-. inversion K as [|? ? K1 K2]; subst. inversion NR as [|? ? N1 N2]; subst.
    destruct (call_step _ _ _ _ _ _ _ I K1 N1 E) as (I1 & _).
    pose proof (call_head _ _ _ _ _ _ _ _ I OP E) as S.
    destruct (call_open _ _ _ _ _ _ OP E) as (a & openp' & A & OP' & _).
    assert (EA : a = target c (List.length (cs_builders s)) openp h).
    { specialize (A []). destruct h as [cx|cm e|pid m]; cbn [assign target] in *.
      - destruct (kept c cx); [destruct (openp (filed_under c cx))|]; now injection A as <-.
      - now injection A as <-.
      - now injection A as <-. }
    rewrite <- EA in S. clear EA. specialize (IH _ _ _ _ _ I1 K2 N2 OP' E2 k b' Hb). cbn zeta in IH |- *.
    rewrite A. set (rest := assign c (List.length (cs_builders s1)) openp' hs) in *.
    destruct (nth_error (cs_builders s1) k) as [b1|] eqn:E1.
    + specialize (S k b1 E1). destruct (nth_error (cs_builders s) k) as [b|].
      * intros l0 T. specialize (S l0 T). apply IH in S.
        destruct h as [cx|cm e|pid m]; cbn [filed]; [destruct a as [j|]|..]; try exact S.
        destruct (j =? k)%nat; [|exact S]. now rewrite <- app_assoc in S.
      * destruct h as [cx|cm e|pid m]; [destruct a as [j|]; [|contradiction]|contradiction|contradiction].
        destruct S as (-> & S). cbn [filed]. rewrite Nat.eqb_refl. now apply IH.
    + assert (E0 : nth_error (cs_builders s) k = None).
      { destruct (nth_error (cs_builders s) k) as [b|] eqn:E0; [|reflexivity].
        destruct (call_step _ _ _ _ _ _ _ I K1 N1 E) as (_ & GR & _).
        destruct (GR k b E0) as (b2 & X & _). congruence. }
      rewrite E0.
      assert (Hk : forall cx j, h = HSample cx -> a = Some j -> (j =? k)%nat = false).
      { intros cx j -> ->. apply Nat.eqb_neq. intros ->.
        destruct (call_open _ _ _ _ _ _ OP E) as (a' & op & A' & _ & S'). specialize (A []). specialize (A' []).
        rewrite A in A'. injection A' as <-.
        destruct (proj1 OP') . destruct S' as [(m & X & _ & _)|(X & S')].
        - apply nth_error_len_some in X. rewrite (iv_len _ _ _ _ I) in X. apply nth_error_None in E0. lia.
        - apply nth_error_None in E1. assert (LL : List.length (cs_metas s1) = List.length (cs_builders s1)) by exact (iv_len _ _ _ _ I1).
          rewrite S', app_length in LL. cbn in LL. rewrite <- X in LL. lia. }
      destruct h as [cx|cm e|pid m]; cbn [filed]; [destruct a as [j|]|..]; try exact IH.
      rewrite (Hk cx j eq_refl eq_refl). exact IH.
Qed.

Lemma convert_headed c hs ps k p :
  process (cf_data c) = Ok hs -> never_reset c hs -> convert c = Ok ps -> nth_error ps k = Some p ->
  headed c (pr_data p) (filed k hs (assigned c hs)).
Proof.
  intros P NR C Hp. destruct (convert_run _ _ _ P C) as (s & os & H & -> & L).
  pose proof (profiles_nth s L k) as X. destruct (nth_error (cs_builders s) k) as [b|] eqn:EB; [|congruence].
  destruct X as (m & A & B). assert (p = make_profile s b m) by congruence. subst p.
  destruct (final_core _ _ _ _ NR H) as (_ & F). cbn [make_profile pr_data]. rewrite (F k b EB).
  pose proof (run_head _ _ _ _ _ _ _ _ (inv0 c (pointed hs)) (pointed_known hs) (never_reset_spec _ _ NR) open0 H k b EB) as Y.
  cbn zeta in Y. replace (nth_error (cs_builders cstate0) k) with (@None builder) in Y by (now destruct k).
  exact (proj2 Y).
Qed.
