(** Lemmas about the converter: tables, conservation, time spans. *)
From Coq Require Import String.
From Verif Require Import Base BytesModel TextModel Assoc ProfileModel BuilderModel BuilderSpec BuilderProofs
  SpeModel PerfProto NormalizerModel NormalizerSpec NormalizerProofs ConverterModel ConverterSpec.
Local Open Scope N_scope.
Local Open Scope list_scope.

(** * Lists *)
Lemma nth_error_set_nth {A} (l : list A) : forall n x k,
  nth_error (set_nth n x l) k = if (k =? n)%nat && (n <? List.length l)%nat then Some x else nth_error l k.
Proof.
  induction l as [|y l IH]; intros n x k.
  - destruct n, k; cbn; reflexivity || now rewrite ?andb_false_r.
  - destruct n as [|n]; destruct k as [|k]; cbn [set_nth nth_error]; try reflexivity.
    + rewrite IH. reflexivity.
Qed.

Lemma length_set_nth {A} (l : list A) : forall n x, List.length (set_nth n x l) = List.length l.
Proof. induction l as [|y l IH]; intros [|n] x; cbn; auto. Qed.

Lemma set_nth_map {A B} (f : A -> B) l : forall n x, map f (set_nth n x l) = set_nth n (f x) (map f l).
Proof. induction l as [|y l IH]; intros [|n] x; cbn; try reflexivity. now rewrite IH. Qed.

Lemma set_nth_same {A} (l : list A) : forall n x, nth_error l n = Some x -> set_nth n x l = l.
Proof.
  induction l as [|y l IH]; intros [|n] x; cbn; try discriminate.
  - intros H. now injection H as ->.
  - intros H. now rewrite IH.
Qed.

Lemma at_ok {A} (l : list A) n x : at_ l n = Ok x <-> nth_error l n = Some x.
Proof. unfold at_. destruct (nth_error l n); split; intros H; try discriminate; now injection H as ->. Qed.

Lemma sum_app a b : sum (a ++ b) = (sum a + sum b)%Z.
Proof. induction a as [|x a IH]; cbn; [reflexivity|]. unfold sum in *. cbn. rewrite IH. lia. Qed.

Lemma sum_set_nth l : forall n x y, nth_error l n = Some y -> sum (set_nth n x l) = (sum l + x - y)%Z.
Proof.
  induction l as [|z l IH]; intros [|n] x y; cbn [nth_error set_nth]; try discriminate.
  - intros H. injection H as ->. unfold sum. cbn. lia.
  - intros H. unfold sum in *. cbn. rewrite (IH n x y H). lia.
Qed.

(** * Per-process entries *)
Lemma info_set pid p s q : info (set_info pid p s) q = if q =? pid then p else info s q.
Proof. unfold info, set_info. cbn [cs_pids set_pids]. rewrite aget_aset. now destruct (q =? pid). Qed.

Lemma info_builders x s q : info (set_builders x s) q = info s q. Proof. reflexivity. Qed.
Lemma info_metas x s q : info (set_metas x s) q = info s q. Proof. reflexivity. Qed.
Lemma info_stats x s q : info (set_stats x s) q = info s q. Proof. reflexivity. Qed.

(** * Strings: what an insertion leaves alone *)
Definition sx (b b' : builder) : Prop :=
  b_profile b' = set_string (pf_string (b_profile b')) (b_profile b) /\
  b_error b' = b_error b /\ b_functions b' = b_functions b /\
  (tables b -> tables b' /\ grows b b').

Lemma sx_refl b : sx b b.
Proof.
  split; [destruct b as [? ? [] ?]; reflexivity|]. do 2 (split; [reflexivity|]).
  intros T. split; [exact T|apply grows_refl].
Qed.

Lemma sx_trans a b c : sx a b -> sx b c -> sx a c.
Proof.
  intros (A1 & A2 & A3 & A4) (B1 & B2 & B3 & B4). split.
  - rewrite B1, A1. reflexivity.
  - do 2 (split; [congruence|]). intros T. destruct (A4 T) as (T' & G). destruct (B4 T') as (T'' & G').
    split; [exact T''|]. eapply grows_trans; eassumption.
Qed.

(** [i] is the index of string [s]. *)
Definition den (b : builder) (s : list N) (i : Z) : Prop :=
  string_id b s = (b, i) /\ (0 <= i)%Z /\ nth_error (pf_string (b_profile b)) (Z.to_nat i) = Some s.

Lemma string_id_sx b s b' i : string_id b s = (b', i) -> sx b b'.
Proof.
  intros H. pose proof H as H0. unfold string_id in H. destruct s as [|x s].
  - injection H as <- <-. apply sx_refl.
  - unfold internal_string_id, aemplace in H.
    destruct (aget list_eqb (x :: s) (b_strings b)) eqn:E; injection H as <- <-; [apply sx_refl|].
    split; [reflexivity|]. do 2 (split; [reflexivity|]). intros T.
    apply string_id_spec in H0; [|exact T]. tauto.
Qed.

Lemma string_id_den b s b' i : tables b -> string_id b s = (b', i) -> den b' s i.
Proof.
  intros T H. pose proof (string_id_sx _ _ _ _ H) as (_ & _ & _ & X). destruct (X T) as (T' & G).
  destruct (string_id_value _ _ _ _ T H) as (A & B).
  split; [|split; assumption]. exact (string_id_again _ _ _ _ b' T H (grows_refl b')).
Qed.

Lemma den_grows b b' s i : tables b -> grows b b' -> den b s i -> den b' s i.
Proof.
  intros T G (A & B & C). split.
  - exact (string_id_again _ _ _ _ b' T A G).
  - split; [exact B|]. destruct (gr_str _ _ G) as (t & ->).
    rewrite nth_error_app1; [exact C|]. exact (nth_error_len_some _ _ _ C).
Qed.

Lemma den_inj b s t i j : den b s i -> den b t j -> (i = j <-> s = t).
Proof.
  intros (A & A1 & A2) (B & B1 & B2). split.
  - intros ->. rewrite A2 in B2. now injection B2.
  - intros ->. rewrite A in B. now injection B.
Qed.

Lemma den0 b : tables b -> den b [] 0.
Proof. intros T. split; [reflexivity|]. split; [lia|]. exact (tb_first _ T). Qed.

Lemma opt_id_sx w b s b' i : opt_id w b s = (b', i) -> sx b b'.
Proof.
  unfold opt_id. destruct w; intros H; [exact (string_id_sx _ _ _ _ H)|].
  injection H as <- <-. apply sx_refl.
Qed.

Lemma opt_id_den w b s b' i : tables b -> opt_id w b s = (b', i) -> den b' (text_if w s) i.
Proof.
  unfold opt_id, text_if. destruct w; intros T H; [exact (string_id_den _ _ _ _ T H)|].
  injection H as <- <-. now apply den0.
Qed.

Lemma emit_labels_sx ls : forall b b' r, emit_labels b ls = (b', r) -> sx b b'.
Proof.
  induction ls as [|[[w key] v] ls IH]; intros b b' r H; cbn [emit_labels] in H.
  - injection H as <- <-. apply sx_refl.
  - destruct w; [|eauto].
    destruct (string_id b key) as [b1 ki] eqn:E1. apply string_id_sx in E1.
    destruct v as [i|s|n u].
    + destruct (emit_labels b1 ls) as [b2 r2] eqn:E2. injection H as <- <-.
      eapply sx_trans; eauto.
    + destruct (string_id b1 s) as [b2 i] eqn:E2. apply string_id_sx in E2.
      destruct (emit_labels b2 ls) as [b3 r3] eqn:E3. injection H as <- <-.
      eapply sx_trans; [|eapply sx_trans]; eauto.
    + destruct (string_id b1 u) as [b2 i] eqn:E2. apply string_id_sx in E2.
      destruct (emit_labels b2 ls) as [b3 r3] eqn:E3. injection H as <- <-.
      eapply sx_trans; [|eapply sx_trans]; eauto.
Qed.

(** * Builders: what all updates preserve *)
Definition shape (s : psample) : list N * list label := (ps_loc s, ps_label s).

Record gx (b b' : builder) : Prop := {
  gx_tab : tables b -> tables b' /\ grows b b';
  gx_err : b_error b' = b_error b;
  gx_types : pf_sample_type (b_profile b') = pf_sample_type (b_profile b);
  gx_def : pf_default_type (b_profile b') = pf_default_type (b_profile b);
  gx_com : pf_comment (b_profile b') = pf_comment (b_profile b);
  gx_fun : pf_function (b_profile b') = pf_function (b_profile b);
  gx_map : exists t, pf_mapping (b_profile b') = pf_mapping (b_profile b) ++ t;
  gx_loc : exists t, pf_location (b_profile b') = pf_location (b_profile b) ++ t;
  gx_sam : exists t, map shape (pf_sample (b_profile b')) = map shape (pf_sample (b_profile b)) ++ t }.

Lemma gx_refl b : gx b b.
Proof.
  constructor; try reflexivity; try (exists []; now rewrite app_nil_r).
  intros T. split; [exact T|apply grows_refl].
Qed.

Lemma gx_trans a b c : gx a b -> gx b c -> gx a c.
Proof.
  intros [A1 A2 A3 A4 A5 A6 [ta A7] [ua A8] [va A9]] [B1 B2 B3 B4 B5 B6 [tb B7] [ub B8] [vb B9]].
  constructor; try congruence.
  - intros T. destruct (A1 T) as (T' & G). destruct (B1 T') as (T'' & G').
    split; [exact T''|]. eapply grows_trans; eassumption.
  - exists (ta ++ tb). now rewrite B7, A7, app_assoc.
  - exists (ua ++ ub). now rewrite B8, A8, app_assoc.
  - exists (va ++ vb). now rewrite B9, A9, app_assoc.
Qed.

Lemma sx_gx b b' : sx b b' -> gx b b'.
Proof.
  intros (A & B & C & D). constructor; try exact B; try exact D; rewrite A; try reflexivity;
    (exists []; now rewrite app_nil_r).
Qed.

(** An update of the profile that keeps the string and function tables. *)
Lemma tables_with b p :
  pf_string p = pf_string (b_profile b) -> pf_function p = pf_function (b_profile b) ->
  tables b -> tables (with_profile b p) /\ grows b (with_profile b p).
Proof. intros A B T. apply same_tables; auto. Qed.

Lemma sx_samples b b' : sx b b' -> pf_sample (b_profile b') = pf_sample (b_profile b).
Proof. intros (A & _). now rewrite A. Qed.

Lemma add_mapping_gx pi b o pi' b' id :
  add_mapping pi b o = Ok (pi', b', id) ->
  gx b b' /\ pf_sample (b_profile b') = pf_sample (b_profile b) /\
  pf_location (b_profile b') = pf_location (b_profile b).
Proof.
  unfold add_mapping. destruct o as [[q m]|].
  2:{ intros H. injection H as <- <- <-. split; [apply gx_refl|]. now split. }
  destruct (aget Nat.eqb q (pi_map pi)).
  { intros H. injection H as <- <- <-. split; [apply gx_refl|]. now split. }
  destruct (if is_empty (fst (hm_build m)) then (b, 0%Z) else utf8_id b (fst (hm_build m))) as [b1 build] eqn:E1.
  assert (X1 : sx b b1).
  { destruct (is_empty (fst (hm_build m))); [injection E1 as <- <-; apply sx_refl|].
    exact (string_id_sx _ _ _ _ E1). }
  destruct (utf8_id b1 (mapping_filename m)) as [b2 file] eqn:E2.
  pose proof (sx_trans _ _ _ X1 (string_id_sx _ _ _ _ E2)) as X.
  destruct (hm_start m <=? hm_limit m); [|discriminate].
  intros H. injection H as <- <- <-.
  pose proof (sx_gx _ _ X) as G. destruct X as (A & B & C & D).
  split.
  - eapply gx_trans; [exact G|]. constructor; try reflexivity.
    + apply tables_with; reflexivity.
    + eexists. reflexivity.
    + exists []. now rewrite app_nil_r.
    + exists []. now rewrite app_nil_r.
  - cbn [b_profile with_profile pf_sample pf_location set_mapping]. now rewrite A.
Qed.

Lemma add_location_gx pi b a o pi' b' id :
  add_location pi b a o = Ok (pi', b', id) ->
  gx b b' /\ pf_sample (b_profile b') = pf_sample (b_profile b).
Proof.
  unfold add_location. destruct (aget N.eqb a (pi_loc pi)).
  { intros H. injection H as <- <- <-. split; [apply gx_refl|reflexivity]. }
  intros H. destruct (add_mapping pi b o) as [[[pi1 b1] mid]| | | |] eqn:E; try discriminate H.
  cbn [obind] in H. apply add_mapping_gx in E. destruct E as (G & S & L).
  destruct ((mid =? 0) && negb (a =? 0)); [discriminate|]. injection H as <- <- <-.
  split; [|exact S]. eapply gx_trans; [exact G|]. constructor; try reflexivity.
  - apply tables_with; reflexivity.
  - exists []. now rewrite app_nil_r.
  - eexists. reflexivity.
  - exists []. now rewrite app_nil_r.
Qed.

Lemma add_locations_gx fs : forall pi b pi' b' ids,
  add_locations pi b fs = Ok (pi', b', ids) ->
  gx b b' /\ pf_sample (b_profile b') = pf_sample (b_profile b).
Proof.
  induction fs as [|[a o] fs IH]; intros pi b pi' b' ids H; cbn [add_locations] in H.
  - injection H as <- <- <-. split; [apply gx_refl|reflexivity].
  - destruct (add_location pi b a o) as [[[pi1 b1] id]| | | |] eqn:E; try discriminate H.
    cbn [obind] in H.
    destruct (add_locations pi1 b1 fs) as [[[pi2 b2] ids2]| | | |] eqn:E2; try discriminate H.
    cbn [obind] in H. injection H as <- <- <-.
    apply add_location_gx in E. apply IH in E2. destruct E as (G1 & S1), E2 as (G2 & S2).
    split; [eapply gx_trans; eassumption|congruence].
Qed.

Lemma make_key_sx c pi b cx b' k : make_key c pi b cx = (b', k) -> sx b b'.
Proof.
  unfold make_key. intros H.
  destruct (opt_id _ b _) as [b1 comm] eqn:E1. apply opt_id_sx in E1.
  destruct (opt_id _ b1 _) as [b2 type] eqn:E2. apply opt_id_sx in E2.
  destruct (opt_id _ b2 _) as [b3 tcomm] eqn:E3. apply opt_id_sx in E3.
  destruct (opt_id _ b3 _) as [b4 cg] eqn:E4. apply opt_id_sx in E4.
  destruct (opt_id _ b4 _) as [b5 src] eqn:E5. apply opt_id_sx in E5.
  destruct (opt_id _ b5 _) as [b6 snoop] eqn:E6. apply opt_id_sx in E6.
  injection H as <- _.
  eapply sx_trans; [exact E1|]. eapply sx_trans; [exact E2|]. eapply sx_trans; [exact E3|].
  eapply sx_trans; [exact E4|]. eapply sx_trans; eassumption.
Qed.

Lemma add_types_samples ns : forall b n l b' l',
  add_types b n ns l = (b', l') -> pf_sample (b_profile b') = pf_sample (b_profile b).
Proof.
  induction ns as [|o ns IH]; intros b n l b' l' H; cbn [add_types] in H.
  - now injection H as <- <-.
  - destruct (match o with
              | Some s => (s ++ str "_", n)
              | None => (str "event_" ++ print_dec n ++ str "_", n + 1) end) as [name n'].
    destruct (utf8_id b (name ++ str "sample")) as [b1 ts] eqn:E1.
    destruct (string_id b1 (str "count")) as [b2 us] eqn:E2.
    destruct (utf8_id b2 (name ++ str "event")) as [b3 te] eqn:E3.
    destruct (string_id b3 (str "count")) as [b4 ue] eqn:E4.
    apply IH in H. rewrite H. cbn [b_profile with_profile pf_sample set_sample_type].
    apply string_id_sx, sx_samples in E1. apply string_id_sx, sx_samples in E2.
    apply string_id_sx, sx_samples in E3. apply string_id_sx, sx_samples in E4. congruence.
Qed.

Lemma add_comment_samples b p o : pf_sample (b_profile (add_comment b p o)) = pf_sample (b_profile b).
Proof.
  unfold add_comment. destruct o as [v|]; [|reflexivity].
  destruct (utf8_id b (p ++ v)) as [b1 i] eqn:E. cbn [b_profile with_profile pf_sample set_comment].
  exact (sx_samples _ _ (string_id_sx _ _ _ _ E)).
Qed.

Lemma new_builder_samples c pi o pi' b : new_builder c pi o = Ok (pi', b) -> pf_sample (b_profile b) = [].
Proof.
  unfold new_builder. intros H.
  destruct (add_types builder0 0 (event_names (cf_data c)) 0) as [b0 last] eqn:E.
  apply add_types_samples in E.
  destruct o as [m|].
  - match type of H with context [add_mapping pi ?b1 (Some m)] =>
      destruct (add_mapping pi b1 (Some m)) as [[[pi1 b2] id]| | | |] eqn:E2; try discriminate H end.
    cbn [obind] in H. injection H as <- <-. rewrite !add_comment_samples.
    apply add_mapping_gx in E2. destruct E2 as (_ & S & _). rewrite S. exact E.
  - cbn [obind] in H. injection H as <- <-. rewrite !add_comment_samples. exact E.
Qed.

(** * Conservation *)
Definition column (s : cstate) (j : nat) : Z :=
  sum (map (fun b => profile_total (b_profile b) j) (cs_builders s)).

Lemma column_info pid p s j : column (set_info pid p s) j = column s j. Proof. reflexivity. Qed.

Lemma get_or_create_column c s cx s' bi j :
  get_or_create c s cx = Ok (s', bi) -> column s' j = column s j.
Proof.
  unfold get_or_create. intros H.
  set (bpid := if opted c kGroupByPids then _ else _) in H.
  match type of H with obind ?e _ = _ => destruct e as [[s1 bi1]| | | |] eqn:E; try discriminate H end.
  cbn [obind] in H.
  assert (C1 : column s1 j = column s j).
  { destruct (pi_builder (info s bpid)) as [k|].
    - destruct (at_ (cs_builders s) k) as [b| | | |]; try discriminate E. cbn [obind] in E.
      destruct (check_main c b (cx_main cx)); try discriminate E. cbn [obind] in E. now injection E as <- <-.
    - match type of E with obind ?e _ = _ => destruct e as [[pi b]| | | |] eqn:E2; try discriminate E end.
      cbn [obind] in E. injection E as <- <-.
      unfold column. cbn [cs_builders set_metas set_builders]. rewrite map_app, sum_app. cbn [map].
      unfold profile_total at 2. rewrite (new_builder_samples _ _ _ _ _ E2).
      change (cs_builders (set_info (dflt (s_pid (cx_sample cx))) pi _)) with (cs_builders s).
      unfold sum at 2 3. cbn [fold_right map]. lia. }
  destruct (w64 (dflt (s_time (cx_sample cx))) =? 0).
  - now injection H as <- <-.
  - destruct (at_ (cs_metas s1) bi1); try discriminate H. cbn [obind] in H. now injection H as <- <-.
Qed.

Lemma set_builder_column s bi b b' j :
  nth_error (cs_builders s) bi = Some b ->
  column (set_builders (set_nth bi b' (cs_builders s)) s) j =
  (column s j + profile_total (b_profile b') j - profile_total (b_profile b) j)%Z.
Proof.
  intros H. unfold column. cbn [cs_builders set_builders]. rewrite set_nth_map.
  apply sum_set_nth. rewrite nth_error_map, H. reflexivity.
Qed.

Lemma add_s64_eq a b r : add_s64 a b = Ok r -> r = (a + b)%Z.
Proof.
  unfold add_s64. destruct ((-9223372036854775808 <=? a + b) && (a + b <=? 9223372036854775807))%Z; [|discriminate].
  intros H. now injection H.
Qed.

Lemma bump_values vals i w vals' :
  bump vals i w = Ok vals' ->
  List.length vals' = List.length vals /\ (2 * i + 1 < List.length vals)%nat /\
  forall j, nth j vals' 0%Z = (nth j vals 0 + (if (j =? 2 * i)%nat then 1 else 0)
                                + (if (j =? 2 * i + 1)%nat then w else 0))%Z.
Proof.
  unfold bump. generalize (2 * i)%nat. intros d H.
  destruct (at_ vals (d)) as [v0| | | |] eqn:E0; try discriminate H. cbn [obind] in H.
  destruct (add_s64 v0 1) as [v0'| | | |] eqn:A0; try discriminate H. cbn [obind] in H.
  destruct (at_ vals (d + 1)) as [v1| | | |] eqn:E1; try discriminate H. cbn [obind] in H.
  destruct (add_s64 v1 w) as [v1'| | | |] eqn:A1; try discriminate H. cbn [obind] in H.
  injection H as <-. apply at_ok in E0, E1. apply add_s64_eq in A0, A1.
  pose proof (nth_error_len_some _ _ _ E0) as L0. pose proof (nth_error_len_some _ _ _ E1) as L1.
  split; [now rewrite !length_set_nth|]. split; [exact L1|].
  intros j.
  assert (N : forall (l : list Z) k, nth k l 0%Z = match nth_error l k with Some x => x | None => 0%Z end).
  { clear. induction l as [|x l IH]; intros [|k]; cbn; auto. }
  rewrite !N, !nth_error_set_nth, length_set_nth.
  destruct (Nat.eqb_spec j (d + 1)) as [Hj|Hj].
  - rewrite Hj. replace (d + 1 =? d)%nat with false by (symmetry; apply Nat.eqb_neq; lia).
    replace (d + 1 <? List.length vals)%nat with true by (symmetry; apply Nat.ltb_lt; exact L1).
    cbn [andb]. rewrite E1. lia.
  - cbn [andb]. destruct (Nat.eqb_spec j (d)) as [Hk|Hk].
    + rewrite Hk. replace (d <? List.length vals)%nat with true by (symmetry; apply Nat.ltb_lt; exact L0).
      cbn [andb]. rewrite E0. lia.
    + cbn [andb]. lia.
Qed.

Lemma bump_sample_column s r i w s' j :
  bump_sample s r i w = Ok s' ->
  column s' j = (column s j + (if (j =? 2 * i)%nat then 1 else 0) + (if (j =? 2 * i + 1)%nat then w else 0))%Z.
Proof.
  unfold bump_sample. intros H.
  destruct (at_ (cs_builders s) (fst r)) as [b| | | |] eqn:E; try discriminate H. cbn [obind] in H.
  destruct (at_ (pf_sample (b_profile b)) (snd r)) as [p| | | |] eqn:E2; try discriminate H. cbn [obind] in H.
  destruct (bump (ps_val p) i w) as [vals| | | |] eqn:E3; try discriminate H. cbn [obind] in H.
  injection H as <-. apply at_ok in E, E2. apply bump_values in E3. destruct E3 as (_ & _ & V).
  rewrite (set_builder_column s (fst r) b _ j E).
  unfold profile_total. cbn [b_profile with_profile pf_sample set_sample].
  rewrite set_nth_map. rewrite (sum_set_nth _ (snd r) _ (nth j (ps_val p) 0%Z)).
  - cbn [ps_val]. rewrite V. lia.
  - rewrite nth_error_map, E2. reflexivity.
Qed.

Lemma nth_repeat0 n j : nth j (repeat 0%Z n) 0%Z = 0%Z.
Proof. revert j. induction n; intros [|j]; cbn; auto. Qed.

Lemma new_sample_total c b sm k j :
  profile_total (b_profile (new_sample c b sm k)) j = profile_total (b_profile b) j.
Proof.
  unfold new_sample. destruct (emit_labels b (label_list c sm k)) as [b1 ls] eqn:E.
  apply emit_labels_sx in E. unfold profile_total. cbn [b_profile with_profile pf_sample set_sample].
  rewrite (sx_samples _ _ E), map_app, sum_app. cbn [map ps_val]. rewrite nth_repeat0.
  unfold sum at 2. cbn. lia.
Qed.

Lemma add_or_update_column c s cx pid k bi s' r j :
  add_or_update c s cx pid k bi = Ok (s', r) ->
  column s' j = (column s j + (if (j =? 2 * Z.to_nat (cx_attr cx))%nat then 1 else 0)
                 + (if (j =? 2 * Z.to_nat (cx_attr cx) + 1)%nat then weight_of c cx else 0))%Z.
Proof.
  unfold add_or_update. intros H. destruct (aget skey_eqb k (pi_sample (info s pid))) as [r0|].
  - destruct (bump_sample s r0 _ _) as [s1| | | |] eqn:E; try discriminate H. cbn [obind] in H.
    injection H as <- <-. exact (bump_sample_column _ _ _ _ _ j E).
  - destruct (at_ (cs_builders s) bi) as [b| | | |] eqn:E; try discriminate H. cbn [obind] in H.
    match type of H with obind ?e _ = _ => destruct e as [s1| | | |] eqn:E1; try discriminate H end.
    cbn [obind] in H. injection H as <- <-. apply at_ok in E.
    rewrite (bump_sample_column _ _ _ _ _ j E1), column_info.
    rewrite (set_builder_column s bi b _ j E), new_sample_total. lia.
Qed.

Lemma option_on_bit c k : option_on c (2 ^ k) = opted c k.
Proof.
  unfold option_on, opted. destruct (N.testbit (cf_options c) k) eqn:E.
  - destruct (N.eqb_spec (N.land (cf_options c) (2 ^ k)) 0) as [H|H]; [|reflexivity].
    assert (X : N.testbit (N.land (cf_options c) (2 ^ k)) k = true)
      by (rewrite N.land_spec, E, N.pow2_bits_true; reflexivity).
    rewrite H, N.bits_0 in X. discriminate X.
  - replace (N.land (cf_options c) (2 ^ k)) with 0; [reflexivity|]. symmetry. apply N.bits_inj. intros j.
    rewrite N.land_spec, N.bits_0. destruct (N.eq_dec j k) as [->|Hj]; [now rewrite E|].
    rewrite N.pow2_bits_false by congruence. apply andb_false_r.
Qed.

Lemma label_on_bit c k : label_on c (2 ^ k) = labelled c k.
Proof.
  unfold label_on, labelled.
  exact (option_on_bit {| cf_data := cf_data c; cf_labels := 0; cf_options := cf_labels c; cf_types := [] |} k).
Qed.

Lemma accepted_kept c cx : accepted c cx = kept c cx.
Proof. unfold accepted, kept, drops_lost. change 16 with (2 ^ 4). now rewrite option_on_bit. Qed.

Lemma s64_int64 x : s64 x = int64_of x.
Proof.
  unfold s64, int64_of, w64, two63, two64. cbn zeta.
  change (2 ^ 64) with 18446744073709551616. change (2 ^ 63) with 9223372036854775808.
  destruct (_ <? _); [reflexivity|]. change (Z.of_N 18446744073709551616) with (2 ^ 64)%Z. reflexivity.
Qed.

Lemma weight_eq c cx : kept c cx = true -> weight_of c cx = weight c (Z.to_nat (cx_attr cx)) (HSample cx).
Proof.
  unfold kept, weight_of, weight. intros H. rewrite !andb_true_iff in H. destruct H as ((H1 & H2) & _).
  rewrite H1. rewrite s64_int64. destruct (0 <? s_period (cx_sample cx)); [reflexivity|].
  destruct (nth_error (pp_attrs (cf_data c)) (Z.to_nat (cx_attr cx))); [|reflexivity].
  now rewrite s64_int64.
Qed.

Lemma on_sample_column c s cx s' r j :
  on_sample_call c s cx = Ok (s', r) ->
  column s' j = (column s j + (if kept c cx then
     (if (j =? 2 * Z.to_nat (cx_attr cx))%nat then 1 else 0)
     + (if (j =? 2 * Z.to_nat (cx_attr cx) + 1)%nat then weight_of c cx else 0) else 0))%Z.
Proof.
  unfold on_sample_call. rewrite accepted_kept. intros H. destruct (kept c cx); cbn [negb] in H.
  2:{ injection H as <- <-. lia. }
  destruct (get_or_create c s cx) as [[s1 bi]| | | |] eqn:E1; try discriminate H. cbn [obind] in H.
  destruct (at_ (cs_builders s1) bi) as [b| | | |] eqn:E2; try discriminate H. cbn [obind] in H.
  destruct (make_key c (info s1 (dflt (s_pid (cx_sample cx)))) b cx) as [b1 k] eqn:E3.
  destruct (checked (s_ip (cx_sample cx)) (cx_map cx)) as [ip| | | |]; try discriminate H. cbn [obind] in H.
  match type of H with obind ?e _ = _ => destruct e as [data| | | |]; try discriminate H end. cbn [obind] in H.
  match type of H with obind ?e _ = _ => destruct e as [[[pi2 b2] ids]| | | |] eqn:E4; try discriminate H end.
  cbn [obind] in H.
  match type of H with obind ?e _ = _ => destruct e as [[s2 r2]| | | |] eqn:E5; try discriminate H end.
  cbn [obind] in H. injection H as <- <-.
  rewrite (add_or_update_column _ _ _ _ _ _ _ _ j E5).
  apply at_ok in E2. apply add_locations_gx in E4. destruct E4 as (_ & S4).
  apply make_key_sx, sx_samples in E3.
  match goal with |- context [column (set_stats _ ?s0) j] =>
    change (column (set_stats _ s0) j) with (column s0 j) end.
  rewrite (set_builder_column (set_info _ pi2 s1) bi b b2 j E2), column_info.
  unfold profile_total. rewrite S4, E3. rewrite (get_or_create_column _ _ _ _ _ j E1). lia.
Qed.

Lemma on_call_column c s h s' o j :
  on_call c s h = Ok (s', o) ->
  column s' j = (column s j + match h with
    | HSample cx => if kept c cx then
       (if (j =? 2 * Z.to_nat (cx_attr cx))%nat then 1 else 0)
       + (if (j =? 2 * Z.to_nat (cx_attr cx) + 1)%nat then weight_of c cx else 0) else 0
    | _ => 0 end)%Z.
Proof.
  destruct h as [cx|cm e|pid [q m]]; cbn [on_call]; intros H.
  - exact (on_sample_column _ _ _ _ _ j H).
  - injection H as <- <-. unfold on_comm_call. rewrite column_info. destruct e; rewrite ?column_info; lia.
  - unfold on_mmap_call in H. destruct (hm_limit m <? hm_start m); [discriminate H|].
    cbn [obind] in H. injection H as <- <-. rewrite column_info. lia.
Qed.

Lemma run_column c hs : forall s s' os i,
  run_calls c s hs = Ok (s', os) ->
  column s' (2 * i) = (column s (2 * i) + Z.of_nat (List.length (filter (sample_of c i) hs)))%Z /\
  column s' (2 * i + 1) = (column s (2 * i + 1) + sum (map (weight c i) (filter (sample_of c i) hs)))%Z.
Proof.
  induction hs as [|h hs IH]; intros s s' os i H; cbn [run_calls] in H.
  - injection H as <- <-. cbn. lia.
  - destruct (on_call c s h) as [[s1 o]| | | |] eqn:E; try discriminate H. cbn [obind] in H.
    destruct (run_calls c s1 hs) as [[s2 os2]| | | |] eqn:E2; try discriminate H. cbn [obind] in H.
    injection H as <- <-. destruct (IH _ _ _ i E2) as (A & B). rewrite A, B.
    rewrite (on_call_column _ _ _ _ _ (2 * i) E), (on_call_column _ _ _ _ _ (2 * i + 1) E).
    cbn [filter]. destruct h as [cx|cm e|pid m]; cbn [sample_of]; [|lia|lia].
    destruct (kept c cx) eqn:K; cbn [andb]; [|lia].
    pose proof (weight_eq c cx K) as W.
    unfold kept in K. rewrite !andb_true_iff in K. destruct K as ((K1 & K2) & _). apply Z.leb_le in K1.
    destruct (Z.eqb_spec (cx_attr cx) (Z.of_nat i)) as [He|He].
    + rewrite He, Nat2Z.id in *. cbn [List.length map]. rewrite <- W.
      change (sum (weight_of c cx :: ?l)) with (weight_of c cx + sum l)%Z.
      replace (2 * i =? 2 * i)%nat with true by (symmetry; apply Nat.eqb_refl).
      replace (2 * i + 1 =? 2 * i + 1)%nat with true by (symmetry; apply Nat.eqb_refl).
      replace (2 * i =? 2 * i + 1)%nat with false by (symmetry; apply Nat.eqb_neq; clear; lia).
      replace (2 * i + 1 =? 2 * i)%nat with false by (symmetry; apply Nat.eqb_neq; clear; lia).
      unfold sum. cbn [fold_right]. clear. lia.
    + replace (2 * i =? 2 * Z.to_nat (cx_attr cx))%nat with false by (symmetry; apply Nat.eqb_neq; clear - He K1; lia).
      replace (2 * i + 1 =? 2 * Z.to_nat (cx_attr cx) + 1)%nat with false
        by (symmetry; apply Nat.eqb_neq; clear - He K1; lia).
      replace (2 * i =? 2 * Z.to_nat (cx_attr cx) + 1)%nat with false by (symmetry; apply Nat.eqb_neq; clear; lia).
      replace (2 * i + 1 =? 2 * Z.to_nat (cx_attr cx))%nat with false by (symmetry; apply Nat.eqb_neq; clear; lia).
      clear. lia.
Qed.

(** * Results *)
Lemma intern_addresses_keep addrs : forall m locs, exists m' locs' ids,
  intern_addresses m locs addrs = (m', locs', ids).
Proof. intros. destruct (intern_addresses m locs addrs) as [[m' l'] ids]. eauto. Qed.

Lemma intern_samples_vals ss : forall m locs locs' ss',
  intern_samples m locs ss = (locs', ss') -> map ps_val ss' = map ps_val ss.
Proof.
  induction ss as [|s ss IH]; intros m locs locs' ss' H; cbn [intern_samples] in H.
  - now injection H as <- <-.
  - destruct (intern_addresses m locs (ps_loc s)) as [[m1 l1] ids].
    destruct (intern_samples m1 l1 ss) as [l2 r] eqn:E. injection H as <- <-.
    cbn [map ps_val]. f_equal. exact (IH _ _ _ _ E).
Qed.

Lemma finalize_vals b :
  map ps_val (pf_sample (b_profile (fst (finalize b)))) = map ps_val (pf_sample (b_profile b)).
Proof.
  unfold finalize. destruct (b_error b); [reflexivity|]. cbn [fst b_profile with_profile].
  unfold assign_mappings.
  assert (X : map ps_val (pf_sample (create_locations (b_profile b))) = map ps_val (pf_sample (b_profile b))).
  { unfold create_locations. destruct (pf_location (b_profile b)); [|reflexivity].
    destruct (intern_samples [] [] (pf_sample (b_profile b))) as [l ss] eqn:E.
    cbn [pf_sample set_sample]. exact (intern_samples_vals _ _ _ _ _ E). }
  destruct (pf_mapping (create_locations (b_profile b))); exact X.
Qed.

Lemma map_fst_combine {A B} (l : list A) : forall (l' : list B),
  List.length l = List.length l' -> map fst (combine l l') = l.
Proof. induction l as [|x l IH]; intros [|y l'] H; cbn in *; try discriminate; [reflexivity|]. f_equal. apply IH. lia. Qed.

Lemma profiles_total s j :
  List.length (cs_metas s) = List.length (cs_builders s) -> total (profiles s) j = column s j.
Proof.
  intros H. unfold total, profiles, column. rewrite map_map. cbn [make_profile pr_data].
  rewrite <- (map_fst_combine (cs_builders s) (cs_metas s) (eq_sym H)) at 2. rewrite map_map. f_equal.
  apply map_ext. intros [b m]. cbn [fst]. unfold profile_total. f_equal.
  rewrite <- (map_map ps_val (fun v => nth j v 0%Z)), finalize_vals, map_map. reflexivity.
Qed.

(** * Profiles of processes and time spans *)
Definition is_open (s : cstate) (openp : N -> option nat) : Prop :=
  List.length (cs_metas s) = List.length (cs_builders s) /\
  (forall p, pi_builder (info s p) = openp p) /\
  (forall p k, openp p = Some k -> exists m, nth_error (cs_metas s) k = Some m /\ pm_pid m = p).

Lemma add_mapping_builder pi b o pi' b' id :
  add_mapping pi b o = Ok (pi', b', id) -> pi_builder pi' = pi_builder pi.
Proof.
  unfold add_mapping. destruct o as [[q m]|]; [|intros H; now injection H as <- <- <-].
  destruct (aget Nat.eqb q (pi_map pi)); [intros H; now injection H as <- <- <-|].
  destruct (if is_empty (fst (hm_build m)) then (b, 0%Z) else utf8_id b (fst (hm_build m))) as [b1 build].
  destruct (utf8_id b1 (mapping_filename m)) as [b2 file].
  destruct (hm_start m <=? hm_limit m); [|discriminate]. intros H. now injection H as <- <- <-.
Qed.

Lemma add_location_builder pi b a o pi' b' id :
  add_location pi b a o = Ok (pi', b', id) -> pi_builder pi' = pi_builder pi.
Proof.
  unfold add_location. destruct (aget N.eqb a (pi_loc pi)); [intros H; now injection H as <- <- <-|].
  destruct (add_mapping pi b o) as [[[pi1 b1] mid]| | | |] eqn:E; try discriminate. cbn [obind].
  destruct ((mid =? 0) && negb (a =? 0)); [discriminate|]. intros H. injection H as <- <- <-.
  exact (add_mapping_builder _ _ _ _ _ _ E).
Qed.

Lemma add_locations_builder fs : forall pi b pi' b' ids,
  add_locations pi b fs = Ok (pi', b', ids) -> pi_builder pi' = pi_builder pi.
Proof.
  induction fs as [|[a o] fs IH]; intros pi b pi' b' ids H; cbn [add_locations] in H.
  - now injection H as <- <- <-.
  - destruct (add_location pi b a o) as [[[pi1 b1] id]| | | |] eqn:E; try discriminate H. cbn [obind] in H.
    destruct (add_locations pi1 b1 fs) as [[[pi2 b2] ids2]| | | |] eqn:E2; try discriminate H.
    cbn [obind] in H. injection H as <- <- <-. apply add_location_builder in E. apply IH in E2. congruence.
Qed.

(** * Inversion *)
Lemma grouped_bit c : opted c kGroupByPids = grouped c.
Proof. unfold grouped. change 1 with (2 ^ 0). now rewrite option_on_bit. Qed.

Lemma data_frames_bit c : opted c kAddDataAddressFrames = data_frames c.
Proof. unfold data_frames. change 8 with (2 ^ 3). now rewrite option_on_bit. Qed.

Lemma w64_int64 t : w64 t = 0 <-> int64_of t = 0%Z.
Proof.
  unfold w64, int64_of, two64. change (2 ^ 64) with 18446744073709551616. change (2 ^ 63) with 9223372036854775808.
  assert (H : t mod 18446744073709551616 < 18446744073709551616) by (apply N.mod_lt; discriminate).
  revert H. generalize (t mod 18446744073709551616). clear t. intros x H.
  destruct (N.ltb_spec x 9223372036854775808); lia.
Qed.

Definition stamped (t : N) (m : pmeta) : pmeta :=
  if (int64_of t =? 0)%Z then m else update_times (int64_of t) m.

(** The entry of the sample's process in which the builder is looked up. *)
Lemma get_or_create_inv c s cx s' bi :
  get_or_create c s cx = Ok (s', bi) ->
  let pid := dflt (s_pid (cx_sample cx)) in
  let key := filed_under c cx in
  let t := dflt (s_time (cx_sample cx)) in
  (pi_builder (info s key) = Some bi /\
   (exists b, nth_error (cs_builders s) bi = Some b /\ check_main c b (cx_main cx) = Ok tt) /\
   cs_builders s' = cs_builders s /\ cs_pids s' = cs_pids s /\ cs_stats s' = cs_stats s /\
   (if (int64_of t =? 0)%Z then cs_metas s' = cs_metas s
    else exists m, nth_error (cs_metas s) bi = Some m /\ cs_metas s' = set_nth bi (stamped t m) (cs_metas s)))
  \/
  (pi_builder (info s key) = None /\ bi = List.length (cs_builders s) /\
   exists pi b,
     new_builder c (info (set_info key (pi_set_builder (Some bi) (info s key)) s) pid) (cx_main cx) = Ok (pi, b) /\
     cs_builders s' = cs_builders s ++ [b] /\ cs_stats s' = cs_stats s /\
     (forall q, info s' q = if q =? pid then pi else if q =? key then pi_set_builder (Some bi) (info s key) else info s q) /\
     (List.length (cs_metas s) = List.length (cs_builders s) ->
      cs_metas s' = cs_metas s ++ [stamped t {| pm_pid := key; pm_min := 0; pm_max := 0 |}])).
Proof.
  unfold get_or_create. rewrite grouped_bit. intros H. cbn zeta.
  change (if grouped c then dflt (s_pid (cx_sample cx)) else 0) with (filed_under c cx) in H.
  set (pid := dflt (s_pid (cx_sample cx))) in *. set (key := filed_under c cx) in *.
  set (t := dflt (s_time (cx_sample cx))) in *.
  destruct (pi_builder (info s key)) as [k|] eqn:P.
  - left.
    destruct (at_ (cs_builders s) k) as [b| | | |] eqn:E; try discriminate H. cbn [obind] in H.
    destruct (check_main c b (cx_main cx)) as [[]| | | |] eqn:E2; try discriminate H. cbn [obind] in H.
    apply at_ok in E. pose proof (w64_int64 t) as W.
    destruct (N.eqb_spec (w64 t) 0) as [Ht|Ht].
    + injection H as <- <-. split; [reflexivity|]. split; [eauto|]. do 3 (split; [reflexivity|]).
      rewrite (proj1 W Ht). reflexivity.
    + destruct (at_ (cs_metas s) k) as [m| | | |] eqn:E3; try discriminate H. cbn [obind] in H.
      injection H as <- <-. apply at_ok in E3. split; [reflexivity|]. split; [eauto|].
      do 3 (split; [reflexivity|]).
      assert (Hn : (int64_of t =? 0)%Z = false) by (apply Z.eqb_neq; tauto).
      rewrite Hn. exists m. split; [exact E3|]. unfold stamped. rewrite Hn.
      cbn [cs_metas set_metas]. rewrite s64_int64. unfold int64_of, w64, two64.
      change (2 ^ 64) with 18446744073709551616. rewrite N.mod_mod by discriminate. reflexivity.
  - right. split; [reflexivity|].
    set (s0 := set_info key (pi_set_builder (Some (List.length (cs_builders s))) (info s key)) s) in *.
    destruct (new_builder c (info s0 pid) (cx_main cx)) as [[pi b]| | | |] eqn:E; try discriminate H.
    cbn [obind] in H.
    set (s1 := set_metas _ _) in H.
    assert (I : forall q, info s1 q = if q =? pid then pi else if q =? key
              then pi_set_builder (Some (List.length (cs_builders s))) (info s key) else info s q).
    { intros q. unfold s1. rewrite info_metas, info_builders, info_set. unfold s0. rewrite info_set. reflexivity. }
    assert (B : cs_builders s1 = cs_builders s ++ [b]) by reflexivity.
    assert (M : cs_metas s1 = cs_metas s ++ [{| pm_pid := key; pm_min := 0; pm_max := 0 |}]) by reflexivity.
    assert (S : cs_stats s1 = cs_stats s) by reflexivity.
    clearbody s1. pose proof (w64_int64 t) as W.
    destruct (N.eqb_spec (w64 t) 0) as [Ht|Ht].
    + injection H as <- <-. split; [reflexivity|]. exists pi, b. split; [exact E|]. split; [exact B|].
      split; [exact S|]. split; [exact I|]. intros _. rewrite M. unfold stamped. now rewrite (proj1 W Ht).
    + destruct (at_ (cs_metas s1) (List.length (cs_builders s))) as [m| | | |] eqn:E3; try discriminate H.
      cbn [obind] in H. injection H as <- <-. apply at_ok in E3. split; [reflexivity|].
      exists pi, b. split; [exact E|]. split; [exact B|]. split; [exact S|]. split; [exact I|].
      intros L. assert (Hn : (int64_of t =? 0)%Z = false) by (apply Z.eqb_neq; tauto).
      cbn [cs_metas set_metas]. rewrite M in *. rewrite <- L in *.
      rewrite nth_error_app2, Nat.sub_diag in E3 by lia. injection E3 as <-.
      assert (X : forall A (l : list A) x y, set_nth (List.length l) y (l ++ [x]) = l ++ [y]).
      { clear. induction l as [|z l IH]; intros x y; cbn; [reflexivity|]. now rewrite IH. }
      rewrite X. unfold stamped. rewrite Hn. rewrite s64_int64. unfold int64_of, w64, two64.
      change (2 ^ 64) with 18446744073709551616. rewrite N.mod_mod by discriminate. reflexivity.
Qed.

Lemma checked_eq a m x : checked a m = Ok x -> x = mapped_or_zero a m.
Proof.
  unfold checked, mapped_or_zero. destruct m as [[q m]|]; [|intros H; now injection H].
  destruct (N.eqb_spec a 0) as [->|_]; [intros H; now injection H|].
  destruct ((hm_start m <=? a) && (a <? hm_limit m)); intros H; [now injection H|discriminate].
Qed.

Lemma chain_frames_eq lbr : forall fs skipped,
  chain_frames lbr skipped fs =
  map (fun f => (fst f - 1, snd f))
    (filter above_start
       ((if skipped then fun l => l else @tl _)
          (filter (fun f => negb (is_marker (fst f))) (if lbr then before_user fs else fs)))).
Proof.
  assert (U : PERF_CONTEXT_USER = 2 ^ 64 - 512) by reflexivity.
  induction fs as [|[ip m] fs IH]; intros skipped; cbn [chain_frames before_user].
  - destruct lbr, skipped; reflexivity.
  - rewrite U. cbn [fst]. destruct lbr; cbn [andb].
    + destruct (ip =? 2 ^ 64 - 512); [destruct skipped; reflexivity|].
      cbn [filter fst]. change (is_marker ip) with (PERF_CONTEXT_MAX <=? ip). destruct (PERF_CONTEXT_MAX <=? ip); cbn [negb].
      * exact (IH skipped).
      * destruct skipped; cbn [negb tl].
        -- cbn [filter]. unfold above_start at 1. cbn [snd fst]. destruct m as [[q h]|]; [|exact (IH true)].
           destruct (N.ltb_spec (hm_start h) ip) as [L|L]; destruct (N.leb_spec ip (hm_start h)) as [L'|L']; try lia.
           ++ cbn [map fst snd]. f_equal. exact (IH true).
           ++ exact (IH true).
        -- exact (IH true).
    + cbn [filter fst]. change (is_marker ip) with (PERF_CONTEXT_MAX <=? ip). destruct (PERF_CONTEXT_MAX <=? ip); cbn [negb].
      * exact (IH skipped).
      * destruct skipped; cbn [negb tl].
        -- cbn [filter]. unfold above_start at 1. cbn [snd fst]. destruct m as [[q h]|]; [|exact (IH true)].
           destruct (N.ltb_spec (hm_start h) ip) as [L|L]; destruct (N.leb_spec ip (hm_start h)) as [L'|L']; try lia.
           ++ cbn [map fst snd]. f_equal. exact (IH true).
           ++ exact (IH true).
        -- exact (IH true).
Qed.

Lemma branch_frames_eq bs :
  branch_frames bs = filter at_or_above_start (map (fun b => (bp_from b, bp_from_map b)) bs).
Proof.
  induction bs as [|b bs IH]; cbn [branch_frames map filter]; [reflexivity|].
  unfold at_or_above_start at 1. cbn [snd fst]. destruct (bp_from_map b) as [[q h]|]; [|exact IH].
  destruct (N.ltb_spec (bp_from b) (hm_start h)) as [L|L]; destruct (N.leb_spec (hm_start h) (bp_from b)) as [L'|L'];
    try lia; [exact IH|]. now rewrite IH.
Qed.

Lemma lbr_eq cx : negb (is_empty (cx_branch cx)) && negb (has (cx_spe cx)) = from_branches cx.
Proof. unfold from_branches. now destruct (cx_branch cx), (cx_spe cx). Qed.

Lemma on_sample_inv c s cx s' o :
  on_sample_call c s cx = Ok (s', o) ->
  (kept c cx = false /\ s' = s /\ o = None) \/
  (kept c cx = true /\
   let pid := dflt (s_pid (cx_sample cx)) in
   exists s1 bi b b1 k pi2 b2 ids r,
     get_or_create c s cx = Ok (s1, bi) /\ nth_error (cs_builders s1) bi = Some b /\
     make_key c (info s1 pid) b cx = (b1, k) /\
     add_locations (info s1 pid) b1 (stack_frames c cx) = Ok (pi2, b2, ids) /\
     add_or_update c
       (set_stats (cs_stats s1 ++ map (fun f => (pid, source_of (snd f))) (code_frames cx))
          (set_builders (set_nth bi b2 (cs_builders s1)) (set_info pid pi2 s1)))
       cx pid (with_stack ids k) bi = Ok (s', r) /\ o = Some r).
Proof.
  unfold on_sample_call. rewrite accepted_kept. intros H. destruct (kept c cx); cbn [negb] in H.
  2:{ left. injection H as <- <-. auto. }
  right. split; [reflexivity|]. cbn zeta.
  destruct (get_or_create c s cx) as [[s1 bi]| | | |] eqn:E1; try discriminate H. cbn [obind] in H.
  destruct (at_ (cs_builders s1) bi) as [b| | | |] eqn:E2; try discriminate H. cbn [obind] in H.
  destruct (make_key c (info s1 (dflt (s_pid (cx_sample cx)))) b cx) as [b1 k] eqn:E3.
  destruct (checked (s_ip (cx_sample cx)) (cx_map cx)) as [ip| | | |] eqn:C1; try discriminate H. cbn [obind] in H.
  apply checked_eq in C1.
  match type of H with obind ?e _ = _ => destruct e as [data| | | |] eqn:D; try discriminate H end. cbn [obind] in H.
  rewrite lbr_eq, chain_frames_eq, branch_frames_eq in H.
  assert (F : (ip, cx_map cx) :: callchain_frames cx ++ branch_sources cx = code_frames cx)
    by (unfold code_frames; now rewrite C1).
  match type of H with context [data ++ ?f] => replace f with (code_frames cx) in H by (symmetry; exact F) end.
  assert (D' : data ++ code_frames cx = stack_frames c cx).
  { unfold stack_frames. rewrite <- data_frames_bit. destruct (opted c kAddDataAddressFrames).
    - destruct (checked (dflt (s_addr (cx_sample cx))) (cx_addr cx)) as [a| | | |] eqn:C2; try discriminate D.
      cbn [obind] in D. injection D as <-. apply checked_eq in C2. now rewrite C2.
    - injection D as <-. reflexivity. }
  rewrite D' in H.
  match type of H with obind ?e _ = _ => destruct e as [[[pi2 b2] ids]| | | |] eqn:E4; try discriminate H end.
  cbn [obind] in H.
  match type of H with obind ?e _ = _ => destruct e as [[s2 r2]| | | |] eqn:E5; try discriminate H end.
  cbn [obind] in H. injection H as <- <-. apply at_ok in E2.
  exists s1, bi, b, b1, k, pi2, b2, ids, r2. repeat split; auto.
Qed.
