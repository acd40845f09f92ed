(** Tables of the converter's profiles: ids, locations, mappings. *)
From Coq Require Import String.
From Verif Require Import Base BytesModel TextModel Assoc ProfileModel BuilderModel BuilderSpec BuilderProofs
  SpeModel PerfProto NormalizerModel NormalizerSpec NormalizerProofs ConverterModel ConverterSpec ConverterProofs
  ConverterOpenProofs.
Local Open Scope N_scope.
Local Open Scope list_scope.

(** * Soundness of a table under construction *)
Definition str_ok (L i : Z) : Prop := (0 <= i < L)%Z.

Record refs_in (L : Z) (p : profile) : Prop := {
  ri_types : forall t, In t (pf_sample_type p) -> str_ok L (vt_type t) /\ str_ok L (vt_unit t);
  ri_maps : forall m, In m (pf_mapping p) -> str_ok L (mp_file m) /\ str_ok L (mp_build m);
  ri_labels : forall s l, In s (pf_sample p) -> In l (ps_label s) ->
     str_ok L (lb_key l) /\ str_ok L (lb_str l) /\ str_ok L (lb_unit l);
  ri_comments : forall i, In i (pf_comment p) -> str_ok L i;
  ri_default : str_ok L (pf_default_type p) }.

Lemma str_ok_mono L L' i : (L <= L')%Z -> str_ok L i -> str_ok L' i.
Proof. unfold str_ok. lia. Qed.

Lemma refs_in_mono L L' p : (L <= L')%Z -> refs_in L p -> refs_in L' p.
Proof.
  intros H [A B C D E]. pose proof (str_ok_mono L L') as M. constructor.
  - intros t Ht. destruct (A t Ht). auto.
  - intros t Ht. destruct (B t Ht). auto.
  - intros s l Hs Hl. destruct (C s l Hs Hl) as (X & Y & Z). auto.
  - intros i Hi. auto.
  - auto.
Qed.

Definition nstr (b : builder) : Z := Z.of_nat (List.length (pf_string (b_profile b))).

Record core (b : builder) : Prop := {
  co_tab : tables b;
  co_err : b_error b = false;
  co_map : dense (map mp_id (pf_mapping (b_profile b)));
  co_loc : dense (map lc_id (pf_location (b_profile b)));
  co_lm : forall l, In l (pf_location (b_profile b)) ->
    lc_mapping l <= N.of_nat (List.length (pf_mapping (b_profile b))) /\ (lc_mapping l = 0 -> lc_addr l = 0);
  co_sam : forall s, In s (pf_sample (b_profile b)) ->
    ps_loc s <> [] /\
    (forall i, In i (ps_loc s) -> 1 <= i <= N.of_nat (List.length (pf_location (b_profile b)))) /\
    List.length (ps_val s) = List.length (pf_sample_type (b_profile b));
  co_str : refs_in (nstr b) (b_profile b) }.

Lemma grows_nstr b b' : grows b b' -> (nstr b <= nstr b')%Z.
Proof. intros G. unfold nstr. destruct (gr_str _ _ G) as (t & ->). rewrite app_length. lia. Qed.

Lemma sx_core b b' : sx b b' -> core b -> core b'.
Proof.
  intros (A & B & C & D) [T E M L LM S R]. destruct (D T) as (T' & G).
  pose proof (grows_nstr _ _ G) as N.
  constructor; try exact T'; try congruence; try (rewrite A; assumption).
  apply (refs_in_mono _ (nstr b') _ N) in R. destruct R as [R1 R2 R3 R4 R5].
  constructor; rewrite A; assumption.
Qed.

Lemma den_str_ok b s i : den b s i -> str_ok (nstr b) i.
Proof.
  intros (_ & A & B). unfold str_ok, nstr. apply nth_error_len_some in B. lia.
Qed.

Lemma dense_app_one l n : dense l -> n = N.of_nat (List.length l) + 1 -> dense (l ++ [n]).
Proof.
  intros D -> k. rewrite app_length. cbn [List.length].
  destruct (Nat.ltb_spec k (List.length l + 1)) as [H|H].
  - destruct (Nat.eq_dec k (List.length l)) as [->|Hk].
    + rewrite nth_error_app2, Nat.sub_diag by lia. reflexivity.
    + rewrite nth_error_app1 by lia. rewrite D.
      destruct (Nat.ltb_spec k (List.length l)); [reflexivity|lia].
  - apply nth_error_None. rewrite app_length. cbn. lia.
Qed.

Lemma dense_at l k n : dense l -> nth_error l k = Some n -> n = N.of_nat k + 1.
Proof. intros D H. rewrite D in H. destruct (k <? List.length l)%nat; [now injection H|discriminate]. Qed.

(** * Caches *)

(** The cached id of mapping [q] is that of a mapping whose range [R] allows. *)
Definition map_at (R : ptr -> N -> N -> Prop) (p : profile) (q : ptr) (id : N) : Prop :=
  1 <= id /\ exists m, nth_error (pf_mapping p) (N.to_nat (id - 1)) = Some m /\ R q (mp_start m) (mp_limit m).
Definition maps_ok R (b : builder) (pi : pinfo) : Prop :=
  forall q id, aget Nat.eqb q (pi_map pi) = Some id -> map_at R (b_profile b) q id.
Definition locs_ok (b : builder) (pi : pinfo) : Prop :=
  forall a id, aget N.eqb a (pi_loc pi) = Some id -> location_at (b_profile b) id a.

Lemma map_at_gx R b b' q id : gx b b' -> map_at R (b_profile b) q id -> map_at R (b_profile b') q id.
Proof.
  intros G (A & m & B & C). split; [exact A|]. exists m. split; [|exact C].
  destruct (gx_map _ _ G) as (t & ->). rewrite nth_error_app1; [exact B|]. exact (nth_error_len_some _ _ _ B).
Qed.

Lemma location_at_gx b b' id a : gx b b' -> location_at (b_profile b) id a -> location_at (b_profile b') id a.
Proof.
  intros G (l & A & B). exists l. split; [|exact B].
  destruct (gx_loc _ _ G) as (t & ->). rewrite nth_error_app1; [exact A|]. exact (nth_error_len_some _ _ _ A).
Qed.

Lemma maps_ok_gx R b b' pi : gx b b' -> maps_ok R b pi -> maps_ok R b' pi.
Proof. intros G H q id E. eapply map_at_gx; [exact G|]. now apply H. Qed.
Lemma locs_ok_gx b b' pi : gx b b' -> locs_ok b pi -> locs_ok b' pi.
Proof. intros G H q id E. eapply location_at_gx; [exact G|]. now apply H. Qed.

Lemma location_at_inj p id a a' : location_at p id a -> location_at p id a' -> a = a'.
Proof. intros (l & A & _ & _ & B) (l' & A' & _ & _ & B'). rewrite A in A'. injection A' as <-. congruence. Qed.

Lemma sx_gx_core b b' : sx b b' -> core b -> core b' /\ gx b b'.
Proof. intros X C. split; [exact (sx_core _ _ X C)|exact (sx_gx _ _ X)]. Qed.

(** What adding mappings and locations leaves of the cache. *)
Definition same_rest (pi pi' : pinfo) : Prop :=
  pi_builder pi' = pi_builder pi /\ pi_comm pi' = pi_comm pi /\ pi_sample pi' = pi_sample pi.
Lemma same_rest_refl pi : same_rest pi pi. Proof. repeat split. Qed.
Lemma same_rest_trans a b c : same_rest a b -> same_rest b c -> same_rest a c.
Proof. unfold same_rest. intuition congruence. Qed.

Lemma add_mapping_spec R pi b o pi' b' id :
  core b -> maps_ok R b pi -> (forall q m, o = Some (q, m) -> R q (hm_start m) (hm_limit m)) ->
  add_mapping pi b o = Ok (pi', b', id) ->
  core b' /\ maps_ok R b' pi' /\ pi_loc pi' = pi_loc pi /\ same_rest pi pi' /\
  match o with None => id = 0 | Some (q, _) => map_at R (b_profile b') q id end /\
  (o <> None -> pi_map pi = [] -> pf_mapping (b_profile b') <> []).
Proof.
  intros C M HR H. pose proof (add_mapping_gx _ _ _ _ _ _ H) as (G & _ & _). revert H.
  unfold add_mapping. destruct o as [[q m]|].
  2:{ intros H. injection H as <- <- <-. split; [exact C|]. split; [exact M|]. do 2 (split; [repeat split|]).
      split; [reflexivity|]. congruence. }
  destruct (aget Nat.eqb q (pi_map pi)) as [i|] eqn:Q.
  { intros H. injection H as <- <- <-. split; [exact C|]. split; [exact M|]. do 2 (split; [repeat split|]).
    split; [exact (M _ _ Q)|]. intros _ E. rewrite E in Q. discriminate Q. }
  destruct (if is_empty (fst (hm_build m)) then (b, 0%Z) else utf8_id b (fst (hm_build m))) as [b1 build] eqn:E1.
  assert (X1 : sx b b1 /\ str_ok (nstr b1) build).
  { destruct (is_empty (fst (hm_build m))).
    - injection E1 as <- <-. split; [apply sx_refl|]. exact (den_str_ok _ _ _ (den0 b (co_tab _ C))).
    - split; [exact (string_id_sx _ _ _ _ E1)|]. exact (den_str_ok _ _ _ (string_id_den _ _ _ _ (co_tab _ C) E1)). }
  destruct X1 as (X1 & K1). pose proof (sx_core _ _ X1 C) as C1.
  destruct (utf8_id b1 (mapping_filename m)) as [b2 file] eqn:E2.
  pose proof (string_id_sx _ _ _ _ E2) as X2.
  pose proof (den_str_ok _ _ _ (string_id_den _ _ _ _ (co_tab _ C1) E2)) as K2.
  pose proof (sx_core _ _ X2 C1) as C2.
  assert (K1' : str_ok (nstr b2) build).
  { eapply str_ok_mono; [|exact K1]. apply grows_nstr. apply X2. exact (co_tab _ C1). }
  pose proof (sx_trans _ _ _ X1 X2) as X. clear X1 X2 K1 E1 E2 C1.
  destruct (hm_start m <=? hm_limit m); [|discriminate].
  set (pm := {| mp_id := _ |}). intros H. injection H as <- <- <-.
  assert (LM : pf_mapping (b_profile b2) = pf_mapping (b_profile b)) by (destruct X as (A & _); now rewrite A).
  set (b' := with_profile b2 _) in *.
  assert (PM : pf_mapping (b_profile b') = pf_mapping (b_profile b2) ++ [pm]) by reflexivity.
  assert (AT : map_at R (b_profile b') q (N.of_nat (List.length (pf_mapping (b_profile b))) + 1)).
  { split; [clear; lia|]. exists pm. rewrite PM. split; [|exact (HR q m eq_refl)].
    replace (N.to_nat _) with (List.length (pf_mapping (b_profile b))) by lia.
    rewrite <- LM. rewrite nth_error_app2, Nat.sub_diag by lia. reflexivity. }
  split; [|split; [|split; [|split; [|split]]]].
  - destruct C2 as [T E Mp L Lm S Rf]. constructor.
    + apply tables_with; try reflexivity. exact T.
    + exact E.
    + rewrite PM, map_app. apply dense_app_one; [exact Mp|]. rewrite map_length, LM. reflexivity.
    + exact L.
    + intros l Hl. destruct (Lm l Hl) as (A & B). split; [|exact B]. rewrite PM, app_length. clear - A. lia.
    + exact S.
    + destruct Rf as [R1 R2 R3 R4 R5]. constructor; try assumption.
      intros m0 Hm. rewrite PM in Hm. apply in_app_or in Hm. destruct Hm as [Hm|[<-|[]]]; [now apply R2|].
      split; assumption.
  - intros q' id' E. cbn [pi_map pi_set_map] in E. rewrite aget_aset in E.
    destruct (Nat.eqb_spec q' q) as [->|_]; [now injection E as <-|].
    eapply map_at_gx; [exact G|]. now apply M.
  - reflexivity.
  - repeat split.
  - exact AT.
  - intros _ _ E. rewrite PM in E. now destruct (pf_mapping (b_profile b2)).
Qed.

Lemma add_location_spec R pi b a o pi' b' id :
  core b -> maps_ok R b pi -> locs_ok b pi ->
  (forall q m, o = Some (q, m) -> R q (hm_start m) (hm_limit m)) ->
  add_location pi b a o = Ok (pi', b', id) ->
  core b' /\ maps_ok R b' pi' /\ locs_ok b' pi' /\ same_rest pi pi' /\
  aget N.eqb a (pi_loc pi') = Some id /\
  (forall x i, aget N.eqb x (pi_loc pi) = Some i -> aget N.eqb x (pi_loc pi') = Some i) /\
  (forall x i, aget N.eqb x (pi_loc pi') = Some i ->
     aget N.eqb x (pi_loc pi) = Some i \/ N.of_nat (List.length (pf_location (b_profile b))) < i) /\
  (locations_inside (b_profile b) ->
   (forall q m s l, o = Some (q, m) -> R q s l -> s <= a < l) -> locations_inside (b_profile b')).
Proof.
  intros C M L HR H. pose proof (add_location_gx _ _ _ _ _ _ _ H) as (G & _). revert H.
  unfold add_location. destruct (aget N.eqb a (pi_loc pi)) as [i|] eqn:A.
  { intros H. injection H as <- <- <-. do 3 (split; [assumption|]). split; [apply same_rest_refl|].
    split; [exact A|]. auto. }
  intros H. destruct (add_mapping pi b o) as [[[pi1 b1] mid]| | | |] eqn:E; try discriminate H.
  cbn [obind] in H. pose proof (add_mapping_gx _ _ _ _ _ _ E) as (G1 & _ & L1).
  destruct (add_mapping_spec R _ _ _ _ _ _ C M HR E) as (C1 & M1 & PL & SR & AT & _).
  destruct ((mid =? 0) && negb (a =? 0)) eqn:Z; [discriminate H|].
  set (ln := {| lc_id := _ |}) in H. injection H as <- <- <-.
  set (b' := with_profile b1 _) in *. set (pi' := pi_set_loc _ pi1) in *.
  set (n := N.of_nat (List.length (pf_location (b_profile b)))) in *.
  assert (PM : pf_location (b_profile b') = pf_location (b_profile b1) ++ [ln]) by reflexivity.
  assert (LA : location_at (b_profile b') (n + 1) a).
  { exists ln. rewrite PM, L1. split; [|split; [clear; lia|split; reflexivity]].
    replace (N.to_nat _) with (List.length (pf_location (b_profile b))) by (unfold n; lia).
    rewrite nth_error_app2, Nat.sub_diag by lia. reflexivity. }
  assert (MID : mid <= N.of_nat (List.length (pf_mapping (b_profile b1)))).
  { destruct o as [[q m]|]; [|subst mid; clear; lia]. destruct AT as (A1 & m0 & A2 & _).
    apply nth_error_len_some in A2. clear - A1 A2. lia. }
  split; [|split; [|split; [|split; [|split; [|split; [|split]]]]]].
  - destruct C1 as [T Er Mp Lc Lm S Rf]. constructor; try assumption.
    + apply tables_with; try reflexivity. exact T.
    + rewrite PM, map_app. apply dense_app_one; [exact Lc|]. rewrite map_length, L1. reflexivity.
    + intros l Hl. rewrite PM in Hl. apply in_app_or in Hl. destruct Hl as [Hl|[<-|[]]]; [now apply Lm|].
      cbn [lc_mapping lc_addr ln]. split; [exact MID|]. intros ->. cbn in Z.
      destruct (N.eqb_spec a 0); [assumption|discriminate Z].
    + intros s Hs. destruct (S s Hs) as (S1 & S2 & S3). split; [exact S1|]. split; [|exact S3].
      intros i Hi. specialize (S2 i Hi). rewrite PM, app_length. clear - S2. lia.
    + destruct Rf as [R1 R2 R3 R4 R5]. constructor; assumption.
  - exact M1.
  - intros x i E'. unfold pi' in E'. cbn [pi_loc pi_set_loc] in E'. rewrite aget_aset in E'.
    destruct (N.eqb_spec x a) as [->|_]; [injection E' as <-; exact LA|].
    rewrite PL in E'. eapply location_at_gx; [exact G|]. now apply L.
  - exact SR.
  - unfold pi'. cbn [pi_loc pi_set_loc]. rewrite aget_aset, N.eqb_refl. reflexivity.
  - intros x i Hx. unfold pi'. cbn [pi_loc pi_set_loc]. rewrite aget_aset, PL.
    destruct (N.eqb_spec x a) as [->|_]; [rewrite A in Hx; discriminate Hx|exact Hx].
  - intros x i. unfold pi'. cbn [pi_loc pi_set_loc]. rewrite aget_aset, PL.
    destruct (N.eqb_spec x a) as [->|_]; [|auto]. intros Hx. injection Hx as <-. right. clear. lia.
  - intros IN Hin l Hl. rewrite PM in Hl. apply in_app_or in Hl. destruct Hl as [Hl|[<-|[]]].
    + rewrite L1 in Hl. destruct (IN l Hl) as [IN'|(m & Hm & IN')]; [now left|]. right. exists m.
      split; [|exact IN']. change (pf_mapping (b_profile b')) with (pf_mapping (b_profile b1)).
      destruct (gx_map _ _ G1) as (t & ->). apply in_or_app. now left.
    + cbn [lc_mapping lc_addr ln]. destruct o as [[q m]|].
      * destruct AT as (A1 & m0 & A2 & A3). right. exists m0.
        change (pf_mapping (b_profile b')) with (pf_mapping (b_profile b1)).
        split; [exact (nth_error_In _ _ A2)|]. split; [|exact (Hin _ _ _ _ eq_refl A3)].
        pose proof (dense_at _ (N.to_nat (mid - 1)) (mp_id m0) (co_map _ C1)) as D.
        rewrite nth_error_map, A2 in D. rewrite (D eq_refl). clear - A1. lia.
      * subst mid. left. split; [reflexivity|]. cbn in Z. destruct (N.eqb_spec a 0); [assumption|discriminate Z].
Qed.

Lemma add_locations_spec R fs : forall pi b pi' b' ids,
  core b -> maps_ok R b pi -> locs_ok b pi ->
  (forall a q m, In (a, Some (q, m)) fs -> R q (hm_start m) (hm_limit m)) ->
  add_locations pi b fs = Ok (pi', b', ids) ->
  core b' /\ maps_ok R b' pi' /\ locs_ok b' pi' /\ same_rest pi pi' /\
  Forall2 (fun f id => aget N.eqb (fst f) (pi_loc pi') = Some id) fs ids /\
  (forall x i, aget N.eqb x (pi_loc pi) = Some i -> aget N.eqb x (pi_loc pi') = Some i) /\
  (forall x i, aget N.eqb x (pi_loc pi') = Some i ->
     aget N.eqb x (pi_loc pi) = Some i \/ N.of_nat (List.length (pf_location (b_profile b))) < i) /\
  (locations_inside (b_profile b) ->
   (forall a q m s l, In (a, Some (q, m)) fs -> R q s l -> s <= a < l) -> locations_inside (b_profile b')).
Proof.
  induction fs as [|[a o] fs IH]; intros pi b pi' b' ids C M L HR H; cbn [add_locations] in H.
  - injection H as <- <- <-. do 3 (split; [assumption|]). split; [apply same_rest_refl|]. split; [constructor|]. auto.
  - destruct (add_location pi b a o) as [[[pi1 b1] id]| | | |] eqn:E; try discriminate H.
    cbn [obind] in H.
    destruct (add_locations pi1 b1 fs) as [[[pi2 b2] ids2]| | | |] eqn:E2; try discriminate H.
    cbn [obind] in H. injection H as <- <- <-.
    assert (HR1 : forall q m, o = Some (q, m) -> R q (hm_start m) (hm_limit m)).
    { intros q m ->. apply (HR a q m). now left. }
    destruct (add_location_spec R _ _ _ _ _ _ _ C M L HR1 E) as (C1 & M1 & L1 & S1 & A1 & P1 & F1 & I1).
    assert (HR2 : forall a q m, In (a, Some (q, m)) fs -> R q (hm_start m) (hm_limit m)).
    { intros a' q m Hin. apply (HR a' q m). now right. }
    destruct (IH _ _ _ _ _ C1 M1 L1 HR2 E2) as (C2 & M2 & L2 & S2 & A2 & P2 & F2 & I2).
    do 3 (split; [assumption|]). split; [exact (same_rest_trans _ _ _ S1 S2)|].
    split; [constructor; [now apply P2|exact A2]|].
    split; [auto|]. split.
    + intros x i Hx. destruct (F2 x i Hx) as [Hx'|Hx'].
      * exact (F1 x i Hx').
      * right. apply add_location_gx in E. destruct E as (G & _). destruct (gx_loc _ _ G) as (t & T).
        rewrite T, app_length in Hx'. clear - Hx'. lia.
    + intros IN Hin. apply I2; [apply I1; [exact IN|]|].
      * intros q m s l -> Hr. apply (Hin a q m s l); [now left|exact Hr].
      * intros a' q m s l Hi. apply (Hin a' q m s l). now right.
Qed.

(** * New profiles *)
Lemma core0 : core builder0.
Proof.
  constructor.
  - exact tables0.
  - reflexivity.
  - intros [|k]; reflexivity.
  - intros [|k]; reflexivity.
  - intros l [].
  - intros s [].
  - constructor; try solve [intros ? []]; try solve [intros ? ? []]. split; [vm_compute; discriminate|vm_compute; reflexivity].
Qed.

(** An update of the profile that keeps everything but the types, comments and
    default type. *)
Lemma core_update b p :
  core b -> pf_string p = pf_string (b_profile b) -> pf_function p = pf_function (b_profile b) ->
  pf_mapping p = pf_mapping (b_profile b) -> pf_location p = pf_location (b_profile b) ->
  pf_sample p = pf_sample (b_profile b) ->
  (pf_sample (b_profile b) = [] \/ pf_sample_type p = pf_sample_type (b_profile b)) ->
  (forall t, In t (pf_sample_type p) -> str_ok (nstr b) (vt_type t) /\ str_ok (nstr b) (vt_unit t)) ->
  (forall i, In i (pf_comment p) -> str_ok (nstr b) i) -> str_ok (nstr b) (pf_default_type p) ->
  core (with_profile b p).
Proof.
  intros [T E M L LM S [R1 R2 R3 R4 R5]] H1 H2 H3 H4 H5 H6 H7 H8 H9.
  assert (N : nstr (with_profile b p) = nstr b) by (unfold nstr; cbn [b_profile with_profile]; now rewrite H1).
  constructor; cbn [b_profile with_profile b_error]; rewrite ?H3, ?H4, ?H5; try assumption.
  - apply tables_with; assumption.
  - intros s Hs. destruct (S s Hs) as (A & B & C). split; [exact A|]. split; [exact B|].
    destruct H6 as [H6|H6]; [rewrite H6 in Hs; destruct Hs|congruence].
  - rewrite N. constructor; rewrite ?H3, ?H5; assumption.
Qed.

Lemma add_types_spec ns : forall b n last b' last',
  core b -> pf_sample (b_profile b) = [] -> str_ok (nstr b) last ->
  add_types b n ns last = (b', last') ->
  core b' /\ str_ok (nstr b') last' /\ pf_sample (b_profile b') = [] /\
  pf_mapping (b_profile b') = pf_mapping (b_profile b) /\
  pf_location (b_profile b') = pf_location (b_profile b) /\
  List.length (pf_sample_type (b_profile b')) =
    (List.length (pf_sample_type (b_profile b)) + 2 * List.length ns)%nat.
Proof.
  induction ns as [|o ns IH]; intros b n l b' l' C S SL H; cbn [add_types] in H.
  - injection H as <- <-. do 5 (split; [assumption || reflexivity|]). cbn [List.length]. lia.
  - destruct (match o with
              | Some s => (s ++ str "_", n)
              | None => (str "event_" ++ print_dec n ++ str "_", n + 1) end) as [name n'].
    destruct (utf8_id b (name ++ str "sample")) as [b1 ts] eqn:E1.
    destruct (string_id b1 (str "count")) as [b2 us] eqn:E2.
    destruct (utf8_id b2 (name ++ str "event")) as [b3 te] eqn:E3.
    destruct (string_id b3 (str "count")) as [b4 ue] eqn:E4.
    pose proof (string_id_sx _ _ _ _ E1) as X1. pose proof (sx_core _ _ X1 C) as C1.
    pose proof (string_id_sx _ _ _ _ E2) as X2. pose proof (sx_core _ _ X2 C1) as C2.
    pose proof (string_id_sx _ _ _ _ E3) as X3. pose proof (sx_core _ _ X3 C2) as C3.
    pose proof (string_id_sx _ _ _ _ E4) as X4. pose proof (sx_core _ _ X4 C3) as C4.
    pose proof (den_str_ok _ _ _ (string_id_den _ _ _ _ (co_tab _ C) E1)) as K1.
    pose proof (den_str_ok _ _ _ (string_id_den _ _ _ _ (co_tab _ C1) E2)) as K2.
    pose proof (den_str_ok _ _ _ (string_id_den _ _ _ _ (co_tab _ C2) E3)) as K3.
    pose proof (den_str_ok _ _ _ (string_id_den _ _ _ _ (co_tab _ C3) E4)) as K4.
    assert (N2 : (nstr b1 <= nstr b2)%Z) by (apply grows_nstr, X2, (co_tab _ C1)).
    assert (N3 : (nstr b2 <= nstr b3)%Z) by (apply grows_nstr, X3, (co_tab _ C2)).
    assert (N4 : (nstr b3 <= nstr b4)%Z) by (apply grows_nstr, X4, (co_tab _ C3)).
    pose proof (sx_trans _ _ _ X1 (sx_trans _ _ _ X2 (sx_trans _ _ _ X3 X4))) as X.
    destruct X as (P & _ & _ & _).
    assert (S4 : pf_sample (b_profile b4) = []) by (rewrite P; exact S).
    set (b5 := with_profile b4 _) in H.
    assert (C5 : core b5).
    { apply core_update; try reflexivity; try exact C4.
      - now left.
      - intros t Ht. apply in_app_or in Ht. destruct Ht as [Ht|[<-|[<-|[]]]].
        + now apply (ri_types _ _ (co_str _ C4)).
        + cbn [vt_type vt_unit]. clear - K1 K2 N2 N3 N4. unfold str_ok in *. lia.
        + cbn [vt_type vt_unit]. clear - K3 K4 N2 N3 N4. unfold str_ok in *. lia.
      - apply (ri_comments _ _ (co_str _ C4)).
      - apply (ri_default _ _ (co_str _ C4)). }
    apply IH in H; [|exact C5|exact S4|].
    + destruct H as (A1 & A2 & A3 & A4 & A5 & A6). do 3 (split; [assumption|]).
      split; [rewrite A4; unfold b5; cbn [b_profile with_profile pf_mapping set_sample_type]; rewrite P; reflexivity|].
      split; [rewrite A5; unfold b5; cbn [b_profile with_profile pf_location set_sample_type]; rewrite P; reflexivity|].
      rewrite A6. unfold b5. cbn [b_profile with_profile pf_sample_type set_sample_type].
      rewrite P. cbn [pf_sample_type set_string]. rewrite app_length. cbn [List.length]. lia.
    + change (nstr b5) with (nstr b4). eapply str_ok_mono; [exact N4|exact K3].
Qed.

Lemma add_comment_spec b p o :
  core b -> core (add_comment b p o) /\
  pf_mapping (b_profile (add_comment b p o)) = pf_mapping (b_profile b) /\
  pf_location (b_profile (add_comment b p o)) = pf_location (b_profile b) /\
  pf_sample_type (b_profile (add_comment b p o)) = pf_sample_type (b_profile b).
Proof.
  intros C. unfold add_comment. destruct o as [v|]; [|auto].
  destruct (utf8_id b (p ++ v)) as [b1 i] eqn:E.
  pose proof (string_id_sx _ _ _ _ E) as X. pose proof (sx_core _ _ X C) as C1.
  pose proof (den_str_ok _ _ _ (string_id_den _ _ _ _ (co_tab _ C) E)) as K.
  destruct X as (P & _). split.
  - apply core_update; try reflexivity; try exact C1.
    + right. reflexivity.
    + apply (ri_types _ _ (co_str _ C1)).
    + intros j Hj. apply in_app_or in Hj. destruct Hj as [Hj|[<-|[]]]; [now apply (ri_comments _ _ (co_str _ C1))|exact K].
    + apply (ri_default _ _ (co_str _ C1)).
  - cbn [b_profile with_profile pf_mapping pf_location pf_sample_type set_comment]. rewrite P. auto.
Qed.

Lemma event_names_length c : List.length (event_names (cf_data c)) = events c.
Proof.
  unfold event_names, events. destruct (Nat.eqb_spec (List.length (pp_attrs (cf_data c))) (List.length (pp_types (cf_data c)))).
  - congruence.
  - apply map_length.
Qed.

Lemma new_builder_spec (R : ptr -> N -> N -> Prop) c pi o pi' b :
  pi_map pi = [] -> (forall q m, o = Some (q, m) -> R q (hm_start m) (hm_limit m)) ->
  new_builder c pi o = Ok (pi', b) ->
  core b /\ maps_ok R b pi' /\ pi_loc pi' = pi_loc pi /\ same_rest pi pi' /\
  pf_sample (b_profile b) = [] /\ pf_location (b_profile b) = [] /\ pf_mapping (b_profile b) <> [] /\
  List.length (pf_sample_type (b_profile b)) = (2 * events c)%nat.
Proof.
  intros EM HR. unfold new_builder. intros H. pose proof (new_builder_samples _ _ _ _ _ H) as S0.
  destruct (add_types builder0 0 (event_names (cf_data c)) 0) as [b0 last] eqn:E.
  apply add_types_spec in E; [|exact core0|reflexivity|split; [vm_compute; discriminate|vm_compute; reflexivity]].
  destruct E as (C0 & K & S & M & L & T). rewrite event_names_length in T. cbn in M, L, T.
  set (b1 := with_profile b0 (set_default_type last (b_profile b0))) in H.
  assert (C1 : core b1).
  { apply core_update; try reflexivity; try exact C0; try (now left).
    - apply (ri_types _ _ (co_str _ C0)).
    - apply (ri_comments _ _ (co_str _ C0)).
    - exact K. }
  match type of H with obind ?e _ = _ => destruct e as [[pi1 b2]| | | |] eqn:E2; try discriminate H end.
  cbn [obind] in H. injection H as <- <-.
  assert (X : core b2 /\ maps_ok R b2 pi1 /\ pi_loc pi1 = pi_loc pi /\ same_rest pi pi1 /\
    pf_mapping (b_profile b2) <> [] /\ pf_location (b_profile b2) = [] /\
    pf_sample_type (b_profile b2) = pf_sample_type (b_profile b0)).
  { destruct o as [m|].
    - destruct (add_mapping pi b1 (Some m)) as [[[pi3 b3] id]| | | |] eqn:E3; try discriminate E2.
      cbn [obind] in E2. injection E2 as <- <-. pose proof (add_mapping_gx _ _ _ _ _ _ E3) as (G & _ & L3).
      apply (add_mapping_spec R) in E3; [|exact C1|intros q i; rewrite EM; discriminate|exact HR].
      destruct E3 as (A1 & A2 & A3 & A4 & _ & A6). do 4 (split; [assumption|]).
      split; [apply A6; [discriminate|exact EM]|]. split; [rewrite L3; exact L|].
      rewrite (gx_types _ _ G). reflexivity.
    - injection E2 as <- <-. cbn [b_profile with_profile pf_mapping pf_location pf_sample_type set_mapping set_default_type].
      split; [|split; [intros q i; rewrite EM; discriminate|split; [reflexivity|split; [apply same_rest_refl|]]]].
      + destruct C1 as [Tb Er Mp Lc Lm Sm [R1 R2 R3 R4 R5]].
        constructor; cbn [b_profile with_profile pf_mapping pf_location pf_sample pf_sample_type set_mapping]; try assumption.
        * apply tables_with; try reflexivity. exact Tb.
        * unfold b1. cbn [b_profile with_profile pf_mapping set_default_type]. rewrite M.
          intros [|[|k]]; reflexivity.
        * unfold b1. cbn [b_profile with_profile pf_location set_default_type]. rewrite L. intros l [].
        * constructor; try assumption.
          intros m Hm. apply in_app_or in Hm. destruct Hm as [Hm|[<-|[]]]; [now apply R2|].
          pose proof (den_str_ok _ _ _ (den0 _ Tb)) as Z. split; exact Z.
      + rewrite M, L. split; [discriminate|]. split; reflexivity. }
  destruct X as (C2 & M2 & P2 & R2 & N2 & L2 & T2).
  destruct (add_comment_spec b2 (str "perf-version:") (pp_version (cf_data c)) C2) as (C3 & M3 & L3 & T3).
  destruct (add_comment_spec _ (str "perf-command:") (pp_command (cf_data c)) C3) as (C4 & M4 & L4 & T4).
  split; [exact C4|]. split.
  - intros q i Hq. destruct (M2 q i Hq) as (A & m & B & D). split; [exact A|]. exists m. now rewrite M4, M3.
  - do 2 (split; [assumption|]). split; [exact S0|]. split; [now rewrite L4, L3|].
    split; [now rewrite M4, M3|]. now rewrite T4, T3, T2.
Qed.

(** * New samples *)
Lemma emit_labels_core ls : forall b b' r,
  core b -> emit_labels b ls = (b', r) ->
  (forall w key i, In (w, key, LStr i) ls -> w = true -> str_ok (nstr b) i) ->
  forall l, In l r -> str_ok (nstr b') (lb_key l) /\ str_ok (nstr b') (lb_str l) /\ str_ok (nstr b') (lb_unit l).
Proof.
  induction ls as [|[[w key] v] ls IH]; intros b b' r C H HL; cbn [emit_labels] in H.
  { injection H as <- <-. intros l []. }
  destruct w.
  2:{ apply (IH b b' r C H). intros w k i Hin. apply (HL w k i). now right. }
  destruct (string_id b key) as [b1 ki] eqn:E1.
  pose proof (string_id_sx _ _ _ _ E1) as X1. pose proof (sx_core _ _ X1 C) as C1.
  pose proof (den_str_ok _ _ _ (string_id_den _ _ _ _ (co_tab _ C) E1)) as K1.
  assert (N1 : (nstr b <= nstr b1)%Z) by (apply grows_nstr, X1, (co_tab _ C)).
  assert (Z1 : str_ok (nstr b1) 0) by exact (den_str_ok _ _ _ (den0 _ (co_tab _ C1))).
  assert (X : exists b2 l r2, core b2 /\ (nstr b1 <= nstr b2)%Z /\ emit_labels b2 ls = (b', r2) /\ r = l :: r2 /\
    str_ok (nstr b2) (lb_key l) /\ str_ok (nstr b2) (lb_str l) /\ str_ok (nstr b2) (lb_unit l)).
  { destruct v as [i|s|n u].
    - destruct (emit_labels b1 ls) as [b2 r2] eqn:E2. injection H as <- <-. eexists b1, _, r2.
      split; [exact C1|]. split; [lia|]. split; [exact E2|]. split; [reflexivity|]. cbn [lb_key lb_str lb_unit].
      split; [exact K1|]. split; [|exact Z1]. eapply str_ok_mono; [exact N1|]. apply (HL true key i); [now left|reflexivity].
    - destruct (string_id b1 s) as [b2 i] eqn:E2.
      pose proof (string_id_sx _ _ _ _ E2) as X2. pose proof (sx_core _ _ X2 C1) as C2.
      pose proof (den_str_ok _ _ _ (string_id_den _ _ _ _ (co_tab _ C1) E2)) as K2.
      assert (N2 : (nstr b1 <= nstr b2)%Z) by (apply grows_nstr, X2, (co_tab _ C1)).
      destruct (emit_labels b2 ls) as [b3 r3] eqn:E3. injection H as <- <-. eexists b2, _, r3.
      split; [exact C2|]. split; [exact N2|]. split; [exact E3|]. split; [reflexivity|]. cbn [lb_key lb_str lb_unit].
      split; [eapply str_ok_mono; eassumption|]. split; [exact K2|]. eapply str_ok_mono; eassumption.
    - destruct (string_id b1 u) as [b2 i] eqn:E2.
      pose proof (string_id_sx _ _ _ _ E2) as X2. pose proof (sx_core _ _ X2 C1) as C2.
      pose proof (den_str_ok _ _ _ (string_id_den _ _ _ _ (co_tab _ C1) E2)) as K2.
      assert (N2 : (nstr b1 <= nstr b2)%Z) by (apply grows_nstr, X2, (co_tab _ C1)).
      destruct (emit_labels b2 ls) as [b3 r3] eqn:E3. injection H as <- <-. eexists b2, _, r3.
      split; [exact C2|]. split; [exact N2|]. split; [exact E3|]. split; [reflexivity|]. cbn [lb_key lb_str lb_unit].
      split; [eapply str_ok_mono; eassumption|]. split; [eapply str_ok_mono; eassumption|]. exact K2. }
  destruct X as (b2 & l & r2 & C2 & N2 & E2 & -> & K & KS & KU).
  assert (HL2 : forall w k i, In (w, k, LStr i) ls -> w = true -> str_ok (nstr b2) i).
  { intros w k i Hin Hw. eapply str_ok_mono; [|apply (HL w k i); [now right|exact Hw]]. lia. }
  assert (N3 : (nstr b2 <= nstr b')%Z).
  { apply grows_nstr. apply emit_labels_sx in E2. apply E2. exact (co_tab _ C2). }
  intros l' [<-|Hl]; [|exact (IH b2 b' r2 C2 E2 HL2 l' Hl)].
  repeat split; try (eapply str_ok_mono; [exact N3|]; eassumption); apply (str_ok_mono _ _ _ N3); assumption.
Qed.

(** String fields of a key index the table. *)
Definition key_strings (b : builder) (k : skey) : Prop :=
  str_ok (nstr b) (sk_comm k) /\ str_ok (nstr b) (sk_type k) /\ str_ok (nstr b) (sk_tcomm k) /\
  str_ok (nstr b) (sk_cgroup k) /\ str_ok (nstr b) (sk_src k) /\ str_ok (nstr b) (sk_snoop k).

Lemma new_sample_spec c b sm k :
  core b -> key_strings b k -> sk_stack k <> [] ->
  (forall i, In i (sk_stack k) -> 1 <= i <= N.of_nat (List.length (pf_location (b_profile b)))) ->
  List.length (pf_sample_type (b_profile b)) = (2 * events c)%nat ->
  let b' := new_sample c b sm k in
  core b' /\ gx b b' /\ pf_location (b_profile b') = pf_location (b_profile b) /\
  pf_mapping (b_profile b') = pf_mapping (b_profile b) /\
  exists b1 ls, emit_labels b (label_list c sm k) = (b1, ls) /\
    pf_string (b_profile b') = pf_string (b_profile b1) /\
    pf_sample (b_profile b') = pf_sample (b_profile b) ++
      [{| ps_loc := sk_stack k; ps_val := repeat 0%Z (2 * events c); ps_label := ls |}].
Proof.
  intros C KS SN SI T. cbn zeta. unfold new_sample.
  destruct (emit_labels b (label_list c sm k)) as [b1 ls] eqn:E.
  pose proof (emit_labels_sx _ _ _ _ E) as X. pose proof (sx_core _ _ X C) as C1.
  assert (LS : forall l, In l ls -> str_ok (nstr b1) (lb_key l) /\ str_ok (nstr b1) (lb_str l) /\ str_ok (nstr b1) (lb_unit l)).
  { apply (emit_labels_core _ _ _ _ C E). destruct KS as (K1 & K2 & K3 & K4 & K5 & K6).
    intros w key i Hin _. unfold label_list in Hin. cbn [In] in Hin.
    repeat (destruct Hin as [Hin|Hin]; [injection Hin as _ _ Hi; first [discriminate Hi | subst i; assumption] || discriminate Hin|]).
    destruct Hin. }
  set (sa := {| ps_loc := _ |}). destruct X as (P & X2 & X3 & X4).
  assert (G : gx b b1) by (apply sx_gx; split; auto).
  split; [|split; [|split; [|split]]].
  - destruct C1 as [Tb Er Mp Lc Lm Sm [R1 R2 R3 R4 R5]].
    constructor; cbn [b_profile with_profile b_error pf_mapping pf_location pf_sample pf_sample_type set_sample]; try assumption.
    + apply tables_with; try reflexivity. exact Tb.
    + intros s Hs. apply in_app_or in Hs. destruct Hs as [Hs|[<-|[]]]; [now apply Sm|].
      cbn [ps_loc ps_val sa]. split; [exact SN|]. split; [rewrite P; exact SI|].
      rewrite repeat_length. rewrite P. cbn [pf_sample_type set_string]. symmetry. exact T.
    + constructor; try assumption. intros s l Hs Hl. cbn [pf_sample set_sample] in Hs. apply in_app_or in Hs.
      destruct Hs as [Hs|[<-|[]]]; [now apply (R3 s)|]. now apply LS.
  - eapply gx_trans; [exact G|]. constructor; try reflexivity.
    + apply tables_with; reflexivity.
    + exists []. now rewrite app_nil_r.
    + exists []. now rewrite app_nil_r.
    + exists [shape sa]. cbn [b_profile with_profile pf_sample set_sample]. now rewrite map_app.
  - cbn [b_profile with_profile pf_location set_sample]. now rewrite P.
  - cbn [b_profile with_profile pf_mapping set_sample]. now rewrite P.
  - exists b1, ls. split; [reflexivity|]. split; [reflexivity|].
    cbn [b_profile with_profile pf_sample set_sample]. rewrite P at 1. reflexivity.
Qed.
