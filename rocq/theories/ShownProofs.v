(** C66: mappings, build ids and header of the converted events. *)
From Coq Require Import String Permutation.
From Verif Require Import Base BytesModel TextModel TextProofs Assoc ProfileModel PerfProto NormalizerModel NormalizerSpec NormalizerProofs
  NormalizerStepProofs NormalizerMoreProofs NormalizerBuildProofs SerializerModel.
From Verif Require EventSizeProofs FileModel ReaderOpsModel ReaderOpsSpec ReaderOpsProps HugePageModel HugePageSpec HugePageProofs.
From Verif Require ConverterModel ConverterSpec ConverterHeadSpec OriginProofs.
From Verif Require Import PipelineModel PipelineSpec PipelineProofs RecordSpec ShownSpec.
Local Open Scope N_scope.
Local Open Scope list_scope.

(** ** Mappings of the events *)
Section Maps.
Variables (md5 : list N -> N) (xs : list x_event).
Import HugePageModel.

Definition W (i : N) (v : vmap) : Prop := exists x, nth_error xs (N.to_nat i) = Some x /\ mapping_of md5 xs x v.
Definition P (e : pevent) : Prop := forall v, e_map e = Some v -> W (e_other e) v.


(** A huge page renamed after a mapping. *)
Lemma w_renamed i v j n v' : W i v -> is_huge v = true -> W j n ->
  v_pid v' = v_pid v -> v_start v' = v_start v -> v_file v' = v_file n -> v_md5 v' = v_md5 n ->
  v_build v' = or_else (v_build n) (v_build v) -> W i v'.
Proof.
  intros (x & X & m & Ix & B & V1 & V2 & V3 & V4 & V5 & V6 & V7) Hu (y & _ & k & _ & _ & _ & _ & _ & U4 & U5 & U6 & U7) A1 A2 A3 A4 A5.
  exists x. split; [exact X|]. exists m. split; [exact Ix|]. split; [exact B|]. split; [congruence|]. split; [congruence|]. split.
  { intros NH. exfalso. destruct (V3 NH) as (F & _). apply NH. rewrite <- F. now apply HugePageProofs.huge_iff. }
  split. { intros Hb. rewrite A5. specialize (V4 Hb). destruct (v_build n); [discriminate|exact V4]. }
  split; [now rewrite A4, A3|]. split; [rewrite A3; exact U6|]. rewrite A5. destruct (v_build n); [exact U7|exact V7].
Qed.
Lemma w_same i v v' : W i v -> v_pid v' = v_pid v -> v_start v' = v_start v -> v_file v' = v_file v -> v_md5 v' = v_md5 v ->
  v_build v' = v_build v -> v_pgoff v' = v_pgoff v -> W i v'.
Proof.
  intros (x & X & m & Ix & B & V) A1 A2 A3 A4 A5 A6. exists x. split; [exact X|]. exists m. split; [exact Ix|]. split; [exact B|].
  now rewrite A1, A2, A3, A4, A5, A6.
Qed.

Definition good (em : pevent * vmap) : Prop := e_map (fst em) = Some (snd em) /\ W (e_other (fst em)) (snd em).
Lemma good_p em : good em -> P (fst em).
Proof. intros (A & B) v E. rewrite A in E. now injection E as <-. Qed.

Lemma update_p e m next pgoff j : good (e, m) -> is_huge m = true -> W j next -> P (update_one e m next pgoff).
Proof.
  intros (A & B) Hu Wn. unfold update_one. rewrite Hu. cbn [orb]. cbn zeta. intros v E.
  cbn [set_map e_map] in E. injection E as <-. cbn [fst snd] in *.
  match goal with |- W ?i _ => change i with (e_other e) end.
  eapply w_renamed; [exact B|exact Hu|exact Wn|..]; cbn; destruct (v_pgoff m =? 0); reflexivity.
Qed.
Lemma loop_p next j : W j next -> forall rng pgoff out pg, Forall good rng -> Forall (fun em => is_huge (snd em) = true) rng ->
  update_loop rng next pgoff = (out, pg) -> Forall P out.
Proof.
  intros Wn. induction rng as [|(e, m) rng IH]; intros pgoff out pg G Hu H; cbn [update_loop] in H; [injection H as <- _; constructor|].
  destruct (update_loop rng next _) as (o, q) eqn:U. injection H as <- _. inversion G; inversion Hu; subst.
  constructor; [eapply update_p; eauto|eapply IH; eauto].
Qed.
Lemma deduce_p : forall l pre rng out, Forall good rng -> Forall good l -> Forall (fun em => is_huge (snd em) = true) rng ->
  deduce_loop pre rng l = Ok out -> Forall P out.
Proof.
  assert (K : forall l, Forall good l -> Forall P (map fst l)).
  { intros l G. induction G; cbn; constructor; auto using good_p. }
  induction l as [|(e, m) l IH]; intros pre rng out G1 G2 Hu H; cbn [deduce_loop] in H; [injection H as <-; auto|].
  inversion G2 as [|? ? Ga Gb]; subst. destruct (is_huge m) eqn:Em.
  - destruct rng as [|(e0, first) rng].
    + refine (IH _ _ _ _ Gb _ H); [now constructor|]. constructor; [exact Em|constructor].
    + destruct (continues _ m) in H.
      * refine (IH _ _ _ _ Gb _ H); apply Forall_app; split; auto.
      * ok_inv H. injection H0 as <-. change (Forall P (map fst ((e0, first) :: rng) ++ a)). apply Forall_app. split; [now apply K|].
        refine (IH _ _ _ _ Gb _ E); [now constructor|]. constructor; [exact Em|constructor].
  - ok_inv H. ok_inv H0. injection H as <-. apply Forall_app. split.
    + destruct rng as [|(e0, first) rng]; [injection E as <-; constructor|].
      destruct (belongs _ _ _ _) in E; [|apply EventSizeProofs.Ok_inj in E; subst a; now apply K].
      unfold update_range in E. destruct (update_loop _ m _) as (o, q) eqn:U. destruct (_ =? _) in E; [|discriminate].
      injection E as <-. exact (loop_p m (e_other e) (proj2 Ga) _ _ _ _ G1 Hu U).
    + constructor; [exact (good_p _ Ga)|]. refine (IH _ _ _ _ Gb _ E0); constructor.
Qed.
Lemma take_good : forall ms evs, Forall P evs -> Forall good (take_mask ms evs).
Proof.
  induction ms as [|[] ms IH]; intros evs F; [destruct evs; constructor| |]; destruct F as [|e evs F1 F]; cbn [take_mask]; try constructor; auto.
  destruct (e_map e) eqn:M; auto. constructor; [split; [exact M|exact (F1 _ M)]|auto].
Qed.
Lemma put_p : forall ms evs new, Forall P evs -> Forall P new -> Forall P (put_mask ms evs new).
Proof.
  induction ms as [|[] ms IH]; intros evs new F G; cbn [put_mask]; [exact F| |].
  - destruct F as [|e evs F1 F]; [constructor|]. destruct G as [|y new G1 G]; constructor; auto.
  - destruct F as [|e evs F1 F]; constructor; auto.
Qed.
Lemma deduce_all_p : forall order evs out, Forall P evs -> deduce order evs = Ok out -> Forall P out.
Proof.
  induction order as [|k order IH]; intros evs out F H; cbn [deduce] in H; [now injection H as <-|].
  ok_inv H. refine (IH _ _ _ H0). unfold deduce_key in E. ok_inv E. injection H as <-.
  apply put_p; [exact F|]. refine (deduce_p _ _ _ _ _ _ _ E0); [constructor|now apply take_good|constructor].
Qed.

Lemma merge_p ea a j b : good (ea, a) -> W j b -> P (merge_into ea a b).
Proof.
  intros (A & B) Wb v E. cbn [fst snd] in *. rewrite (HugePageProofs.merge_into_map _ _ _ A) in E. injection E as <-.
  rewrite (proj2 (HugePageProofs.merge_into_rest ea a b)). unfold HugePageProofs.merged.
  destruct (is_huge a && negb (is_huge b)) eqn:Q.
  - apply andb_prop in Q as (Q & _). eapply w_renamed; [exact B|exact Q|exact Wb|reflexivity..].
  - eapply w_same; [exact B|reflexivity..].
Qed.
Lemma replace_p x : forall n l, P x -> Forall P l -> Forall P (replace_nth n x l).
Proof. intros n l Px F. revert n. induction F as [|y l F1 F IH]; intros [|n]; cbn; constructor; auto. Qed.
Lemma combine_p : forall evs out prev res, Forall P out -> Forall P evs -> combine_loop evs out prev = Ok res -> Forall P res.
Proof.
  induction evs as [|e evs IH]; intros out prev res F G H; cbn [combine_loop] in H; [now injection H as <-|].
  inversion G as [|? ? G1 G2]; subst.
  assert (AP : Forall P (out ++ [e])) by (apply Forall_app; auto).
  destruct (e_map e) as [m|] eqn:M; [|eauto].
  destruct (aget N.eqb (key_of m) prev) as [i|]; [|eauto]. destruct (nth_error out i) as [ea|] eqn:O; [|discriminate].
  destruct (e_map ea) as [a|] eqn:A; [|discriminate]. destruct (mergeable a m); [|eauto].
  refine (IH _ _ _ _ G2 H). apply replace_p; [|exact F]. apply nth_error_In in O. rewrite Forall_forall in F.
  eapply merge_p; [split; [exact A|exact (F ea O _ A)]|exact (G1 _ M)].
Qed.

Theorem huge_origin order evs x v : huge_pages md5 order xs = Ok evs -> In (x, Some v) evs -> mapping_of md5 xs x v.
Proof.
  unfold huge_pages. intros H I. ok_inv H. ok_inv H0. injection H as <-. apply in_map_iff in I as (e & Q & Ie).
  assert (F : Forall P (numbered (huge_view md5) xs)).
  { rewrite Forall_forall. intros e0 I0. apply numbered_in in I0 as (i & y & Y & ->). intros v0 E1. unfold huge_view in *. cbn [e_map e_other] in *.
    destruct (xe_body y) as [|m|?|?|?|?|?|?|?|?|?|?|?|?|?|?|?|?|?|?|?|?|?|? ?|?] eqn:B; try discriminate E1.
    injection E1 as <-. exists y. split; [now rewrite Nat2N.id|]. exists m. pose proof (nth_error_In _ _ Y) as Iy.
    assert (Im : In m (mappings xs)). { unfold mappings. apply in_flat_map. exists y. split; [exact Iy|]. rewrite B. now left. }
    split; [exact Iy|]. split; [exact B|]. cbn. repeat split; eauto. }
  pose proof (deduce_all_p _ _ _ F E) as F1. unfold combine_mappings in E0.
  pose proof (combine_p _ _ _ _ (Forall_nil _) F1 E0) as F2. rewrite Forall_forall in F2.
  injection Q as Q1 Q2. destruct (F2 e Ie v Q2) as (y & Y & M). rewrite (nth_error_nth _ _ nothing Y) in Q1. now subst y.
Qed.
End Maps.

(** The same of messages in another order. *)
Lemma mapping_perm md5 xs ys x v : Permutation xs ys -> mapping_of md5 ys x v -> mapping_of md5 xs x v.
Proof.
  intros Pm (m & Ix & B & V1 & V2 & V3 & V4 & V5 & (m1 & I1 & V6) & (m2 & I2 & V7)).
  assert (K : forall k, In k (mappings ys) -> In k (mappings xs)).
  { intros k. unfold mappings. rewrite !in_flat_map. intros (y & Iy & Hy). exists y. split; [|exact Hy].
    exact (Permutation_in _ (Permutation_sym Pm) Iy). }
  exists m. split; [exact (Permutation_in _ (Permutation_sym Pm) Ix)|]. do 6 (split; [assumption|]). split; eauto.
Qed.

(** ** Build ids *)
Lemma find_rev {A} (f : A -> bool) l : find f (rev l) = match rev (filter f l) with [] => None | b :: _ => Some b end.
Proof.
  induction l as [|a l IH] using rev_ind; [reflexivity|]. rewrite filter_app, !rev_app_distr. cbn [rev app find filter].
  destruct (f a); [reflexivity|]. exact IH.
Qed.
Lemma find_filter {A} (f : A -> bool) l : find f l = match filter f l with [] => None | b :: _ => Some b end.
Proof. induction l as [|a l IH]; [reflexivity|]. cbn. destruct (f a); auto. Qed.

Lemma build_shown p e m b : normalizer_env p = Ok e -> get_build_id e m = Ok b -> fst b = shown_id (pp_build_ids p) m.
Proof.
  unfold normalizer_env. pose proof (table_spec (pp_build_ids p)) as (T1 & T2). unfold table in *.
  destruct (fold_left add_build_id (pp_build_ids p) ([], [])) as (tab, k) eqn:F. cbn [fst snd] in *.
  intros H. ok_inv H. injection H0 as <-. unfold get_build_id, shown_id.
  set (name := name_or_md5 (mm_file m) (mm_md5 m)). cbn [ne_build ne_kernel].
  assert (R : fst (match aget list_eqb name tab with Some b0 => b0 | None => ([], SrcMissing) end) = id_of (pp_build_ids p) name).
  { rewrite T1. pose proof (build_in_last (pp_build_ids p) name) as L. unfold id_of, named. rewrite find_rev.
    destruct (build_in (pp_build_ids p) name) as [v|]; destruct (rev _); cbn in L; try discriminate L; [now injection L as ->|reflexivity]. }
  assert (Kn : k = kernel_id (pp_build_ids p)).
  { rewrite T2. unfold kernel_id. rewrite find_filter.
    rewrite (filter_ext (fun b0 => kernel_record b0 && negb (list_eqb (hex_of b0) [])) (fun b0 => of_kernel b0 && negb (list_eqb (id_text b0) []))).
    - destruct (filter _ _); reflexivity.
    - intros b0. reflexivity. }
  assert (Rest : forall (ff x : bid), fst ff = id_of (pp_build_ids p) name ->
      (if negb (is_empty (fst ff)) then Ok ff
       else if has_prefix name kernel_prefix then Ok (k, SrcKernelPrefix) else Ok ([], SrcMissing)) = Ok x ->
      fst x = match id_of (pp_build_ids p) name with c :: r => c :: r
              | [] => if begins (str "[kernel.kallsyms]") name then kernel_id (pp_build_ids p) else [] end).
  { intros ff x Q. rewrite <- Kn, <- Q. destruct ff as ([|c r], src); cbn [fst is_empty negb].
    - change (has_prefix name kernel_prefix) with (begins (str "[kernel.kallsyms]") name). destruct (begins _ name); intros Hx; apply EventSizeProofs.Ok_inj in Hx; now subst x.
    - intros Hx. apply EventSizeProofs.Ok_inj in Hx. now subst x. }
  destruct (mm_build m) as [[|c r]|]; cbn [is_empty negb]; [exact (Rest _ _ R)| |exact (Rest _ _ R)].
  intros H. ok_inv H. now injection H0 as <-.
Qed.

(** The message of the last mapping of a file. *)
Lemma last_found f evs : ReaderOpsSpec.last_mapping_of f evs =
  find (fun e => ReaderOpsSpec.announces_mapping e && list_eqb f (ReaderOpsModel.rv_file e)) (rev evs).
Proof.
  induction evs as [|e evs IH]; [reflexivity|]. cbn [ReaderOpsSpec.last_mapping_of rev]. rewrite IH. clear IH.
  induction (rev evs) as [|a l IH]; cbn [find app]; [reflexivity|]. destruct (ReaderOpsSpec.announces_mapping a && _); [reflexivity|exact IH].
Qed.
Lemma numbered_find {A B} (f : nat -> A -> B) (g : B -> bool) (h : A -> bool) (k : B -> N) (k' : A -> N) :
  (forall i a, g (f i a) = h a) -> (forall i a, k (f i a) = k' a) -> forall l,
  option_map k (find g (rev (numbered f l))) = option_map k' (find h (rev l)).
Proof.
  intros G K l. unfold numbered. rewrite <- map_rev.
  assert (E : l = map snd (combine (List.seq 0 (List.length l)) l)).
  { assert (Q : forall n, l = map snd (combine (List.seq n (List.length l)) l)); [|apply Q].
    induction l as [|a l IH]; intros n; [reflexivity|]. cbn. f_equal. apply IH. }
  rewrite E at 3. rewrite <- map_rev. induction (rev _) as [|(i, a) r IH]; [reflexivity|]. cbn [map find fst snd]. rewrite G.
  destruct (h a); [cbn; now rewrite K|exact IH].
Qed.
Lemma last_misc f xs : match ReaderOpsSpec.last_mapping_of f (numbered reader_view xs) with
  | Some e => w16 (ReaderOpsModel.rv_misc e) | None => 1 end = last_map_misc f xs.
Proof.
  rewrite last_found. unfold last_map_misc.
  pose proof (numbered_find reader_view (fun e => ReaderOpsSpec.announces_mapping e && list_eqb f (ReaderOpsModel.rv_file e))
    (fun x => ((xe_type x =? 1) || (xe_type x =? 10)) && list_eqb f (xm_filename (get_mmap (xe_body x))))
    (fun e => w16 (ReaderOpsModel.rv_misc e)) (fun x => xe_misc x mod 2 ^ 16) (fun _ _ => eq_refl) (fun _ _ => eq_refl) xs) as Q.
  destruct (find _ (rev (numbered _ _))), (find _ (rev xs)); cbn in Q; try discriminate Q; [now injection Q|reflexivity].
Qed.

Lemma Forall2_map_right {A B C} (R : A -> C -> Prop) (g : B -> C) l l' : Forall2 (fun a b => R a (g b)) l l' -> Forall2 R l (map g l').
Proof. intros F. induction F; cbn; constructor; auto. Qed.
Lemma Forall2_impl' {A B} (R S : A -> B -> Prop) l l' : (forall a b, R a b -> S a b) -> Forall2 R l l' -> Forall2 S l l'.
Proof. intros I F. induction F; constructor; auto. Qed.

Lemma arrange_builds md5 st ids xs ys bs : ReaderOpsSpec.injectable ids -> arrange st ids xs = (ys, bs) ->
  build_table md5 st ids xs (map (proto_build md5) bs).
Proof.
  intros J. unfold arrange. cbn zeta.
  match goal with |- context [ReaderOpsModel.inject_build_ids ids ?p0] => set (p := p0) end.
  destruct (ReaderOpsProps.C37_entries ids p J) as (p' & old & new & E & B & F1 & F2). rewrite E. intros H. injection H as _ <-.
  assert (S : forall q, ReaderOpsModel.rp_builds (ReaderOpsModel.sort_events_by_time q) = ReaderOpsModel.rp_builds q).
  { intros q. unfold ReaderOpsModel.sort_events_by_time. now destruct (forallb _ _). }
  rewrite S. unfold ReaderOpsModel.alternate_build_id_filenames. cbn [ReaderOpsModel.set_builds ReaderOpsModel.rp_builds]. rewrite B.
  exists (map (proto_build md5) old), (map (proto_build md5) new). split.
  { rewrite <- !map_app. generalize (old ++ new). intros l. rewrite map_app. f_equal. induction l as [|b l IH]; [reflexivity|].
    cbn [flat_map map]. rewrite map_app, IH. f_equal. unfold kernel_names. cbn [filter fst].
    cbn [proto_build bi_file].
    assert (Sy : list_eqb (str "[kernel.kallsyms]") (ReaderOpsModel.rb_file b) = list_eqb (ReaderOpsModel.rb_file b) (str "[kernel.kallsyms]")).
    { apply Bool.eq_true_iff_eq. rewrite !HugePageProofs.leqb_eq. split; congruence. }
    rewrite Sy. destruct (list_eqb (ReaderOpsModel.rb_file b) _) eqn:Q; [reflexivity|]. reflexivity. }
  split.
  - apply Forall2_map_right. eapply Forall2_impl'; [|exact F1]. intros b b' ((M1 & _ & M3 & M4 & _) & M).
    unfold kept_entry, proto_build. cbn [bi_misc bi_file bi_md5 bi_hash]. split; [exact M1|]. split; [exact M3|]. split; [now rewrite M4|].
    unfold id_text. cbn [bi_hash]. destruct (aget list_eqb (ReaderOpsModel.rb_file b) ids); [apply M|now rewrite M].
  - apply Forall2_map_right. eapply Forall2_impl'; [|exact F2]. intros fi b (H1 & _ & _ & H4 & H5 & H6).
    unfold added_entry, proto_build. cbn [bi_misc bi_file bi_md5 bi_hash]. split; [rewrite H5; apply last_misc|]. split; [exact H1|].
    split; [now rewrite H4|]. exact H6.
Qed.

(** ** The parts of a conversion *)
Lemma to_proto_all md5 base order options ids sw st p : to_proto md5 base order options ids sw st = Ok p ->
  exists xs ys bs evs,
    PipelineModel.each (message (serializer sw st)) (FileModel.fs_events st) = Ok xs /\
    arrange st ids xs = (ys, bs) /\ huge_pages md5 order ys = Ok evs /\
    pp_attrs p = map proto_attr (FileModel.fs_attrs st) /\ pp_events p = map (proto_event md5 base) evs /\
    pp_version p = aget N.eqb 5 (FileModel.fm_strings (FileModel.fs_meta st)) /\
    pp_command p = (if N.testbit (FileModel.fs_mask st) 11 then Some (FileModel.fm_cmdwhole (FileModel.fs_meta st)) else None) /\
    pp_types p = map (fun t => Some (snd t)) (FileModel.fs_types st) /\ pp_build_ids p = map (proto_build md5) bs.
Proof.
  unfold to_proto. intros H. ok_inv H. rename a into xs. destruct (arrange st ids xs) as (ys, bs) eqn:A.
  ok_inv H0. ok_inv H. injection H0 as <-. exists xs, ys, bs, a. repeat split; auto.
Qed.

Lemma filed_in k cx : forall hs os, In cx (ConverterSpec.filed k hs os) -> In (HSample cx) hs.
Proof.
  induction hs as [|h hs IH]; intros os I; [destruct I|]. destruct os as [|o os]; [destruct h; destruct I|].
  destruct h; cbn [ConverterSpec.filed] in I; try (right; exact (IH _ I)). destruct o as [j|]; [|right; exact (IH _ I)].
  apply in_app_or in I as [I|I]; [|right; exact (IH _ I)]. destruct (j =? k)%nat; [|destruct I]. destruct I as [->|[]]. now left.
Qed.

(** A mapping object with an origin among the events is shown as such. *)
Lemma shows_origin md5 base p e evs prof h m :
  normalizer_env p = Ok e -> pp_events p = map (proto_event md5 base) evs ->
  OriginProofs.origin e (pp_events p) h -> ConverterHeadSpec.shows prof h m ->
  shown_mapping md5 (pp_build_ids p) evs (pp_events p) prof m.
Proof.
  intros He Pe O (S1 & S2 & S3 & S4 & S5). destruct O as [(ev & mm & I & A & D)|[(ev & c & I & A & B1 & B2 & B3 & B4 & B5 & B6)|L]].
  - left. destruct D as (D1 & D2 & D3 & D4 & D5 & D6). exists ev, mm, (hm_file h). split; [exact I|]. split; [exact A|]. split; [|exact D6].
    rewrite <- D1, <- D2, <- D3, <- D4. rewrite <- (build_shown _ _ _ _ He D5). repeat split; assumption.
  - right. left. rewrite Pe in I. apply in_map_iff in I as ((x, o) & <- & Ix). unfold proto_event in A. cbn [fst snd ev_what] in A.
    destruct o; [discriminate A|]. destruct (xe_body x) as [|?|?|k|?|?|?|?|?|?|?|?|?|?|?|?|?|?|?|?|?|?|?|? ?|?] eqn:Bd; try discriminate A.
    injection A as <-. cbn [cm_comm cm_md5] in *. exists x, k, (fst (hm_build h)). split; [exact Ix|]. split; [exact Bd|].
    split. { rewrite <- B2, <- B1, <- B3, <- B4. repeat split; congruence. }
    destruct B6 as [B6|(ev' & mm & b & I' & A' & G & Q)]; [now left|right]. exists ev', mm. split; [exact I'|]. split; [exact A'|].
    rewrite <- Q. exact (build_shown _ _ _ _ He G).
  - right. right. left. destruct L as (L1 & L2 & L3 & L4 & L5 & L6). unfold says_mapping. rewrite S1, S2, S3, S4, S5, L1, L2, L3, L4, L5.
    repeat split.
Qed.
