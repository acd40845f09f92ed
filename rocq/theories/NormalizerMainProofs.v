(** The guess of the main executable follows its specification. *)
From Coq Require Import String.
From Verif Require Import Base BytesModel TextModel TextProofs Assoc IntervalMapModel IntervalMapSpec IntervalMapProofs
  SpeModel SpeProofs PerfProto NormalizerModel NormalizerSpec BuilderProofs NormalizerProofs NormalizerStepProofs
  NormalizerMoreProofs.
Local Open Scope N_scope.
Local Open Scope list_scope.

(** * Names *)

Lemma in_tails {A} (t : list A) : forall l, In t (tails l) <-> exists u, l = u ++ t.
Proof.
  induction l as [|x l IH]; cbn [tails In].
  - split; [intros [<-|[]]; now exists []|]. intros (u & H). left. destruct u; [auto|easy].
  - rewrite IH. split.
    + intros [<-|(u & ->)]; [now exists []|now exists (x :: u)].
    + intros ([|y u] & H); [left; auto|right]. injection H as -> ->. eauto.
Qed.

Lemma bool_iff b1 b2 : (b1 = true <-> b2 = true) -> b1 = b2.
Proof. destruct b1, b2; intuition congruence. Qed.

Lemma ends_suffix p f : ends p f = has_suffix f p.
Proof.
  apply bool_iff. rewrite has_suffix_iff. unfold ends. rewrite existsb_exists. split.
  - intros (t & Ht & E). apply list_eqb_eq in E. subst. now apply in_tails in Ht.
  - intros (t & ->). exists p. split; [apply in_tails; eauto|]. now apply list_eqb_eq.
Qed.

Lemma mentions_iff p f : mentions p f = true <-> occurs p f.
Proof.
  unfold mentions, occurs. rewrite existsb_exists. split.
  - intros (t & Ht & E). apply starts_with_iff in E as (v & ->). apply in_tails in Ht as (u & ->). eauto.
  - intros (u & v & ->). exists (p ++ v). split; [apply in_tails; eauto|]. apply starts_with_app.
Qed.

Lemma versioned_mentions f : is_versioned_so f = mentions (str ".so.") (tl f).
Proof.
  apply bool_iff. rewrite is_versioned_so_spec, mentions_iff. split.
  - intros (u & v & -> & Hu). destruct u as [|x u]; [easy|]. now exists u, v.
  - intros (u & v & H). destruct f as [|x f]; [now destruct u|]. cbn in H. subst f.
    exists (x :: u), v. split; [reflexivity|discriminate].
Qed.

Lemma deleted_library_iff f : deleted_library f = true <-> deleted_name f.
Proof.
  unfold deleted_library, deleted_name. rewrite existsb_exists. split.
  - intros (t & Ht & E). apply in_tails in Ht as (u & Hu). apply andb_prop in E as (E1 & E2).
    apply starts_with_iff in E1 as (w & ->). change (skipn 3 (str ".so" ++ w)) with w in E2.
    destruct w as [|c v]; [easy|]. apply andb_prop in E2 as (E2 & E3). apply mentions_iff in E3.
    destruct f as [|x f]; [now destruct u|]. cbn [tl] in Hu. subst f.
    exists (x :: u), c, v. split; [reflexivity|]. split; [discriminate|]. split; auto.
    cbn in E2. unfold sep. lia.
  - intros (u & c & v & -> & Hu & Hs & Ho). destruct u as [|x u]; [easy|]. cbn [app tl].
    exists (str ".so" ++ c :: v). split; [apply in_tails; eauto|]. rewrite starts_with_app.
    change (skipn 3 (str ".so" ++ c :: v)) with (c :: v). cbn [andb]. apply andb_true_intro. split.
    + unfold sep in Hs. cbn. lia.
    + now apply mentions_iff.
Qed.

Lemma excluded_spec f :
  (if has_suffix f (str ".ko") || has_suffix f (str ".so") then Ok true
   else let! d := is_deleted_so f in
        Ok (d || is_versioned_so f || is_virtual f || has_suffix f (str "/classes.jsa")
            || has_prefix f kernel_prefix)) = Ok (negb (program_name f)).
Proof.
  unfold program_name. rewrite !ends_suffix, <- versioned_mentions.
  change (begins ?p f) with (has_prefix f p).
  destruct (has_suffix f (str ".ko")) eqn:E1; [reflexivity|].
  destruct (has_suffix f (str ".so")) eqn:E2; [reflexivity|]. cbn [orb].
  destruct (is_deleted_so_spec f E2) as (d & -> & Hd). cbn [obind]. f_equal.
  rewrite <- deleted_library_iff in Hd. apply bool_iff in Hd. subst d. unfold is_virtual.
  change (begins ?p f) with (has_prefix f p). cbn [negb andb].
  destruct (deleted_library f), (is_versioned_so f), (has_prefix f (str "//")),
    (has_prefix f (str "[") && has_suffix f (str "]")), (has_prefix f (str "/memfd:")),
    (has_prefix f (str "[anon:")), (has_suffix f (str "/classes.jsa")); try reflexivity.
  cbn [negb andb orb]. now rewrite negb_involutive.
Qed.

(** * The invariant *)

Definition points_to (e : nenv) (s : nstate) (o : option ptr) (r : option mmap_ev) : Prop :=
  match o, r with
  | None, None => True
  | Some p, Some ev => exists m, nth_error (ns_heap s) p = Some m /\ describes e m ev
  | _, _ => False
  end.

Lemma describes_later e m m' ev : describes e m ev -> later_obj m m' -> describes e m' ev.
Proof.
  intros (A1 & A2 & A3 & A4 & A5 & A6) (B1 & B2 & B3 & B4 & B5 & B6).
  do 5 (split; [congruence|]). destruct B6 as [B6|(B6 & B7)].
  - rewrite <- B6. exact A6.
  - right. destruct A6 as [A6|A6]; auto. rewrite B6 in A6. split; [auto|congruence].
Qed.

Lemma points_le e s s' o r :
  heap_le (ns_heap s) (ns_heap s') -> points_to e s o r -> points_to e s' o r.
Proof.
  intros L. destruct o as [p|], r as [ev|]; cbn; auto. intros (m & E & D).
  destruct (L p m E) as (m' & E' & Lm). eauto using describes_later.
Qed.

Record MInv (e : nenv) (h : list perf_event) (s : nstate) : Prop := {
  mi_main : forall pid, points_to e s (aget N.eqb pid (ns_exec s)) (main_of (ne_comm_exec e) h pid);
  mi_comm : forall pid, aget N.eqb pid (ns_comm s) = comm_of h pid;
  mi_had : forall pid, mem_by N.eqb pid (ns_had s) = had_mmap h pid;
  mi_fake : forall c b md p, aget fake_key_eqb (c, b, md) (ns_fake s) = Some p ->
    exists m, nth_error (ns_heap s) p = Some m /\ hm_file m = c /\ fst (hm_build m) = b /\
      hm_md5 m = md /\ hm_start m <> 0x400000 }.

Lemma minv0 e : MInv e [] nstate0.
Proof. split; cbn; easy. Qed.

Lemma fake_le s s' :
  (forall c b md p, aget fake_key_eqb (c, b, md) (ns_fake s) = Some p ->
    exists m, nth_error (ns_heap s) p = Some m /\ hm_file m = c /\ fst (hm_build m) = b /\
      hm_md5 m = md /\ hm_start m <> 0x400000) ->
  heap_le (ns_heap s) (ns_heap s') -> ns_fake s' = ns_fake s ->
  (forall c b md p, aget fake_key_eqb (c, b, md) (ns_fake s') = Some p ->
    exists m, nth_error (ns_heap s') p = Some m /\ hm_file m = c /\ fst (hm_build m) = b /\
      hm_md5 m = md /\ hm_start m <> 0x400000).
Proof.
  intros H L E c b md p Hp. rewrite E in Hp. destruct (H _ _ _ _ Hp) as (m & Em & F1 & F2 & F3 & F4).
  destruct (L _ _ Em) as (m' & Em' & B1 & B2 & B3 & B4 & B5 & B6). exists m'. split; auto.
  rewrite <- B1, <- B4, <- B5. destruct B6 as [<-|(_ & B6)]; auto. now rewrite B6 in F4.
Qed.

(** Events that change none of the four maps. *)
Definition no_main (ev : perf_event) : Prop :=
  announced ev = None /\ match ev_what ev with EvFork _ | EvComm _ | EvMMap _ => False | _ => True end.

Lemma minv_quiet e h s s' ev :
  MInv e h s -> no_main ev -> heap_le (ns_heap s) (ns_heap s') ->
  ns_exec s' = ns_exec s -> ns_comm s' = ns_comm s -> ns_had s' = ns_had s ->
  (forall c b md p, aget fake_key_eqb (c, b, md) (ns_fake s') = Some p ->
    exists m, nth_error (ns_heap s') p = Some m /\ hm_file m = c /\ fst (hm_build m) = b /\
      hm_md5 m = md /\ hm_start m <> 0x400000) ->
  MInv e (ev :: h) s'.
Proof.
  intros I (Ha & Hw) L E1 E2 E3 F. split; auto.
  - intros pid. cbn [main_of]. rewrite Ha, E1. eapply points_le; eauto.
    destruct (ev_what ev); try easy; apply I.
  - intros pid. cbn [comm_of]. rewrite E2. destruct (ev_what ev); try easy; apply I.
  - intros pid. unfold had_mmap. cbn [existsb]. rewrite E3.
    destruct (ev_what ev); try easy; cbn [orb]; apply I.
Qed.

Lemma fake_mapping_minv e h s comm b md start s' p :
  MInv e h s -> start <> 0x400000 -> fake_mapping s comm b md start = (s', p) ->
  MInv e h s' /\ exists m, nth_error (ns_heap s') p = Some m /\ hm_file m = comm /\
    fst (hm_build m) = fst b /\ hm_md5 m = md.
Proof.
  intros I Hs H. pose proof (fake_heap _ _ _ _ _ _ _ H) as L. unfold fake_mapping in H.
  destruct (aget fake_key_eqb (comm, fst b, md) (ns_fake s)) as [q|] eqn:E; injection H as <- <-.
  - split; auto. destruct (mi_fake e h s I _ _ _ _ E) as (m & Em & F1 & F2 & F3 & _). eauto.
  - set (nm := {| hm_file := comm; hm_build := b; hm_start := start; hm_limit := w64 (start + 1);
                  hm_off := 0; hm_md5 := md |}) in *.
    assert (Nn : nth_error (ns_heap s ++ [nm]) (List.length (ns_heap s)) = Some nm)
      by (rewrite nth_error_app2, Nat.sub_diag; auto).
    split; [|exists nm; auto].
    split; cbn [ns_exec ns_comm ns_had ns_fake ns_heap set_fake set_heap]; try apply I.
    + intros pid. eapply points_le; [|apply I]. apply heap_app.
    + intros c b' md' q. rewrite aget_aset. destruct (fake_key_eqb _ _) eqn:Ek.
      * apply fake_key_eq in Ek. injection Ek as -> -> ->. intros [= <-]. exists nm. auto.
      * intros Hq. destruct (mi_fake e h s I _ _ _ _ Hq) as (m & Em & F). exists m. split; auto.
        rewrite nth_error_app1; auto. apply nth_error_Some. congruence.
Qed.

(** The main mapping of a sample. *)
Lemma main_mapping_minv e h s pid c s' o r :
  MInv e h s -> main_mapping s pid c = Ok (s', o) -> oref s' o = Ok r ->
  MInv e h s' /\ main_ok (ne_comm_exec e) e h pid c r.
Proof.
  intros I H Hr. unfold main_mapping in H. unfold main_ok. pose proof (mi_main e h s I pid) as P.
  assert (OR : forall s0 q ev, points_to e s0 q ev -> forall r, oref s0 q = Ok r -> agrees e r ev).
  { intros s0 q ev Pq r0 Hr0. destruct q as [q|], ev as [ev|]; cbn in Pq; try easy.
    - destruct Pq as (m & Em & D). cbn in Hr0. unfold deref in Hr0. rewrite Em in Hr0. cbn in Hr0.
      injection Hr0 as <-. exact D.
    - cbn in Hr0. injection Hr0 as <-. exact Logic.I. }
  destruct (aget N.eqb pid (ns_exec s)) as [q|] eqn:Eq.
  { injection H as <- <-. split; auto. destruct (main_of (ne_comm_exec e) h pid) eqn:Em; [|easy].
    eapply OR; eauto. }
  destruct (main_of (ne_comm_exec e) h pid); [easy|]. clear P.
  assert (None_case : forall s0, oref s0 None = Ok r -> r = None) by (intros s0 H0; now injection H0).
  destruct c; cbn [actx_eqb] in H;
    try (injection H as <- <-; split; [auto|]; now apply (None_case s)).
  rewrite (mi_comm e h s I pid) in H. destruct (comm_of h pid) as [cm|].
  - ok_inv H. destruct (fake_mapping s _ _ _ _) as (s1, p) eqn:F. injection H0 as <- <-.
    destruct (fake_mapping_minv e h s _ _ _ 0 _ _ I ltac:(discriminate) F) as (I' & m & Em & F1 & F2 & F3).
    split; auto. cbn in Hr. unfold deref in Hr. rewrite Em in Hr. cbn in Hr. injection Hr as <-.
    exists p, m. do 3 (split; auto).
    pose proof (mi_main e h s I kernel_pid) as P. unfold kernel_pid in P, E.
    destruct (aget N.eqb 4294967295 (ns_exec s)) as [k|], (main_of (ne_comm_exec e) h 4294967295) as [ev|];
      cbn in P; try easy.
    + destruct P as (km & Ek & D). ok_inv E. injection H as <-. unfold deref in E0. rewrite Ek in E0.
      injection E0 as <-. exists (snd (hm_build km)). cbn [fst] in F2. rewrite F2.
      destruct D as (_ & _ & _ & _ & D & _). rewrite D. now destruct (hm_build km).
    + injection E as <-. exact F2.
  - destruct (pid =? 0); injection H as <- <-; split; auto.
    + eapply OR; [|exact Hr]. apply (mi_main e h s I).
    + now apply (None_case s).
Qed.

Lemma on_sample_minv e h s misc sm spe s' cs :
  MInv e h s -> on_sample e s misc sm spe = Ok (s', cs) ->
  MInv e h s' /\ forall c, In (HSample c) cs ->
    main_ok (ne_comm_exec e) e h (dflt (s_pid sm)) (context_from_header misc) (cx_main c).
Proof.
  intros I. unfold on_sample. set (index := match spe with Some _ => 0%Z | None => event_index e sm end).
  assert (Stat : forall a b c d s0, MInv e h s0 -> MInv e h (add_stat a b c d s0)).
  { intros a b c d s0 I0. split; apply I0. }
  destruct (index =? -1)%Z; intros H.
  { injection H as <- <-. split; [auto|easy]. }
  ok_inv H. ok_inv H0. ok_inv H. destruct a1 as (s1, o).
  ok_inv H0. ok_inv H. ok_inv H0. ok_inv H. injection H0 as <- <-.
  destruct (main_mapping_minv e h s _ _ s1 o _ I E1 E2) as (I1 & M).
  split; auto. intros c [Hc|[]]. injection Hc as <-. exact M.
Qed.

Lemma spe_records_minv e h : forall rs s s' cs,
  MInv e h s -> on_spe_records e s rs = Ok (s', cs) -> MInv e h s'.
Proof.
  induction rs as [|r rs IH]; intros s s' cs I; cbn [on_spe_records]; intros H.
  - injection H as <- <-. auto.
  - ok_inv H. destruct a as (s1, c1). ok_inv H0. destruct a as (s2, c2). injection H as <- <-.
    unfold on_spe_record in E. destruct (if _ =? 0 then _ else _) as (pid, miss) in E.
    apply (on_sample_minv e h) in E as (I1 & _); [eauto|]. split; apply I.
Qed.

Lemma deliver_lost_minv e h s l s' cs :
  MInv e h s -> deliver_lost e s l = Ok (s', cs) -> MInv e h s'.
Proof.
  intros I. unfold deliver_lost.
  assert (I1 : MInv e h (add_stat (Z.of_N (lo_lost l)) (Z.of_N (lo_lost l)) 0 0 s)) by (split; apply I).
  destruct (_ =? -1)%Z; intros H; [injection H as <- <-; split; apply I|].
  destruct (fake_mapping _ _ _ _ _) as (s1, p) eqn:F. ok_inv H. injection H0 as <- <-.
  eapply fake_mapping_minv; [exact I1| |exact F]. easy.
Qed.

Lemma on_mmap_minv e h s m s' cs ev :
  MInv e h s -> announced ev = Some m -> on_mmap e s m = Ok (s', cs) ->
  (forall pid, points_to e s' (aget N.eqb pid (ns_exec s')) (main_of (ne_comm_exec e) (ev :: h) pid)) /\
  ns_comm s' = ns_comm s /\ ns_had s' = ns_had s /\ ns_fake s' = ns_fake s.
Proof.
  intros I Ea H. pose proof (on_mmap_refs _ _ _ _ _ H) as (L & _).
  pose proof (on_mmap_keeps _ _ _ _ _ H) as (K1 & K2).
  cbn [main_of]. rewrite Ea. unfold on_mmap in H. destruct (N.eqb_spec (mm_len m) 0) as [E0|E0].
  { injection H as <- <-. split; auto. intros pid. rewrite andb_false_r. apply I. }
  rewrite start_of_eq, limit_of_eq in H. ok_inv H. rename a into b. ok_inv H0. rename a into im1.
  ok_inv H. rename a into s2. injection H0 as <- <-.
  set (hm := {| hm_file := mm_file m; hm_build := b; hm_start := start_of m; hm_limit := limit_of m;
                hm_off := mm_pgoff m; hm_md5 := mm_md5 m |}) in *.
  assert (D : describes e hm m) by (repeat split; auto).
  set (p := List.length (ns_heap s)) in *.
  set (s1 := set_mmaps (aset (mm_pid m) im1 (ns_mmaps s)) (set_heap (ns_heap s ++ [hm]) s)) in *.
  assert (Pn : nth_error (ns_heap s1) p = Some hm)
    by (cbn; subst p; rewrite nth_error_app2, Nat.sub_diag; auto).
  pose proof (guess_main_heap _ _ _ _ _ E2) as L2.
  assert (New : points_to e s2 (Some p) (Some m)).
  { apply (points_le e s1 s2); auto. cbn. exists hm. auto. }
  assert (Old : forall pid, points_to e s2 (aget N.eqb pid (ns_exec s)) (main_of (ne_comm_exec e) h pid)).
  { intros pid. eapply points_le; [exact L|]. apply I. }
  unfold guess_main in E2. change (ns_exec s1) with (ns_exec s) in E2.
  destruct ((start_of m =? 0x8048000) || (start_of m =? 0x400000)) eqn:Epref.
  { injection E2 as <-. split; auto. intros pid. cbn [ns_exec set_exec]. rewrite aget_aset.
    rewrite (N.eqb_sym (mm_pid m) pid). destruct (pid =? mm_pid m); cbn [andb negb]; auto. }
  ok_inv E2. rename a into s3. ok_inv H. rename a into ex.
  assert (S3 : ns_exec s3 = ns_exec s /\ ns_had s3 = ns_had s).
  { destruct (aget N.eqb (mm_pid m) (ns_exec s)) as [o|]; [|injection E3 as <-; auto].
    ok_inv E3. destruct (_ && _ && _); injection H as <-; auto. }
  destruct S3 as (S3 & S4).
  assert (Hex : ex = match main_of (ne_comm_exec e) h (mm_pid m) with
                     | Some _ => true | None => negb (program_name (mm_file m)) end).
  { pose proof (mi_main e h s I (mm_pid m)) as P.
    destruct (aget N.eqb (mm_pid m) (ns_exec s)), (main_of (ne_comm_exec e) h (mm_pid m)); cbn in P; try easy.
    - now injection E2.
    - rewrite excluded_spec in E2. now injection E2. }
  assert (Cs : s2 = if negb ex then set_exec (aset (mm_pid m) p (ns_exec s3)) s3
               else if (mm_pid m =? kernel_pid) && has_prefix (mm_file m) kernel_prefix
               then set_exec (aset (mm_pid m) p (ns_exec s3)) s3 else s3).
  { destruct (negb ex); [now injection H0|]. destruct (_ && _); now injection H0. }
  split.
  2: { split; auto. split; auto. rewrite Cs. destruct (negb ex); [exact S4|]. destruct (_ && _); exact S4. }
  intros pid. rewrite (N.eqb_sym (mm_pid m) pid). change (begins ?a ?b) with (has_prefix b a).
  fold kernel_prefix. change 4294967295 with kernel_pid.
  assert (X : forall q, aget N.eqb pid (ns_exec (set_exec (aset (mm_pid m) q (ns_exec s3)) s3)) =
            if pid =? mm_pid m then Some q else aget N.eqb pid (ns_exec s)).
  { intros q. cbn [ns_exec set_exec]. now rewrite aget_aset, S3. }
  destruct (N.eqb_spec pid (mm_pid m)) as [Ep|Hn]; cbn [andb negb]; [rewrite Ep in *; clear Ep pid|].
  - destruct ((mm_pid m =? kernel_pid) && has_prefix (mm_file m) kernel_prefix) eqn:Ek.
    + replace (aget N.eqb (mm_pid m) (ns_exec s2)) with (Some p); auto.
      rewrite Cs. destruct (negb ex); now rewrite X.
    + rewrite Cs at 2. rewrite Hex. specialize (Old (mm_pid m)).
      destruct (main_of (ne_comm_exec e) h (mm_pid m)) as [o|]; cbn [negb]; [now rewrite S3|].
      rewrite negb_involutive. destruct (program_name (mm_file m)); [now rewrite X|now rewrite S3].
  - replace (aget N.eqb pid (ns_exec s2)) with (aget N.eqb pid (ns_exec s)); auto.
    rewrite Cs. destruct (negb ex); [now rewrite X|]. destruct (_ && _); [now rewrite X|now rewrite S3].
Qed.

Lemma on_event_minv e h s ev s' cs :
  MInv e h s -> on_event e s ev = Ok (s', cs) -> MInv e (ev :: h) s'.
Proof.
  intros I H. pose proof (on_event_refs _ _ _ _ _ H) as (L & _).
  assert (Q : no_main ev -> forall s0, heap_le (ns_heap s) (ns_heap s0) -> MInv e h s0 -> MInv e (ev :: h) s0).
  { intros Hq s0 L0 I0. apply (minv_quiet e h s0); auto; try apply heap_refl. apply I0. }
  assert (A : forall b, ev_what ev = b -> match b with EvMMap _ | EvKsymbol _ => False | _ => True end ->
              announced ev = None).
  { intros b Hb. unfold announced. rewrite Hb. now destruct b. }
  assert (Q2 : forall b, ev_what ev = b ->
    match b with EvMMap _ | EvKsymbol _ | EvFork _ | EvComm _ => False | _ => True end -> no_main ev).
  { intros b Hb Hk. split; [eapply A; eauto; destruct b; auto|]. rewrite Hb. now destruct b. }
  unfold on_event in H. destruct (ev_what ev) eqn:Ew.
  - assert (Ea : announced ev = Some m) by (unfold announced; now rewrite Ew).
    ok_inv H. destruct a as (s1, c1). injection H0 as <- <-.
    destruct (on_mmap_minv e h s m s1 c1 ev I Ea E) as (M & K1 & K2 & K3). split; auto.
    + intros pid. cbn [comm_of]. rewrite Ew. cbn [ns_comm set_had]. rewrite K1. apply I.
    + intros pid. cbn [ns_had set_had mem_by had_mmap existsb]. unfold had_mmap. cbn [existsb].
      rewrite Ew, K2, N.eqb_sym. f_equal. apply I.
    + eapply (fake_le s); eauto. apply I.
  - assert (Ea : announced ev = None) by (eapply A; eauto; exact Logic.I).
    injection H as H. unfold on_comm in H.
    assert (Hh : forall pid, had_mmap (ev :: h) pid = had_mmap h pid).
    { intros pid. unfold had_mmap. cbn [existsb]. now rewrite Ew. }
    destruct (N.eqb_spec (cm_pid c) (cm_tid c)) as [Et|Et].
    + rewrite (mi_had e h s I) in H. fold (is_exec (ne_comm_exec e) (ev_misc ev) h (cm_pid c)) in H.
      change (negb (ne_comm_exec e) || N.testbit (dflt (ev_misc ev)) 13 || negb (had_mmap h (cm_pid c)))
        with (is_exec (ne_comm_exec e) (ev_misc ev) h (cm_pid c)) in H.
      injection H as <- <-. split.
      * intros pid. cbn [main_of]. rewrite Ea, Ew. cbn [ns_exec set_comm].
        rewrite <- Et. destruct (N.eqb_spec (cm_pid c) pid) as [Ep|Hn]; cbn [andb].
        -- rewrite <- Ep. destruct (is_exec (ne_comm_exec e) (ev_misc ev) h (cm_pid c)) eqn:Ex.
           ++ cbn [ns_exec set_exec]. rewrite aget_aerase, N.eqb_refl. exact Logic.I.
           ++ eapply points_le; [|apply I]. apply heap_refl.
        -- destruct (is_exec _ _ _ _).
           ++ cbn [ns_exec set_exec]. rewrite aget_aerase.
              destruct (N.eqb_spec pid (cm_pid c)); [congruence|].
              eapply points_le; [|apply I]. apply heap_refl.
           ++ eapply points_le; [|apply I]. apply heap_refl.
      * intros pid. cbn [comm_of ns_comm set_comm]. rewrite Ew, aget_aset.
        rewrite <- Et, andb_diag, (N.eqb_sym (cm_pid c) pid). destruct (pid =? cm_pid c); auto.
        destruct (is_exec _ _ _ _); apply I.
      * intros pid. rewrite Hh. destruct (is_exec _ _ _ _); apply I.
      * intros c0 b md p. destruct (is_exec _ _ _ _); apply I.
    + injection H as <- <-. split; try apply I.
      * intros pid. cbn [main_of]. rewrite Ea, Ew.
        replace ((cm_pid c =? pid) && (cm_tid c =? pid)) with false by lia. apply I.
      * intros pid. cbn [comm_of]. rewrite Ew.
        replace ((cm_pid c =? pid) && (cm_tid c =? pid)) with false by lia. apply I.
      * intros pid. rewrite Hh. apply I.
  - assert (Ea : announced ev = None) by (eapply A; eauto; exact Logic.I).
    injection H as <- <-.
    assert (Hh : forall pid, had_mmap (ev :: h) pid = had_mmap h pid).
    { intros pid. unfold had_mmap. cbn [existsb]. now rewrite Ew. }
    unfold on_fork. destruct (N.eqb_spec (fk_pid f) (fk_ppid f)) as [Es|Es].
    + split; try apply I.
      * intros pid. cbn [main_of]. rewrite Ea, Ew, Es. destruct (N.eqb_spec (fk_ppid f) pid) as [->|]; [|apply I].
        destruct (main_of (ne_comm_exec e) h pid) eqn:Em; rewrite <- Em; apply I.
      * intros pid. cbn [comm_of]. rewrite Ew, Es. destruct (N.eqb_spec (fk_ppid f) pid) as [->|]; [|apply I].
        destruct (comm_of h pid) eqn:Em; rewrite <- Em; apply I.
      * intros pid. rewrite Hh. apply I.
    + split.
      * intros pid. cbn [main_of ns_exec set_exec]. rewrite Ea, Ew, aget_inherit, (N.eqb_sym (fk_pid f) pid).
        pose proof (mi_main e h s I (fk_ppid f)) as P.
        destruct (aget N.eqb (fk_ppid f) (ns_exec s)) as [q|], (main_of (ne_comm_exec e) h (fk_ppid f)) as [ev0|];
          cbn in P; try easy.
        -- destruct (pid =? fk_pid f); [exact P|apply (mi_main e h s I)].
        -- destruct (pid =? fk_pid f); apply (mi_main e h s I).
      * intros pid. cbn [comm_of ns_comm set_exec set_comm]. rewrite Ew, aget_inherit, (N.eqb_sym (fk_pid f) pid).
        rewrite !(mi_comm e h s I). destruct (comm_of h (fk_ppid f)) as [q|]; destruct (pid =? fk_pid f); auto.
      * intros pid. rewrite Hh. apply I.
      * apply I.
  - injection H as <- <-. apply (minv_quiet e h s); auto; try (eapply Q2; eauto; exact Logic.I). apply I.
  - destruct (ne_lost_samples e); [|injection H as <- <-; apply Q; auto; eapply Q2; eauto; exact Logic.I].
    apply Q; auto; [eapply Q2; eauto; exact Logic.I|]. eapply deliver_lost_minv; eauto.
  - destruct (ne_lost_samples e); [injection H as <- <-; apply Q; auto; eapply Q2; eauto; exact Logic.I|].
    apply Q; auto; [eapply Q2; eauto; exact Logic.I|]. eapply deliver_lost_minv; eauto.
  - apply Q; auto; [eapply Q2; eauto; exact Logic.I|]. eapply on_sample_minv; eauto.
  - injection H as <- <-. apply Q; auto; eapply Q2; eauto; exact Logic.I.
  - destruct trace; [|injection H as <- <-; apply Q; auto; eapply Q2; eauto; exact Logic.I].
    destruct (ne_spe e); [|injection H as <- <-; apply Q; auto; eapply Q2; eauto; exact Logic.I].
    ok_inv H. apply Q; auto; [eapply Q2; eauto; exact Logic.I|]. eapply spe_records_minv; eauto.
  - destruct ((ks_type k =? 1) && (ks_flags k =? 0)) eqn:Ek.
    + assert (Ea : announced ev = Some (ksym_mmap k)) by (unfold announced; now rewrite Ew, Ek).
      destruct (on_mmap_minv e h s _ s' cs ev I Ea H) as (M & K1 & K2 & K3). split; auto.
      * intros pid. cbn [comm_of]. rewrite Ew, K1. apply I.
      * intros pid. unfold had_mmap. cbn [existsb]. rewrite Ew, K2. cbn [orb]. apply I.
      * eapply (fake_le s); eauto. apply I.
    + injection H as <- <-. apply Q; auto. split; [unfold announced; now rewrite Ew, Ek|now rewrite Ew].
  - injection H as <- <-. apply Q; auto; eapply Q2; eauto; exact Logic.I.
Qed.

Theorem run_minv e : forall evs s h s' cs,
  MInv e h s -> run_events e s evs = Ok (s', cs) -> MInv e (rev evs ++ h) s'.
Proof.
  induction evs as [|ev evs IH]; intros s h s' cs I; cbn [run_events]; intros H.
  - injection H as <- <-. auto.
  - ok_inv H. destruct a as (s1, c1). ok_inv H0. destruct a as (s2, c2). injection H as <- <-.
    cbn [rev]. rewrite <- app_assoc. cbn [app]. eapply IH; eauto. eapply on_event_minv; eauto.
Qed.

Theorem run_minv0 e evs s' cs :
  run_events e nstate0 evs = Ok (s', cs) -> MInv e (rev evs) s'.
Proof. intros H. rewrite <- (app_nil_r (rev evs)). eapply run_minv; [apply minv0|exact H]. Qed.
