(** Build ids of mappings, and the address space of a process over time. *)
From Coq Require Import String.
From Verif Require Import Base BytesModel TextModel TextProofs Assoc IntervalMapModel IntervalMapSpec IntervalMapProofs
  SpeModel SpeProofs PerfProto NormalizerModel NormalizerSpec BuilderProofs NormalizerProofs NormalizerStepProofs
  NormalizerMoreProofs NormalizerMainProofs.
Local Open Scope N_scope.
Local Open Scope list_scope.

(** * The build id table *)

Lemma list_eqb_refl l : list_eqb l l = true.
Proof. now apply list_eqb_eq. Qed.

Lemma is_empty_eqb l : is_empty l = list_eqb l [].
Proof. now destruct l. Qed.

Definition table (bs : list build_id_ev) := fold_left add_build_id bs ([], []).

Definition build_in (bs : list build_id_ev) (name : list N) : option bid :=
  match rev (filter (fun b => list_eqb (name_or_md5 (bi_file b) (bi_md5 b)) name) bs) with
  | [] => None
  | [b] => Some (hex_of b, if bi_injected b then SrcInjected else SrcFilename)
  | b :: b' :: _ =>
      Some (hex_of b, if list_eqb (hex_of b') (hex_of b)
                 then if bi_injected b then SrcInjected else SrcFilename else SrcAmbiguous)
  end.

Lemma build_in_last bs name :
  option_map fst (build_in bs name) =
  match rev (filter (fun b => list_eqb (name_or_md5 (bi_file b) (bi_md5 b)) name) bs) with
  | [] => None | b :: _ => Some (hex_of b) end.
Proof. unfold build_in. destruct (rev _) as [|b [|b' r]]; reflexivity. Qed.

Lemma kernel_record_eq b :
  kernel_record b =
  (N.land (bi_misc b) 7 =? 1) &&
  (is_kernel_non_module (name_or_md5 (bi_file b) (bi_md5 b))
   || negb (has_suffix (name_or_md5 (bi_file b) (bi_md5 b)) (str ".ko"))).
Proof.
  unfold kernel_record, is_kernel_non_module. cbn [existsb]. rewrite ends_suffix.
  unfold begins, has_prefix, kernel_prefix. now rewrite orb_false_r, !orb_assoc.
Qed.

Lemma table_spec bs :
  (forall name, aget list_eqb name (fst (table bs)) = build_in bs name) /\
  snd (table bs) = match filter (fun b => kernel_record b && negb (list_eqb (hex_of b) [])) bs with
                   | [] => [] | b :: _ => hex_of b end.
Proof.
  induction bs as [|b bs IH] using rev_ind; [split; reflexivity|].
  unfold table in *. rewrite fold_left_app. cbn [fold_left].
  destruct (fold_left add_build_id bs ([], [])) as (m, k) eqn:F. cbn [fst snd] in IH.
  destruct IH as (IH1 & IH2). unfold add_build_id. cbn [fst snd].
  change (hex_string (bi_hash b)) with (hex_of b). split.
  - intros name. rewrite aget_aset. unfold build_in. rewrite filter_app. cbn [filter].
    destruct (list_eqb name (name_or_md5 (bi_file b) (bi_md5 b))) eqn:En.
    + apply list_eqb_eq in En. subst name. rewrite list_eqb_refl, rev_app_distr. cbn [rev app].
      rewrite IH1. pose proof (build_in_last bs (name_or_md5 (bi_file b) (bi_md5 b))) as L.
      destruct (rev (filter _ bs)) as [|b' r] eqn:Er.
      * unfold build_in. rewrite Er. reflexivity.
      * destruct (build_in bs _) as [(v, src)|]; [|easy]. cbn in L. injection L as ->. reflexivity.
    + replace (list_eqb (name_or_md5 (bi_file b) (bi_md5 b)) name) with false.
      * rewrite app_nil_r. apply IH1.
      * symmetry. destruct (list_eqb (name_or_md5 _ _) name) eqn:E2; auto.
        apply list_eqb_eq in E2. subst name. rewrite list_eqb_refl in En. easy.
  - rewrite filter_app. cbn [filter]. rewrite kernel_record_eq, is_empty_eqb.
    destruct (N.land (bi_misc b) 7 =? 1); cbn [andb]; [|now rewrite app_nil_r].
    destruct (_ || _); cbn [andb]; [|now rewrite app_nil_r].
    destruct (filter _ bs) as [|b0 r] eqn:Ef.
    + subst k. cbn [list_eqb negb andb app]. destruct (list_eqb (hex_of b) []) eqn:Eh; cbn [negb]; auto.
      now apply list_eqb_eq in Eh.
    + subst k. assert (Hn : list_eqb (hex_of b0) [] = false).
      { assert (Hi : In b0 (b0 :: r)) by (left; auto). rewrite <- Ef in Hi.
        apply filter_In in Hi as (_ & Hi). apply andb_prop in Hi as (_ & Hi).
        now apply negb_true_iff in Hi. }
      rewrite Hn. cbn [negb andb app]. destruct (list_eqb (hex_of b0) (hex_of b)) eqn:Eq; cbn [negb]; auto.
      now apply list_eqb_eq in Eq.
Qed.

Theorem get_build_id_spec p e m b :
  normalizer_env p = Ok e -> (forall x, mm_build m = Some x -> ~ In 0 x) ->
  get_build_id e m = Ok b -> expected_build p m b.
Proof.
  unfold normalizer_env. pose proof (table_spec (pp_build_ids p)) as (T1 & T2). unfold table in *.
  destruct (fold_left add_build_id (pp_build_ids p) ([], [])) as (tab, k) eqn:F. cbn [fst snd] in *.
  intros H Hn. pose proof (env_build_text p) as Ht. unfold normalizer_env in Ht. rewrite F in Ht.
  specialize (Ht e H). ok_inv H. injection H0 as <-. unfold get_build_id, expected_build.
  set (name := name_or_md5 (mm_file m) (mm_md5 m)). cbn [ne_build ne_kernel].
  assert (R : match aget list_eqb name tab with Some b0 => b0 | None => ([], SrcMissing) end
              = recorded_build p name).
  { rewrite T1. unfold build_in, recorded_build, records_of. destruct (rev _) as [|x [|y r]]; reflexivity. }
  assert (Htn : ~ In 0 (fst (recorded_build p name))).
  { rewrite <- R. destruct (aget list_eqb name tab) eqn:Eg; [|cbn; auto]. eapply Ht; eauto. }
  rewrite R. destruct (mm_build m) as [[|c r]|].
  - cbn [is_empty negb]. rewrite is_empty_eqb.
    destruct (negb (list_eqb (fst (recorded_build p name)) [])); [now intros [= <-]|].
    change (has_prefix name kernel_prefix) with (begins (str "[kernel.kallsyms]") name).
    destruct (begins _ name); intros [= <-]; auto. unfold kernel_build. now rewrite T2.
  - cbn [is_empty negb]. intros H. ok_inv H. injection H0 as <-. cbn [fst snd].
    destruct (same_build_id_spec (fst (recorded_build p name)) (c :: r) Htn (Hn _ eq_refl)) as (x & Ex & Hx).
    rewrite Ex in E0. injection E0 as <-. split; auto. split; [|destruct x; auto].
    destruct x.
    + split; auto. intros _. destruct Hx as (Hx & _). destruct (Hx eq_refl); auto.
    + split; [easy|]. intros Hz. destruct Hx as (_ & Hx). assert (false = true) by tauto. easy.
  - cbn [is_empty negb]. rewrite is_empty_eqb.
    destruct (negb (list_eqb (fst (recorded_build p name)) [])); [now intros [= <-]|].
    change (has_prefix name kernel_prefix) with (begins (str "[kernel.kallsyms]") name).
    destruct (begins _ name); intros [= <-]; auto. unfold kernel_build. now rewrite T2.
Qed.

(** * Callbacks of mmap events *)

Lemma on_event_mmap_calls e h s ev s' cs pid q m :
  Inv e h s -> on_event e s ev = Ok (s', cs) -> In (HMMap pid (q, m)) cs ->
  exists mm, announced ev = Some mm /\ pid = mm_pid mm /\ describes e m mm.
Proof.
  intros I H Hi.
  assert (S : forall misc sm spe s1 c1, on_sample e s misc sm spe = Ok (s1, c1) ->
            ~ In (HMMap pid (q, m)) c1).
  { intros misc sm spe s1 c1 E. destruct (on_sample_spec e h s misc sm spe I) as (s2 & c2 & E2 & _ & _ & Hc).
    rewrite E in E2. injection E2 as <- <-. cbv zeta in Hc. destruct (_ =? -1)%Z; [destruct Hc as (-> & _); auto|].
    destruct Hc as (c & -> & _). intros [K|[]]. easy. }
  assert (P : forall rs s0 h0 s1 c1, Inv e h0 s0 -> on_spe_records e s0 rs = Ok (s1, c1) -> ~ In (HMMap pid (q, m)) c1).
  { induction rs as [|r rs IH]; intros s0 h0 s1 c1 I0; cbn [on_spe_records]; intros E.
    - injection E as <- <-. auto.
    - ok_inv E. destruct a as (s2, c2). ok_inv H0. destruct a as (s3, c3). injection H1 as <- <-.
      unfold on_spe_record in E0. destruct (if _ =? 0 then _ else _) as (pp, miss) in E0.
      match type of E0 with on_sample _ ?st ?mi ?sm ?sp = _ =>
        assert (I1 : Inv e h0 st) by (now apply (inv_same e h0 s0));
        destruct (on_sample_spec e h0 st mi sm sp I1) as (s4 & c4 & E4 & I4 & _ & Hc) end.
      rewrite E0 in E4. injection E4 as <- <-. cbn in Hc. destruct Hc as (c & -> & _).
      intros K. apply in_app_or in K as [[K|[]]|K]; [easy|]. eapply IH; eauto. }
  assert (D : forall l s1 c1, deliver_lost e s l = Ok (s1, c1) -> ~ In (HMMap pid (q, m)) c1).
  { intros l s1 c1. unfold deliver_lost. destruct (_ =? -1)%Z; [now intros [= <- <-]|].
    destruct (fake_mapping _ _ _ _ _) as (s2, p2). intros E. ok_inv E. injection H0 as <- <-.
    intros K. apply repeat_spec in K. easy. }
  assert (M : forall mm s1 c1, on_mmap e s mm = Ok (s1, c1) -> In (HMMap pid (q, m)) c1 ->
            pid = mm_pid mm /\ describes e m mm).
  { intros mm s1 c1 E K. destruct (on_mmap_spec e h s mm I s1 c1 E) as [(_ & _ & ->)|(_ & _ & p & hm & -> & Dm & _)]; [easy|].
    destruct K as [K|[]]. injection K as <- <- <-. auto. }
  unfold announced, on_event in *. destruct (ev_what ev) eqn:Ew.
  - ok_inv H. destruct a as (s1, c1). injection H0 as <- <-. eauto.
  - exfalso. injection H as H. unfold on_comm in H.
    destruct (cm_pid c =? cm_tid c); injection H as <- <-; destruct Hi as [K|[]]; easy.
  - injection H as <- <-. easy.
  - injection H as <- <-. easy.
  - exfalso. destruct (ne_lost_samples e); [eapply D; eauto|injection H as <- <-; easy].
  - exfalso. destruct (ne_lost_samples e); [injection H as <- <-; easy|eapply D; eauto].
  - exfalso. eapply S; eauto.
  - injection H as <- <-. easy.
  - exfalso. destruct trace; [|injection H as <- <-; easy].
    destruct (ne_spe e); [|injection H as <- <-; easy]. ok_inv H. eapply P; eauto.
  - destruct ((ks_type k =? 1) && (ks_flags k =? 0)); [|injection H as <- <-; easy].
    eexists. split; [reflexivity|]. eapply M; eauto.
  - injection H as <- <-. easy.
Qed.

Lemma run_mmap_calls e : forall evs h s s' cs pid q m,
  Inv e h s -> run_events e s evs = Ok (s', cs) -> In (HMMap pid (q, m)) cs ->
  exists ev mm, In ev evs /\ announced ev = Some mm /\ pid = mm_pid mm /\ describes e m mm.
Proof.
  induction evs as [|ev evs IH]; intros h s s' cs pid q m I; cbn [run_events]; intros H Hi.
  - injection H as <- <-. easy.
  - ok_inv H. destruct a as (s1, c1). ok_inv H0. destruct a as (s2, c2). injection H as <- <-.
    apply in_app_or in Hi as [Hi|Hi].
    + destruct (on_event_mmap_calls e h s ev s1 c1 pid q m I E Hi) as (mm & A). exists ev, mm. split; [left; auto|auto].
    + destruct (on_event_inv e h s ev s1 c1 I E) as (I1 & _).
      destruct (IH (ev :: h) s1 s2 c2 pid q m I1 E0 Hi) as (ev' & mm & Hin & A). exists ev', mm. split; [right; auto|auto].
Qed.

(** * Address spaces over time *)

Lemma owner_alone pid k : forall t h,
  Forall (leaves_alone pid) t -> owner (rev t ++ h) pid k = owner h pid k.
Proof.
  induction t as [|ev t IH] using rev_ind; intros h F; auto.
  apply Forall_app in F as (F1 & F2). inversion F2; subst. destruct H1 as (A1 & A2).
  rewrite rev_app_distr. cbn [rev app owner].
  destruct (announced ev) as [m|] eqn:Ea.
  - specialize (A1 m eq_refl). apply N.eqb_neq in A1. rewrite A1. cbn [andb]. auto.
  - destruct (ev_what ev) eqn:Ew; auto. specialize (A2 f eq_refl). apply N.eqb_neq in A2.
    rewrite A2. cbn [andb]. auto.
Qed.

(** The sample at the end of a run. *)
Lemma run_last_sample e evs misc sm s cs :
  run_events e nstate0 (evs ++ [{| ev_misc := misc; ev_what := EvSample sm |}]) = Ok (s, cs) ->
  exists s0 cs0, run_events e nstate0 evs = Ok (s0, cs0) /\
    if (event_index e sm =? -1)%Z then cs = cs0
    else exists c, cs = cs0 ++ [HSample c] /\ delivered e (rev evs) misc sm None c /\
      main_ok (ne_comm_exec e) e (rev evs) (dflt (s_pid sm)) (context_from_header misc) (cx_main c).
Proof.
  rewrite run_events_app. intros H. ok_inv H. destruct a as (s0, cs0). ok_inv H0. destruct a as (s1, c1).
  injection H as <- <-. exists s0, cs0. split; auto. cbn [run_events] in E0. ok_inv E0.
  destruct a as (s2, c2). injection H as <- <-. rewrite app_nil_r.
  unfold on_event in E1. cbn [ev_what ev_misc] in E1.
  pose proof (run_inv0 _ _ _ _ E) as I. pose proof (run_minv0 _ _ _ _ E) as M.
  destruct (on_sample_minv e _ _ _ _ _ _ _ M E1) as (_ & Mo).
  destruct (on_sample_spec e (rev evs) s0 misc sm None I) as (s3 & c3 & E3 & _ & _ & Hc).
  rewrite E1 in E3. injection E3 as <- <-. cbn in Hc. destruct (event_index e sm =? -1)%Z.
  - destruct Hc as (-> & _). now rewrite app_nil_r.
  - destruct Hc as (c & -> & D). exists c. split; auto. split; auto. apply Mo. left; auto.
Qed.

(** One event of a stream. *)
Lemma process_at p cs h ev t :
  process p = Ok cs -> pp_events p = h ++ ev :: t ->
  exists e s0 cs0 s1 c1 cs2, normalizer_env p = Ok e /\ run_events e nstate0 h = Ok (s0, cs0) /\
    on_event e s0 ev = Ok (s1, c1) /\ cs = cs0 ++ c1 ++ cs2.
Proof.
  unfold process. intros H Hp. ok_inv H. rename a into e. rewrite Hp in H0. ok_inv H0.
  destruct a as (s, cs'). injection H as <-. rewrite run_events_app in E0. ok_inv E0.
  destruct a as (s0, cs0). ok_inv H. destruct a as (s2, c2). injection H0 as <- <-.
  cbn [run_events] in E0. ok_inv E0. destruct a as (s1, c1). ok_inv H. destruct a as (s3, c3).
  injection H0 as <- <-. exists e, s0, cs0, s1, c1, c3. auto.
Qed.

(** A sample of the stream. *)
Lemma process_sample p cs h misc sm t :
  process p = Ok cs -> pp_events p = h ++ {| ev_misc := misc; ev_what := EvSample sm |} :: t ->
  exists e s0 cs0 cs2, normalizer_env p = Ok e /\ run_events e nstate0 h = Ok (s0, cs0) /\
    if (event_index e sm =? -1)%Z then cs = cs0 ++ cs2
    else exists c, cs = cs0 ++ HSample c :: cs2 /\ delivered e (rev h) misc sm None c /\
      main_ok (ne_comm_exec e) e (rev h) (dflt (s_pid sm)) (context_from_header misc) (cx_main c).
Proof.
  intros H Hp. destruct (process_at p cs h _ t H Hp) as (e & s0 & cs0 & s1 & c1 & cs2 & He & Hr & Ho & ->).
  exists e, s0, cs0, cs2. split; auto. split; auto.
  destruct (run_last_sample e h misc sm s1 (cs0 ++ c1)) as (s0' & cs0' & Hr' & Hc).
  { rewrite run_events_app, Hr. cbn [obind run_events]. rewrite Ho. cbn [obind]. now rewrite app_nil_r. }
  rewrite Hr in Hr'. injection Hr' as <- <-. destruct (event_index e sm =? -1)%Z.
  - rewrite app_assoc, Hc. auto.
  - destruct Hc as (c & Hc & D). exists c. rewrite app_assoc, Hc, <- app_assoc. auto.
Qed.

(** A lost record of the stream. *)
Lemma process_lost p cs h l misc t (kind : bool) e :
  process p = Ok cs -> normalizer_env p = Ok e ->
  pp_events p = h ++ {| ev_misc := misc; ev_what := if kind then EvLostSamples l else EvLost l |} :: t ->
  Forall not_named_lost h -> ne_lost_samples e = kind ->
  exists s0 cs0 s1 c1 cs2, run_events e nstate0 h = Ok (s0, cs0) /\
    run_events e nstate0 (h ++ [{| ev_misc := misc; ev_what := if kind then EvLostSamples l else EvLost l |}])
      = Ok (s1, cs0 ++ c1) /\
    cs = cs0 ++ c1 ++ cs2 /\
    nt_samples (ns_stat s1) = (nt_samples (ns_stat s0) + Z.of_N (lo_lost l))%Z /\
    forall sm, s_id sm = Some (lo_id l) ->
    if (event_index e sm =? -1)%Z then c1 = []
    else exists c, c1 = repeat (HSample c) (N.to_nat (lo_lost l)) /\ lost_sample (event_index e sm) l c.
Proof.
  intros H He Hp F Hk. destruct (process_at p cs h _ t H Hp) as (e' & s0 & cs0 & s1 & c1 & cs2 & He' & Hr & Ho & ->).
  rewrite He in He'. injection He' as <-. exists s0, cs0, s1, c1, cs2. split; auto. split.
  { rewrite run_events_app, Hr. cbn [obind run_events]. rewrite Ho. cbn [obind]. now rewrite app_nil_r. }
  split; auto. pose proof (run_lost_inv e h nstate0 s0 cs0 lost_inv0 F Hr) as I.
  unfold on_event in Ho. cbn [ev_what] in Ho.
  destruct kind; cbn in Ho; rewrite Hk in Ho; destruct (deliver_lost_inv e s0 l s1 c1 I Ho) as (_ & A & B); auto.
Qed.
