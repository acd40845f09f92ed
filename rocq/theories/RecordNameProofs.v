(** C65: names and cgroups of the callbacks are those of the events. *)
From Coq Require Import String.
From Verif Require Import Base BytesModel TextModel Assoc PerfProto NormalizerModel NormalizerSpec NormalizerProofs
  NormalizerStepProofs NormalizerMainProofs NormalizerBuildProofs ConverterModel ConverterSpec SuccessProofs OriginProofs RecordSpec.
Local Open Scope N_scope.
Local Open Scope list_scope.

Lemma thread_name_skip cs r pid tid : (forall cm ex, ~ In (HComm cm ex) cs) -> thread_name (cs ++ r) pid tid = thread_name r pid tid.
Proof.
  induction cs as [|h cs IH]; intros H; [reflexivity|].
  assert (Q : thread_name (cs ++ r) pid tid = thread_name r pid tid) by (apply IH; intros cm ex I; apply (H cm ex); now right).
  destruct h as [cx|cm ex|q m]; cbn [app thread_name]; [exact Q| |exact Q]. exfalso. apply (H cm ex). now left.
Qed.

Lemma names_step e h s ev s' cs r : MInv e h s -> on_event e s ev = Ok (s', cs) ->
  (forall pid tid, thread_name r pid tid = name_at (ne_comm_exec e) h pid tid) ->
  forall pid tid, thread_name (rev cs ++ r) pid tid = name_at (ne_comm_exec e) (ev :: h) pid tid.
Proof.
  intros M H R pid tid. cbn [name_at].
  assert (Hr : run_events e s [ev] = Ok (s', cs)) by (cbn [run_events]; rewrite H; cbn [obind]; now rewrite app_nil_r).
  destruct (ev_what ev) as [m|c|f|id path|l|l|sm|ty|tr bs|k|] eqn:W;
    try (rewrite thread_name_skip; [apply R|]; intros cm ex I; apply in_rev in I;
         destruct (any_comm _ _ _ _ _ _ _ Hr I) as (v & [<-|[]] & Q); congruence).
  unfold on_event in H. rewrite W in H. unfold on_comm in H.
  destruct (cm_pid c =? cm_tid c) eqn:PT; injection H as _ <-; cbn [rev app thread_name].
  - destruct (cm_pid c =? pid) eqn:P; [|apply R]. destruct (cm_tid c =? tid); [reflexivity|]. cbn [andb].
    apply N.eqb_eq in P. rewrite (mi_had _ _ _ M), P. unfold is_exec, dflt. rewrite R. reflexivity.
  - destruct (cm_pid c =? pid); [|apply R]. destruct (cm_tid c =? tid); [reflexivity|]. cbn [andb]. apply R.
Qed.

Lemma cgroups_step e h s ev s' cs : Inv e h s -> on_event e s ev = Ok (s', cs) ->
  (forall id, aget N.eqb id (ns_cgroup s) = path_at h id) ->
  forall id, aget N.eqb id (ns_cgroup s') = path_at (ev :: h) id.
Proof.
  intros I H R id. cbn [path_at].
  assert (Same : ns_cgroup s' = ns_cgroup s -> (forall i p, ev_what ev <> EvCgroup i p) ->
    aget N.eqb id (ns_cgroup s') = match path_at h id, ev_what ev with
      | Some p, _ => Some p | None, EvCgroup i p => if i =? id then Some p else None | None, _ => None end).
  { intros -> N0. rewrite R. destruct (path_at h id); [reflexivity|]. destruct (ev_what ev); try reflexivity.
    exfalso. now apply (N0 id0 path). }
  destruct (ev_what ev) as [m|c|f|i path|l|l|sm|ty|tr bs|k|] eqn:W; unfold on_event in H; rewrite W in H.
  - apply Same; [|discriminate]. ok_inv H. destruct a as (s1, c1). injection H0 as <- _. cbn [ns_cgroup set_had].
    destruct (on_mmap_spec e h s m I _ _ E) as [(_ & -> & _)|(_ & _ & p & hm & _ & _ & C & _)]; auto.
  - apply Same; [|discriminate]. unfold on_comm in H. destruct (_ =? _); injection H as <- _; [|reflexivity].
    match goal with |- context [if ?b then _ else _] => destruct b end; reflexivity.
  - apply Same; [|discriminate]. injection H as <- _. unfold on_fork.
    repeat match goal with |- context [if ?b then _ else _] => destruct b | |- context [match ?b with _ => _ end] => destruct b end; reflexivity.
  - injection H as <- _. cbn [ns_cgroup set_cgroup]. unfold aemplace. specialize (R id) as Rid.
    destruct (aget N.eqb i (ns_cgroup s)) as [v|] eqn:A; cbn [fst].
    + rewrite Rid. destruct (path_at h id) eqn:P; [reflexivity|]. destruct (N.eqb_spec i id) as [->|]; [congruence|reflexivity].
    + cbn [aget fst]. rewrite N.eqb_sym. destruct (N.eqb_spec i id) as [->|].
      * now rewrite <- Rid, A.
      * rewrite Rid. now destruct (path_at h id).
  - apply Same; [|discriminate]. destruct (ne_lost_samples e); [|now injection H as <- _].
    destruct (deliver_lost_spec e h s l I) as (s1 & c1 & D & _ & C). rewrite D in H. now injection H as <- _.
  - apply Same; [|discriminate]. destruct (ne_lost_samples e); [now injection H as <- _|].
    destruct (deliver_lost_spec e h s l I) as (s1 & c1 & D & _ & C). rewrite D in H. now injection H as <- _.
  - apply Same; [|discriminate]. destruct (on_sample_spec e h s (ev_misc ev) sm None I) as (s1 & c1 & D & _ & C & _).
    rewrite D in H. now injection H as <- _.
  - apply Same; [|discriminate]. now injection H as <- _.
  - apply Same; [|discriminate]. destruct tr; [|now injection H as <- _]. destruct (ne_spe e); [|now injection H as <- _].
    ok_inv H. destruct (spe_records_spec e h a s I) as (s1 & c1 & D & _ & C & _). rewrite D in H0. now injection H0 as <- _.
  - apply Same; [|discriminate]. destruct (_ && _); [|now injection H as <- _].
    destruct (on_mmap_spec e h s _ I _ _ H) as [(_ & -> & _)|(_ & _ & p & hm & _ & _ & C & _)]; auto.
  - apply Same; [|discriminate]. now injection H as <- _.
Qed.

Lemma run_names e evs : forall s cs, run_events e nstate0 evs = Ok (s, cs) ->
  (forall pid tid, thread_name (rev cs) pid tid = name_at (ne_comm_exec e) (rev evs) pid tid) /\
  (forall id, aget N.eqb id (ns_cgroup s) = path_at (rev evs) id).
Proof.
  induction evs as [|ev evs IH] using rev_ind; intros s cs H; [injection H as <- <-; split; reflexivity|].
  rewrite run_events_app in H. ok_inv H. destruct a as (s1, c1). cbn [run_events] in H0. ok_inv H0. destruct a as (s3, c3).
  injection H as <- <-. ok_inv E0. destruct a as (s4, c4). injection H as <- <-.
  destruct (IH _ _ E) as (A & B). rewrite app_nil_r, !rev_app_distr. cbn [rev app]. split.
  - apply (names_step e (rev evs) s1 ev s4); auto. now apply run_minv0 in E.
  - apply (cgroups_step e (rev evs) s1 ev s4 c4); auto. now apply run_inv0 in E.
Qed.

(** What is delivered of a sample. *)
Lemma on_sample_cgroup e h s misc sm spe s' cx : Inv e h s -> on_sample e s misc sm spe = Ok (s', [HSample cx]) ->
  cx_cgroup cx = match s_cgroup sm with None => None | Some id => aget N.eqb id (ns_cgroup s) end.
Proof.
  intros I. unfold on_sample. destruct (_ =? -1)%Z; intros H; [discriminate H|].
  ok_inv H. ok_inv H0. ok_inv H. destruct a1 as (s1, main).
  destruct (main_mapping_spec _ _ _ _ _ _ _ E1 I) as (_ & _ & Q). ok_inv H0. ok_inv H. ok_inv H0. ok_inv H.
  injection H0 as _ <-. cbn [cx_cgroup]. now rewrite Q.
Qed.

Lemma process_record p cs e h misc sm t :
  process p = Ok cs -> normalizer_env p = Ok e ->
  pp_events p = h ++ {| ev_misc := misc; ev_what := EvSample sm |} :: t -> event_index e sm <> (-1)%Z ->
  exists cs0 c cs2, cs = cs0 ++ HSample c :: cs2 /\ delivered e (rev h) misc sm None c /\
    (forall pid tid, thread_name (rev cs0) pid tid = name_at (ne_comm_exec e) (rev h) pid tid) /\
    cx_cgroup c = match s_cgroup sm with None => None | Some id => path_at (rev h) id end.
Proof.
  intros H He Hp Hi. destruct (process_at p cs h _ t H Hp) as (e' & s0 & cs0 & s1 & c1 & cs2 & He' & Hr & Ho & ->).
  rewrite He in He'. injection He' as <-. pose proof (run_inv0 _ _ _ _ Hr) as I.
  destruct (on_sample_spec e (rev h) s0 misc sm None I) as (s' & cs' & Os & _ & _ & D). cbn zeta beta in D.
  destruct (Z.eqb_spec (event_index e sm) (-1)); [contradiction|]. destruct D as (c & -> & D).
  unfold on_event in Ho. cbn [ev_what ev_misc] in Ho. rewrite Os in Ho. injection Ho as <- <-.
  exists cs0, c, cs2. split; [reflexivity|]. split; [exact D|].
  destruct (run_names e h _ _ Hr) as (A & B). split; [exact A|].
  rewrite (on_sample_cgroup _ _ _ _ _ _ _ _ I Os). destruct (s_cgroup sm); [apply B|reflexivity].
Qed.

(** Every sample delivered is one of the events, or a lost one, or of a trace. *)
Definition from_event (e : nenv) (evs : list perf_event) (cx : sctx) : Prop :=
  (exists ev, In ev evs /\ ev_what ev = EvSample (cx_sample cx)) \/
  (s_ip (cx_sample cx) = 9 * 2 ^ 60 /\ cx_map cx <> None /\ thread_only (sample_facts (cx_sample cx))) \/
  (ne_spe e = true /\ thread_only (sample_facts (cx_sample cx))).
Lemma on_sample_is e s misc sm spe s' cs cx : on_sample e s misc sm spe = Ok (s', cs) -> In (HSample cx) cs -> cx_sample cx = sm.
Proof.
  unfold on_sample. destruct (_ =? -1)%Z; intros H I; [injection H as _ <-; contradiction|].
  ok_inv H. ok_inv H0. ok_inv H. destruct a1 as (s1, main). ok_inv H0. ok_inv H. ok_inv H0. ok_inv H.
  injection H0 as _ <-. destruct I as [I|[]]. injection I as <-. reflexivity.
Qed.
Lemma spe_thread_only e cx : forall rs s s' cs, on_spe_records e s rs = Ok (s', cs) -> In (HSample cx) cs ->
  thread_only (sample_facts (cx_sample cx)).
Proof.
  induction rs as [|r rs IH]; intros s s' cs; cbn [on_spe_records]; intros H I; [injection H as _ <-; contradiction|].
  ok_inv H. destruct a as (s1, c1). ok_inv H0. destruct a as (s2, c2). injection H as _ <-. apply in_app_or in I as [I|I]; [|eauto].
  unfold on_spe_record in E. destruct (if _ =? 0 then _ else _) as (pid, miss) in E.
  rewrite (on_sample_is _ _ _ _ _ _ _ _ E I). repeat split.
Qed.
Lemma step_samples e s ev s' cs cx : on_event e s ev = Ok (s', cs) -> In (HSample cx) cs -> from_event e [ev] cx.
Proof.
  assert (Lost : forall s l s' cs, deliver_lost e s l = Ok (s', cs) -> In (HSample cx) cs -> from_event e [ev] cx).
  { clear. intros s l s' cs. unfold deliver_lost. destruct (event_index _ _ =? -1)%Z; intros H I; [injection H as _ <-; contradiction|].
    destruct (fake_mapping _ _ _ _ _) as (s1, p). ok_inv H. injection H0 as _ <-. apply repeat_spec in I. injection I as ->.
    right. left. cbn [cx_sample s_ip cx_map]. split; [reflexivity|]. split; [discriminate|]. repeat split. }
  assert (Map : forall s m s' cs, on_mmap e s m = Ok (s', cs) -> ~ In (HSample cx) cs).
  { clear. intros s m s' cs. unfold on_mmap. destruct (mm_len m =? 0); intros H; [injection H as _ <-; auto|].
    ok_inv H. ok_inv H0. ok_inv H. injection H0 as _ <-. intros [Q|[]]. discriminate Q. }
  unfold on_event. destruct ev as [misc what]. cbn [ev_what ev_misc].
  destruct what as [m|c|f|id path|l|l|sm|ty|tr bs|k|]; intros H I;
    try (injection H as _ <-; contradiction).
  - ok_inv H. destruct a as (s1, c1). injection H0 as _ <-. exfalso. eapply Map; eauto.
  - unfold on_comm in H. destruct (cm_pid c =? cm_tid c); injection H as _ <-; destruct I as [I|[]]; discriminate I.
  - destruct (ne_lost_samples e); [eapply Lost; eauto|injection H as _ <-; contradiction].
  - destruct (ne_lost_samples e); [injection H as _ <-; contradiction|eapply Lost; eauto].
  - left. eexists. split; [now left|]. cbn [ev_what]. f_equal. symmetry. eapply on_sample_is; eauto.
  - destruct tr; [|injection H as _ <-; contradiction]. destruct (ne_spe e) eqn:Sp; [|injection H as _ <-; contradiction].
    ok_inv H. right. right. split; [exact Sp|]. eapply spe_thread_only; eauto.
  - destruct ((ks_type k =? 1) && (ks_flags k =? 0)); [exfalso; eapply Map; eauto|injection H as _ <-; contradiction].
Qed.
Lemma run_samples e evs cx : forall s s' cs, run_events e s evs = Ok (s', cs) -> In (HSample cx) cs ->
  from_event e evs cx.
Proof.
  induction evs as [|ev evs IH]; intros s s' cs H I; cbn [run_events] in H; [injection H as _ <-; contradiction|].
  ok_inv H. destruct a as (s1, c1). ok_inv H0. destruct a as (s2, c2). injection H as _ <-. apply in_app_or in I as [I|I].
  - destruct (step_samples _ _ _ _ _ _ E I) as [(v & [<-|[]] & Q)|Q]; [left|right; exact Q]. exists ev. split; [now left|exact Q].
  - destruct (IH _ _ _ E0 I) as [(v & Iv & Q)|Q]; [left|right; exact Q]. exists v. split; [now right|exact Q].
Qed.
Lemma process_samples p cs e cx : process p = Ok cs -> normalizer_env p = Ok e -> In (HSample cx) cs ->
  from_event e (pp_events p) cx.
Proof.
  intros H He. unfold process in H. rewrite He in H. cbn [obind] in H. ok_inv H. destruct a as (s, c). injection H0 as <-.
  eapply run_samples; eauto.
Qed.
