(** Where the mapping objects of the Normalizer come from. *)
From Coq Require Import String.
From Verif Require Import Base BytesModel TextModel TextProofs Assoc PerfProto NormalizerModel NormalizerSpec NormalizerProofs
  NormalizerStepProofs NormalizerMoreProofs NormalizerBuildProofs SuccessProofs.
Local Open Scope N_scope.
Local Open Scope list_scope.

Definition origin (e : nenv) (h : list perf_event) (m : hmapping) : Prop :=
  (exists ev mm, In ev h /\ announced ev = Some mm /\ describes e m mm) \/
  (exists ev c, In ev h /\ ev_what ev = EvComm c /\ hm_file m = cm_comm c /\ hm_md5 m = cm_md5 c /\
     hm_start m = 0 /\ hm_limit m = 1 /\ hm_off m = 0 /\
     (fst (hm_build m) = [] \/
      exists ev' mm b, In ev' h /\ announced ev' = Some mm /\ get_build_id e mm = Ok b /\ fst b = fst (hm_build m))) \/
  (hm_file m = lost_name /\ hm_start m = 9 * 2 ^ 60 /\ hm_limit m = 9 * 2 ^ 60 + 1 /\ hm_off m = 0 /\ fst (hm_build m) = [] /\
   hm_md5 m = lost_md5).

Lemma origin_more e h h' m : (forall ev, In ev h -> In ev h') -> origin e h m -> origin e h' m.
Proof.
  intros S [(ev & mm & I & A & D)|[(ev & c & I & A & B)|L]]; [left|right; left|right; right; exact L].
  - exists ev, mm. auto.
  - exists ev, c. split; [auto|]. split; [exact A|]. destruct B as (B1 & B2 & B3 & B4 & B5 & B6).
    do 5 (split; [assumption|]). destruct B6 as [B6|(ev' & mm & b & I' & C)]; [now left|right].
    exists ev', mm, b. split; [auto|exact C].
Qed.

(** The build id of an object is none or that of a mapping. *)
Lemma origin_build e h m : origin e h m -> fst (hm_build m) = [] \/
  exists ev' mm b, In ev' h /\ announced ev' = Some mm /\ get_build_id e mm = Ok b /\ fst b = fst (hm_build m).
Proof.
  intros [(ev & mm & I & A & D)|[(ev & c & I & A & _ & _ & _ & _ & _ & B)|L]].
  - right. exists ev, mm, (hm_build m). split; [exact I|]. split; [exact A|]. split; [apply D|reflexivity].
  - exact B.
  - left. apply L.
Qed.

Definition HInv (e : nenv) (h : list perf_event) (s : nstate) : Prop :=
  Forall (origin e h) (ns_heap s) /\
  (forall pid c, aget N.eqb pid (ns_comm s) = Some c -> exists ev, In ev h /\ ev_what ev = EvComm c).

Lemma hinv_same e h h' s s' : HInv e h s -> (forall ev, In ev h -> In ev h') -> ns_heap s' = ns_heap s -> ns_comm s' = ns_comm s ->
  HInv e h' s'.
Proof.
  intros (F & C) S H1 H2. split.
  - rewrite H1. eapply Forall_impl; [|exact F]. intros m. now apply origin_more.
  - rewrite H2. intros pid c G. destruct (C pid c G) as (ev & I & W). eauto.
Qed.

(** The references a step hands out. *)
Definition all_from (e : nenv) (h : list perf_event) (l : list mref) : Prop := Forall (fun r => origin e h (snd r)) l.
Lemma deref_from e h s p m : HInv e h s -> deref s p = Ok m -> origin e h m.
Proof.
  intros (F & _). unfold deref. destruct (nth_error (ns_heap s) p) eqn:E; [|discriminate]. intros H. injection H as <-.
  apply nth_error_In in E. rewrite Forall_forall in F. auto.
Qed.
Lemma oref_from e h s o r : HInv e h s -> oref s o = Ok r -> all_from e h (opt_list r).
Proof.
  intros I. destruct o as [p|]; cbn; intros H; [|injection H as <-; constructor].
  ok_inv H. injection H0 as <-. constructor; [|constructor]. exact (deref_from _ _ _ _ _ I E).
Qed.
Lemma mref_from e h s pid ip c r : HInv e h s -> get_mref s pid ip c = Ok r -> all_from e h (opt_list r).
Proof. unfold get_mref. intros I H. ok_inv H. eapply oref_from; eauto. Qed.
Lemma chain_from e h s pid : HInv e h s -> forall ips c l, chain_loop s pid c ips = Ok l ->
  all_from e h (flat_map (fun x => opt_list (snd x)) l).
Proof.
  intros I. induction ips as [|ip ips IH]; intros c l; cbn [chain_loop]; intros H; [injection H as <-; constructor|].
  destruct (negb _).
  - ok_inv H. injection H0 as <-. cbn. eauto.
  - ok_inv H. ok_inv H0. injection H as <-. cbn [flat_map snd]. apply Forall_app. split; [eapply mref_from; eauto|eapply IH; eauto].
Qed.
Lemma branch_from e h s pid : HInv e h s -> forall bs l, branch_loop s pid bs = Ok l ->
  all_from e h (flat_map (fun b => opt_list (bp_from_map b) ++ opt_list (bp_to_map b)) l).
Proof.
  intros I. induction bs as [|b bs IH]; intros l; cbn [branch_loop]; intros H; [injection H as <-; constructor|].
  ok_inv H. ok_inv H0. ok_inv H. injection H0 as <-. cbn [flat_map bp_from_map bp_to_map].
  rewrite <- app_assoc. apply Forall_app. split; [eapply mref_from; eauto|]. apply Forall_app. split; [eapply mref_from; eauto|eapply IH; eauto].
Qed.

Lemma fake_hinv e h s c b md start s' p : HInv e h s ->
  origin e h {| hm_file := c; hm_build := b; hm_start := start; hm_limit := w64 (start + 1); hm_off := 0; hm_md5 := md |} ->
  fake_mapping s c b md start = (s', p) -> HInv e h s'.
Proof.
  intros (F & C) O. unfold fake_mapping. destruct (aget fake_key_eqb _ _); intros H; injection H as <- _; [split; auto|].
  split; [|exact C]. cbn [ns_heap set_fake set_heap]. apply Forall_app. split; [exact F|]. constructor; [exact O|constructor].
Qed.

Lemma main_hinv e h s pid c s' o : HInv e h s -> main_mapping s pid c = Ok (s', o) -> HInv e h s'.
Proof.
  intros I. unfold main_mapping. destruct (aget N.eqb pid (ns_exec s)); intros H; [injection H as <- _; exact I|].
  destruct (actx_eqb c CHostKernel); [|injection H as <- _; exact I].
  destruct (aget N.eqb pid (ns_comm s)) as [cm|] eqn:G.
  - ok_inv H. destruct (fake_mapping s _ _ _ _) as (s1, q) eqn:F. injection H0 as <- _.
    refine (fake_hinv e h s _ _ _ _ _ _ I _ F). right. left.
    destruct (proj2 I pid cm G) as (ev & Iv & W). exists ev, cm. split; [exact Iv|]. split; [exact W|].
    cbn [hm_file hm_md5 hm_start hm_limit hm_off hm_build]. do 5 (split; [reflexivity|]).
    destruct (aget N.eqb kernel_pid (ns_exec s)) as [k|]; [|injection E as <-; now left].
    ok_inv E. injection H as <-. cbn [fst]. unfold deref in E0.
    destruct (nth_error (ns_heap s) k) as [km|] eqn:Ek; [|discriminate]. injection E0 as <-.
    apply nth_error_In in Ek. destruct I as (F0 & _). rewrite Forall_forall in F0. exact (origin_build e h km (F0 km Ek)).
  - destruct (pid =? 0); injection H as <- _; exact I.
Qed.


Definition SInv (e : nenv) (h : list perf_event) (s : nstate) (cs : list hcall) : Prop := HInv e h s /\ all_from e h (flat_map refs_of cs).
Lemma sinv_same e h s s' cs : SInv e h s cs -> ns_heap s' = ns_heap s -> ns_comm s' = ns_comm s -> SInv e h s' cs.
Proof. intros (I & F) A B. split; [exact (hinv_same _ _ _ _ _ I (fun _ x => x) A B)|exact F]. Qed.
Lemma sinv_none e h s : HInv e h s -> SInv e h s [].
Proof. intros I. split; [exact I|constructor]. Qed.

Lemma sample_hinv e h s misc sm spe s' cs : HInv e h s -> on_sample e s misc sm spe = Ok (s', cs) -> SInv e h s' cs.
Proof.
  intros I. unfold on_sample. set (index := match spe with Some _ => 0%Z | None => event_index e sm end).
  destruct (index =? -1)%Z; intros H.
  { injection H as <- <-. exact (sinv_same _ _ _ _ _ (sinv_none _ _ _ I) eq_refl eq_refl). }
  ok_inv H. rename a into mp. ok_inv H0. rename a into ad. ok_inv H. destruct a as (s1, o).
  ok_inv H0. rename a into main. ok_inv H. rename a into ch. ok_inv H0. rename a into bs.
  ok_inv H. rename a into bs'. injection H0 as <- <-.
  pose proof (main_hinv _ _ _ _ _ _ _ I E1) as J.
  refine (sinv_same e h s1 _ _ _ eq_refl eq_refl). split; [exact J|].
  cbn [flat_map app refs_of cx_main cx_map cx_addr cx_chain cx_branch]. rewrite app_nil_r.
  apply Forall_app. split; [exact (oref_from _ _ _ _ _ J E2)|].
  apply Forall_app. split; [exact (mref_from _ _ _ _ _ _ _ I E)|].
  apply Forall_app. split.
  { destruct (s_addr sm); [exact (mref_from _ _ _ _ _ _ _ I E0)|injection E0 as <-; constructor]. }
  apply Forall_app. split; [exact (chain_from _ _ _ _ J _ _ _ E3)|].
  pose proof (branch_from _ _ _ _ J _ _ E4) as B.
  destruct spe as [r|]; [|injection E5 as <-; auto].
  destruct (negb _) in E5; [|injection E5 as <-; auto].
  ok_inv E5. injection H as <-. rewrite flat_map_app. apply Forall_app. split; auto.
  cbn [flat_map bp_from_map bp_to_map]. rewrite app_nil_r. apply Forall_app. split.
  - exact (mref_from _ _ _ _ _ _ _ I E).
  - exact (mref_from _ _ _ _ _ _ _ J E6).
Qed.

Lemma lost_hinv e h s l s' cs : HInv e h s -> deliver_lost e s l = Ok (s', cs) -> SInv e h s' cs.
Proof.
  intros I. unfold deliver_lost. destruct (_ =? -1)%Z; intros H.
  { injection H as <- <-. exact (sinv_same _ _ _ _ _ (sinv_none _ _ _ I) eq_refl eq_refl). }
  destruct (fake_mapping _ _ _ _ _) as (s1, p) eqn:F. ok_inv H. injection H0 as <- <-.
  assert (J : HInv e h s1).
  { refine (fake_hinv e h (add_stat (Z.of_N (lo_lost l)) (Z.of_N (lo_lost l)) 0 0 s) _ _ _ _ _ _ (hinv_same e h h s _ I (fun _ x => x) eq_refl eq_refl) _ F).
    right. right. cbn [hm_file hm_md5 hm_start hm_limit hm_off hm_build fst]. repeat split. }
  split; [exact J|]. apply Forall_flat_map, Forall_forall. intros x Hx. apply repeat_spec in Hx. subst x.
  cbn. constructor; [|constructor]. exact (deref_from _ _ _ _ _ J E).
Qed.

Lemma spe_hinv e h : forall rs s s' cs, HInv e h s -> on_spe_records e s rs = Ok (s', cs) -> SInv e h s' cs.
Proof.
  induction rs as [|r rs IH]; intros s s' cs I; cbn [on_spe_records]; intros H; [injection H as <- <-; exact (sinv_none _ _ _ I)|].
  ok_inv H. destruct a as (s1, c1). ok_inv H0. destruct a as (s2, c2). injection H as <- <-.
  unfold on_spe_record in E. destruct (if _ =? 0 then _ else _) as (pid, miss) in E.
  apply (sample_hinv e h) in E as (J & F1); [|exact (hinv_same _ _ _ _ _ I (fun _ x => x) eq_refl eq_refl)].
  destruct (IH s1 s2 c2 J E0) as (K & F2). split; [exact K|]. rewrite flat_map_app. apply Forall_app. auto.
Qed.

Lemma rename_origin e h f : forall l o om, nth_error l o = Some om -> hm_start om = 0x400000 -> hm_file om = [] ->
  Forall (origin e h) l -> Forall (origin e h) (rename l o f).
Proof.
  induction l as [|m l IH]; intros o om E S N0 F; [destruct o; discriminate E|]. inversion F as [|? ? O F']; subst.
  destruct o as [|o]; cbn [rename nth_error] in *.
  - injection E as ->. constructor; [|exact F']. destruct O as [(ev & mm & I & A & D)|[(ev & c & I & A & _ & _ & B & _)|(_ & B & _)]].
    + left. exists ev, mm. split; [exact I|]. split; [exact A|]. destruct D as (D1 & D2 & D3 & D4 & D5 & D6).
      unfold describes. cbn [hm_start hm_limit hm_off hm_md5 hm_build hm_file]. do 5 (split; [assumption|]).
      right. split; [|congruence]. destruct D6 as [D6|(D6 & _)]; congruence.
    + exfalso. rewrite S in B. discriminate B.
    + exfalso. rewrite S in B. discriminate B.
  - constructor; [exact O|]. eapply IH; eauto.
Qed.

Lemma guess_hinv e h s m start p s' : HInv e h s -> guess_main s m start p = Ok s' -> HInv e h s'.
Proof.
  intros I. unfold guess_main. destruct (_ || _); intros H; [injection H as <-; exact (hinv_same _ _ _ _ _ I (fun _ x => x) eq_refl eq_refl)|].
  ok_inv H. ok_inv H0.
  assert (J : HInv e h a).
  { destruct (aget N.eqb (mm_pid m) (ns_exec s)) as [o|]; [|injection E as <-; exact I].
    ok_inv E. destruct (_ && _ && _) eqn:C; injection H0 as <-; [|exact I].
    apply andb_prop in C as (C & _). apply andb_prop in C as (C1 & C). apply N.eqb_eq in C1.
    unfold deref in E1. destruct (nth_error (ns_heap s) o) as [om|] eqn:En; [|easy]. injection E1 as ->.
    split; [|exact (proj2 I)]. cbn [ns_heap set_heap]. refine (rename_origin e h _ _ _ _ En C1 _ (proj1 I)). now destruct (hm_file a1). }
  destruct (negb a0); [injection H as <-; exact (hinv_same _ _ _ _ _ J (fun _ x => x) eq_refl eq_refl)|].
  destruct (_ && _); injection H as <-; [exact (hinv_same _ _ _ _ _ J (fun _ x => x) eq_refl eq_refl)|exact J].
Qed.

Lemma mmap_hinv e h s ev m s' cs : HInv e h s -> In ev h -> announced ev = Some m -> on_mmap e s m = Ok (s', cs) -> SInv e h s' cs.
Proof.
  intros I Iv A. unfold on_mmap. destruct (mm_len m =? 0); intros H; [injection H as <- <-; exact (sinv_none _ _ _ I)|].
  ok_inv H. ok_inv H0. ok_inv H. injection H0 as <- <-.
  match goal with |- SInv _ _ _ [HMMap _ (_, ?hm)] => assert (O : origin e h hm) end.
  { left. exists ev, m. split; [exact Iv|]. split; [exact A|]. unfold describes. cbn [hm_start hm_limit hm_off hm_md5 hm_build hm_file].
    split; [apply start_of_eq|]. split; [apply limit_of_eq|]. repeat split; auto. }
  split; [|cbn; constructor; [exact O|constructor]]. refine (guess_hinv e h _ _ _ _ _ _ E1).
  split; [|exact (proj2 I)]. cbn [ns_heap set_mmaps set_heap]. apply Forall_app. split; [exact (proj1 I)|]. constructor; [exact O|constructor].
Qed.

Lemma event_hinv e h s ev s' cs : HInv e h s -> on_event e s ev = Ok (s', cs) -> SInv e (ev :: h) s' cs.
Proof.
  intros I0. assert (I : HInv e (ev :: h) s) by exact (hinv_same e h (ev :: h) s s I0 (fun _ x => or_intror x) eq_refl eq_refl). clear I0.
  pose proof (sinv_none _ _ _ I) as Z.
  unfold on_event. destruct (ev_what ev) as [m|c|f|id path|l|l|sm|ty|tr bs|k|] eqn:W; intros H.
  - ok_inv H. destruct a as (s1, c1). injection H0 as <- <-.
    assert (J : SInv e (ev :: h) s1 c1). { refine (mmap_hinv e _ s ev m s1 c1 I (or_introl eq_refl) _ E). unfold announced. now rewrite W. }
    exact (sinv_same _ _ _ _ _ J eq_refl eq_refl).
  - unfold on_comm in H. destruct (cm_pid c =? cm_tid c); injection H as <- <-; [|split; [exact I|repeat constructor]].
    split; [|repeat constructor]. split; [destruct (_ || _ || _); exact (proj1 I)|]. intros pid d. cbn [ns_comm set_comm].
    assert (Q : ns_comm (if negb (ne_comm_exec e) || N.testbit (dflt (ev_misc ev)) 13 || negb (mem_by N.eqb (cm_pid c) (ns_had s))
                then set_exec (aerase N.eqb (cm_pid c) (ns_exec s)) s else s) = ns_comm s) by (destruct (_ || _ || _); reflexivity).
    rewrite Q. rewrite aget_aset. destruct (pid =? cm_pid c); [|apply (proj2 I)].
    intros G. injection G as <-. exists ev. split; [now left|exact W].
  - injection H as <- <-. unfold on_fork. destruct (_ =? _); [exact Z|]. split; [|constructor]. split; [exact (proj1 I)|].
    intros pid d. cbn [ns_comm set_exec set_comm]. unfold inherit. destruct (aget N.eqb (fk_ppid f) (ns_comm s)) as [v|] eqn:G; [|apply (proj2 I)].
    rewrite aget_aset. destruct (pid =? fk_pid f); [|apply (proj2 I)]. intros X. injection X as <-. exact (proj2 I _ _ G).
  - injection H as <- <-. exact (sinv_same _ _ _ _ _ Z eq_refl eq_refl).
  - destruct (ne_lost_samples e); [exact (lost_hinv _ _ _ _ _ _ I H)|injection H as <- <-; exact Z].
  - destruct (ne_lost_samples e); [injection H as <- <-; exact Z|exact (lost_hinv _ _ _ _ _ _ I H)].
  - exact (sample_hinv _ _ _ _ _ _ _ _ I H).
  - injection H as <- <-. exact Z.
  - destruct tr; [|injection H as <- <-; exact Z]. destruct (ne_spe e); [|injection H as <- <-; exact Z]. ok_inv H.
    exact (spe_hinv _ _ _ _ _ _ I H0).
  - destruct ((ks_type k =? 1) && (ks_flags k =? 0)) eqn:K; [|injection H as <- <-; exact Z].
    refine (mmap_hinv e _ s ev _ s' cs I (or_introl eq_refl) _ H). unfold announced. rewrite W, K. reflexivity.
  - injection H as <- <-. exact Z.
Qed.

Lemma run_hinv e : forall evs h s s' cs, HInv e h s -> run_events e s evs = Ok (s', cs) -> SInv e (rev evs ++ h) s' cs.
Proof.
  induction evs as [|ev evs IH]; intros h s s' cs I; cbn [run_events]; intros H; [injection H as <- <-; exact (sinv_none _ _ _ I)|].
  ok_inv H. destruct a as (s1, c1). ok_inv H0. destruct a as (s2, c2). injection H as <- <-.
  cbn [rev]. rewrite <- app_assoc. cbn [app]. destruct (event_hinv _ _ _ _ _ _ I E) as (J & F1).
  destruct (IH (ev :: h) s1 s2 c2 J E0) as (K & F2). split; [exact K|]. rewrite flat_map_app. apply Forall_app. split; [|exact F2].
  eapply Forall_impl; [|exact F1]. intros r. apply origin_more. intros v Iv. apply in_or_app. now right.
Qed.

(** Every mapping handed to a callback has an origin among the events. *)
Theorem process_origin p cs e k q m : process p = Ok cs -> normalizer_env p = Ok e -> In k cs -> In (q, m) (refs_of k) ->
  origin e (pp_events p) m.
Proof.
  intros H He Ik Ir. unfold process in H. rewrite He in H. cbn [obind] in H. ok_inv H. destruct a as (s, c). injection H0 as <-.
  assert (I : SInv e (rev (pp_events p) ++ []) s c).
  { refine (run_hinv e _ [] nstate0 _ _ _ E). split; [constructor|]. intros pid d G. discriminate G. }
  destruct I as (_ & F). rewrite app_nil_r in F. unfold all_from in F. rewrite Forall_forall in F.
  specialize (F (q, m)). cbn [snd] in F. apply (origin_more _ (rev (pp_events p))); [intros v; apply in_rev|].
  apply F. apply in_flat_map. eauto.
Qed.

(** Names come from comm events, whether or not there are traces of the SPE. *)
Lemma any_sample_no_comm e s misc sm spe s' cs h : on_sample e s misc sm spe = Ok (s', cs) -> In h cs -> exists cx, h = HSample cx.
Proof.
  unfold on_sample. destruct (_ =? -1)%Z; intros H I; [injection H as _ <-; contradiction|].
  ok_inv H. ok_inv H0. ok_inv H. destruct a1 as (s1, main). ok_inv H0. ok_inv H. ok_inv H0. ok_inv H.
  injection H0 as _ <-. destruct I as [<-|[]]. eauto.
Qed.
Lemma spe_no_comm e : forall rs s s' cs cm ex, on_spe_records e s rs = Ok (s', cs) -> ~ In (HComm cm ex) cs.
Proof.
  induction rs as [|r rs IH]; intros s s' cs cm ex; cbn [on_spe_records]; intros H; [injection H as _ <-; auto|].
  ok_inv H. destruct a as (s1, c1). ok_inv H0. destruct a as (s2, c2). injection H as _ <-. intros I. apply in_app_or in I as [I|I].
  - unfold on_spe_record in E. destruct (if _ =? 0 then _ else _) as (pid, miss) in E.
    destruct (any_sample_no_comm _ _ _ _ _ _ _ _ E I). discriminate.
  - exact (IH _ _ _ _ _ E0 I).
Qed.
Lemma any_comm e : forall evs s s' cs cm ex, run_events e s evs = Ok (s', cs) -> In (HComm cm ex) cs ->
  exists ev, In ev evs /\ ev_what ev = EvComm cm.
Proof.
  induction evs as [|ev evs IH]; intros s s' cs cm ex H I; cbn [run_events] in H; [injection H as _ <-; contradiction|].
  ok_inv H. destruct a as (s1, c1). ok_inv H0. destruct a as (s2, c2). injection H as _ <-. apply in_app_or in I as [I|I].
  - exists ev. split; [now left|]. destruct (ne_spe e) eqn:Sp; [|eapply event_comm; eauto].
    destruct ev as [misc what]. unfold on_event in E. cbn [ev_what ev_misc] in *.
    destruct what as [m|c|f|id path|l|l|sm|ty|tr bs|k|]; try (injection E as _ <-; contradiction).
    + ok_inv E. destruct a as (s3, c3). injection H as _ <-. exfalso. eapply mmap_no_comm; eauto.
    + unfold on_comm in E. destruct (cm_pid c =? cm_tid c); injection E as _ <-; destruct I as [I|[]]; now injection I as <- _.
    + destruct (ne_lost_samples e); [|injection E as _ <-; contradiction].
      destruct (deliver_no_comm _ _ _ _ _ _ E I). discriminate.
    + destruct (ne_lost_samples e); [injection E as _ <-; contradiction|].
      destruct (deliver_no_comm _ _ _ _ _ _ E I). discriminate.
    + destruct (sample_no_comm _ _ _ _ _ _ _ E I). discriminate.
    + rewrite Sp in E. destruct tr; [|injection E as _ <-; contradiction]. ok_inv E. exfalso. exact (spe_no_comm _ _ _ _ _ _ _ H I).
    + destruct ((ks_type k =? 1) && (ks_flags k =? 0)); [exfalso; eapply mmap_no_comm; eauto|injection E as _ <-; contradiction].
  - destruct (IH _ _ _ _ _ E0 I) as (v & Iv & Q). exists v. split; [now right|exact Q].
Qed.
Lemma process_any_comm p cs cm ex : process p = Ok cs -> In (HComm cm ex) cs ->
  exists ev, In ev (pp_events p) /\ ev_what ev = EvComm cm.
Proof.
  unfold process. intros H. ok_inv H. ok_inv H0. destruct a0 as (s, cs'). injection H as <-. exact (any_comm a _ _ _ _ _ _ E0).
Qed.
