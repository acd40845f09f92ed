(** C62: a parser that does not remap leaves the events as they are. *)
From Verif Require Import Base BytesModel TextModel Assoc MapperModel ParserModel NormalizerProofs.
Local Open Scope N_scope.
Local Open Scope list_scope.

(** The event; a sample without an address gets address 0. *)
Definition filled (e : pevent) : pevent :=
  match e_body e with
  | PSample s => set_body (PSample (mkPSample (s_pid s) (s_tid s) (Some (or_0 (s_ip s))) (s_addr s) (s_chain s) (s_branch s))) e
  | _ => e
  end.
(** A mapping event has a mapping. *)
Definition has_its_map (e : pevent) : Prop :=
  e_type e = 1 \/ e_type e = 10 -> exists m, e_body e = PMap m.

Definition fills (s : pstate) : list pevent := map (fun r => filled (fst r)) (ps_rows s).
Definition evs_of (s : pstate) : list pevent := map fst (ps_rows s).

Lemma upd_nth {A} (i : nat) (f : A -> A) (l : list A) : forall j,
  nth_error (upd i f l) j = if (j =? i)%nat then option_map f (nth_error l j) else nth_error l j.
Proof.
  revert i. induction l as [|x l IH]; intros [|i] [|j]; cbn [upd nth_error Nat.eqb option_map]; auto.
  now destruct (j =? i)%nat.
Qed.
Lemma map_upd_same {A B} (g : A -> B) i (f : A -> A) l :
  (forall a, nth_error l i = Some a -> g (f a) = g a) -> map g (upd i f l) = map g l.
Proof.
  revert i. induction l as [|x l IH]; intros [|i] H; cbn [upd map]; auto.
  - now rewrite (H x eq_refl).
  - f_equal. apply IH. intros a E. exact (H a E).
Qed.

Section Parser.
Variable cf : pconfig.
Hypothesis Rm : pc_remap cf = false.

Lemma process_mapper_rows pid ppid s m s' : process_mapper cf pid ppid s = Ok (m, s') -> ps_rows s' = ps_rows s.
Proof.
  unfold process_mapper. destruct (aget N.eqb pid (ps_mappers s)); intros H; [congruence|].
  ok_inv H. injection H0 as _ <-. reflexivity.
Qed.
Lemma map_address_same ip pid tid s ok a l s' : map_address cf ip pid tid s = Ok (ok, a, l, s') ->
  a = ip /\ evs_of s' = evs_of s.
Proof.
  unfold map_address. intros H. ok_inv H. destruct a0 as (m, s1). ok_inv H0. destruct a0 as (((o, a1), l1), s2).
  rewrite Rm in H. apply process_mapper_rows in E.
  assert (G : evs_of s2 = evs_of s1).
  { destruct (get_mapped m ip) as [((a2, id), off)|]; [|now injection E0 as _ _ _ <-].
    destruct (id <=? len (ps_rows s1)); [|discriminate]. cbn [negb] in E0.
    destruct (nth_error (ps_rows s1) (N.to_nat id)) as [(e, inf)|]; [|discriminate].
    destruct (aget list_eqb _ (ps_dsos s1)); [|discriminate]. destruct (pi_hits inf); [|discriminate].
    injection E0 as _ _ _ <-. unfold evs_of. cbn [ps_rows set_rows]. apply map_upd_same. intros (e', i') _. reflexivity. }
  injection H as _ <- _ <-. split; [reflexivity|]. rewrite G. unfold evs_of. now rewrite E.
Qed.
Lemma map_chain_same ip pid tid chain : forall s c l ok s',
  map_chain cf ip ip pid tid chain s = Ok (c, l, ok, s') -> c = chain /\ evs_of s' = evs_of s.
Proof.
  induction chain as [|a r IH]; intros s c l ok s' H; cbn [map_chain] in H; [injection H as <- _ _ <-; auto|].
  destruct (context_max <=? a).
  - ok_inv H. destruct a0 as (((c1, l1), o1), s1). injection H0 as <- _ _ <-. destruct (IH _ _ _ _ _ E) as (-> & ->). auto.
  - destruct (a =? ip) eqn:A.
    + apply N.eqb_eq in A. subst a. ok_inv H. destruct a as (((c1, l1), o1), s1). injection H0 as <- _ _ <-.
      destruct (IH _ _ _ _ _ E) as (-> & ->). auto.
    + ok_inv H. destruct a0 as (((o0, a0), l0), s0). ok_inv H0. destruct a1 as (((c1, l1), o1), s1).
      injection H as <- _ _ <-. apply map_address_same in E as (-> & <-). destruct (IH _ _ _ _ _ E0) as (-> & ->). auto.
Qed.
Lemma map_branches_same pid tid n : forall l s bs ls ok s',
  map_branches cf pid tid n l s = Ok (bs, ls, ok, s') -> bs = l /\ evs_of s' = evs_of s.
Proof.
  induction n as [|n IH]; intros l s bs ls ok s' H; cbn [map_branches] in H; [injection H as <- _ _ <-; auto|].
  destruct l as [|b r]; [injection H as <- _ _ <-; auto|].
  ok_inv H. destruct a as (((o1, a1), l1), s1). ok_inv H0. destruct a as (((o2, a2), l2), s2). ok_inv H.
  destruct a as (((b3, l3), o3), s3). injection H0 as <- _ _ <-.
  apply map_address_same in E as (-> & <-). apply map_address_same in E0 as (-> & <-).
  destruct (IH _ _ _ _ _ _ E1) as (-> & ->). destruct b. auto.
Qed.
Lemma map_branch_stack_same pid tid l s bs ls ok s' : map_branch_stack cf pid tid l s = Ok (bs, ls, ok, s') ->
  bs = l /\ evs_of s' = evs_of s.
Proof.
  unfold map_branch_stack. destruct (negb _); intros H; [injection H as <- _ _ <-; auto|]. eapply map_branches_same; eauto.
Qed.

(** Rows keep their events but for the address. *)
Definition keeps (s s' : pstate) : Prop :=
  fills s' = fills s /\ map (fun r => (e_type (fst r))) (ps_rows s') = map (fun r => e_type (fst r)) (ps_rows s).
Lemma keeps_evs s s' : evs_of s' = evs_of s -> keeps s s'.
Proof.
  intros H. unfold keeps, fills, evs_of in *. split.
  - rewrite <- !(map_map fst filled). now rewrite H.
  - rewrite <- !(map_map fst e_type). now rewrite H.
Qed.
Lemma keeps_trans a b c : keeps a b -> keeps b c -> keeps a c.
Proof. intros (A1 & A2) (B1 & B2). split; congruence. Qed.

Lemma nth_evs s s' i e : evs_of s' = evs_of s -> forall r, nth_error (ps_rows s') i = Some r ->
  (exists inf, nth_error (ps_rows s) i = Some (e, inf)) -> fst r = e.
Proof.
  intros H r Hr (inf & E). assert (G : nth_error (evs_of s') i = nth_error (evs_of s) i) by now rewrite H.
  unfold evs_of in G. rewrite !nth_error_map, Hr, E in G. cbn in G. congruence.
Qed.
Lemma map_sample_keeps i s s' : map_sample cf i s = Ok s' -> keeps s s'.
Proof.
  unfold map_sample. destruct (nth_error (ps_rows s) i) as [(e, inf)|] eqn:R; [|discriminate].
  destruct (e_body e) as [sm| | | |] eqn:Bd; intros H; try (injection H as <-; now apply keeps_evs).
  ok_inv H. destruct a as (((o1, ip), code), s1). ok_inv H0. destruct a as ((addr, data), s2). ok_inv H.
  destruct a as (((chain, cl), okc), s3). ok_inv H0. destruct a as (((branch, bl), okb), s4). injection H as <-.
  apply map_address_same in E as (-> & Q1).
  assert (addr = s_addr sm /\ evs_of s2 = evs_of s1) as (-> & Q2).
  { destruct (or_0 (s_addr sm) =? 0) eqn:Z; cbn [negb] in E0; [injection E0 as <- _ <-; auto|].
    ok_inv E0. destruct a as (((o, a), l), s5). injection H as <- _ <-. apply map_address_same in E as (-> & Q).
    split.
    - destruct (s_addr sm); [reflexivity|discriminate Z].
    - rewrite <- (eq_refl : evs_of (count NData s1) = evs_of s1), <- Q. now destruct o. }
  apply map_chain_same in E1 as (-> & Q3). apply map_branch_stack_same in E2 as (-> & Q4).
  set (s5 := if o1 && okc && okb then count NSampleMapped s4 else s4).
  assert (Q5 : evs_of s5 = evs_of s) by (unfold s5; destruct (_ && _); unfold evs_of in *; cbn [ps_rows count]; congruence).
  apply keeps_trans with s5; [now apply keeps_evs|].
  assert (Q : forall r, nth_error (ps_rows s5) i = Some r -> fst r = e).
  { intros r Er. eapply nth_evs; eauto. }
  split; unfold fills; cbn [ps_rows set_rows]; apply map_upd_same; intros (e', inf') Er; cbn [fst];
    pose proof (Q _ Er) as Q'; cbn [fst] in Q'; subst e'; [|reflexivity].
  unfold filled. cbn [e_body set_body]. rewrite Bd. cbn [e_body]. reflexivity.
Qed.

Definition typed_rows (s : pstate) : Prop := Forall (fun r => has_its_map (fst r)) (ps_rows s).
Lemma filled_map e m : filled e = m -> forall pm, e_body m = PMap pm -> e_body e = PMap pm.
Proof. unfold filled. intros <- pm. destruct (e_body e) eqn:B; cbn [set_body e_body]; congruence. Qed.
Lemma filled_type e : e_type (filled e) = e_type e.
Proof. unfold filled. now destruct (e_body e). Qed.
Lemma keeps_typed s s' : keeps s s' -> typed_rows s -> typed_rows s'.
Proof.
  intros (F & _) T. unfold typed_rows, fills in *. revert F T. generalize (ps_rows s) as a, (ps_rows s') as b.
  intros a b. revert a. induction b as [|(y, iy) b IH]; intros [|(x, ix) a] F T; try discriminate; constructor.
  - cbn [map fst] in F. injection F as Fx F. inversion T; subst. cbn [fst] in *. intros Ty.
    assert (e_type y = e_type x) as Exy by (rewrite <- (filled_type x), <- Fx; symmetry; apply filled_type).
    rewrite Exy in Ty. destruct (H1 Ty) as (m & M). exists m. apply (filled_map y (filled x) Fx).
    unfold filled. now rewrite M.
  - cbn [map fst] in F. injection F as Fx F. inversion T; subst. eauto.
Qed.

Lemma process_event_keeps i fk s r s' : typed_rows s -> process_event cf i fk s = Ok (r, s') -> keeps s s'.
Proof.
  intros T. unfold process_event. destruct (nth_error (ps_rows s) i) as [(e, inf)|] eqn:R; [|discriminate].
  destruct (64 <=? e_type e); [intros H; injection H as _ <-; now apply keeps_evs|].
  destruct (e_type e =? 9).
  { intros H. ok_inv H. injection H0 as _ <-. exact (map_sample_keeps _ _ _ E). }
  destruct ((e_type e =? 1) || (e_type e =? 10)) eqn:M.
  { intros H. ok_inv H. destruct a as ([m|], s1); [|discriminate].
    assert (Tm : e_type e = 1 \/ e_type e = 10).
    { apply orb_true_iff in M as [M|M]; apply N.eqb_eq in M; auto. }
    unfold typed_rows in T. rewrite Forall_forall in T. destruct (T _ (nth_error_In _ _ R) Tm) as (pm & B).
    cbn [fst] in B. rewrite B in E. cbn [the_map] in E.
    assert (G : m = pm /\ ps_rows s1 = ps_rows s).
    { clear H0. unfold map_mmap in E. ok_inv E. destruct a as (mp, s2). apply process_mapper_rows in E0. cbn [count ps_rows] in E0.
      destruct (if fk && _ then _ else _) as (st, ln). ok_inv H. destruct a as (ok, mp').
      destruct ok; cbn [negb] in H0; [|discriminate]. rewrite Rm in H0.
      injection H0 as <- <-. split; [reflexivity|]. exact E0. }
    destruct G as (-> & G). injection H0 as _ <-.
    apply keeps_evs. unfold evs_of. cbn [set_dsos set_rows ps_rows]. rewrite G. apply map_upd_same.
    intros (e', i') E'. rewrite R in E'. injection E' as <- <-. cbn [fst]. destruct e. cbn in *. unfold set_body. cbn. now subst. }
  destruct (e_type e =? 7).
  { destruct (the_fork (e_body e)) as (((pid, ppid), tid), ptid). intros H. ok_inv H. injection H0 as _ <-.
    apply keeps_evs. unfold evs_of. f_equal. unfold map_fork in E.
    set (s1 := if pair_eqb (ppid, ptid) (pid, tid) then count NFork s else _) in E.
    assert (S1 : ps_rows s1 = ps_rows s) by (unfold s1; destruct (pair_eqb _ _); [reflexivity|]; now destruct (aget _ _ _)).
    destruct (ppid =? pid); [injection E as <-; exact S1|]. ok_inv E. destruct a0 as (m, s2). injection H as <-.
    apply process_mapper_rows in E0. cbn [snd]. congruence. }
  destruct (e_type e =? 4); [intros H; injection H as _ <-; now apply keeps_evs|].
  destruct (e_type e =? 3).
  { destruct (the_comm (e_body e)) as ((pid, tid), comm). intros H. ok_inv H. destruct a as (m, s1). injection H0 as _ <-.
    apply process_mapper_rows in E. apply keeps_evs. unfold evs_of. cbn [set_comms ps_rows snd]. now rewrite E. }
  destruct (e_type e =? 17); [intros H; injection H as _ <-; now apply keeps_evs|].
  destruct (existsb _ _); intros H; injection H as _ <-; now apply keeps_evs.
Qed.
Lemma process_rows_keeps n : forall i fk s b s', typed_rows s -> process_rows cf n i fk s = Ok (b, s') -> keeps s s'.
Proof.
  induction n as [|n IH]; intros i fk s b s' T H; cbn [process_rows] in H; [injection H as _ <-; now apply keeps_evs|].
  ok_inv H. destruct a as ([fk'|], s1); [|injection H0 as _ <-; eapply process_event_keeps; eauto].
  pose proof (process_event_keeps _ _ _ _ _ T E) as K. eapply keeps_trans; [exact K|].
  eapply IH; [|exact H0]. eapply keeps_typed; eauto.
Qed.

Lemma put_back_fills evs : forall rows rows0,
  rows0 = filter (fun e => negb (is_round e)) evs ->
  map (fun r => filled (fst r)) rows = map filled rows0 -> map filled (put_back evs rows) = map filled evs.
Proof.
  induction evs as [|e evs IH]; intros rows rows0 E F; [reflexivity|]. cbn [put_back filter] in *.
  destruct (is_round e); cbn [negb] in *.
  - cbn [map]. f_equal. eapply IH; eauto.
  - subst rows0. destruct rows as [|(e', i) rows]; [discriminate|]. cbn [map fst] in *. injection F as F1 F2.
    rewrite F1. f_equal. eapply IH; [reflexivity|exact F2].
Qed.
Theorem parse_same evs out rows s : pc_discard cf = false -> Forall has_its_map evs ->
  parse_raw_events cf evs = Ok (out, rows, s) -> map filled out = map filled evs.
Proof.
  intros D T H. unfold parse_raw_events in H. ok_inv H. destruct a as (b, s1). rewrite D in H0.
  injection H0 as <- _ _. unfold process_events in E.
  apply process_rows_keeps in E as (F & _).
  - eapply put_back_fills; [reflexivity|]. unfold fills in F. rewrite F. cbn [start_state ps_rows]. unfold rows_of.
    now rewrite map_map.
  - unfold typed_rows. cbn [start_state ps_rows]. unfold rows_of. rewrite Forall_forall in *. intros r I.
    apply in_map_iff in I as (e & <- & I). apply filter_In in I as (I & _). now apply T.
Qed.
End Parser.
