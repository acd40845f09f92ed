(** C63: allowing unaligned mappings of jitted code only helps. *)
From Coq Require Import String.
From Verif Require Import Base BytesModel TextModel Assoc MapperModel ParserModel NormalizerProofs ConverterModel PipelineModel.
From Verif Require FileModel.
Local Open Scope N_scope.
Local Open Scope list_scope.

Definition cf (jit : bool) : pconfig := mkPConfig false false jit 4096.

Lemma split_jit m o real size id off m' : split_over m o real size id off false = Ok (true, m') ->
  split_over m o real size id off true = Ok (true, m').
Proof. unfold split_over. cbn [negb andb]. match goal with |- context [if ?b then Ok (false, _) else _] => destruct b end; [discriminate|auto]. Qed.
Lemma map_jit m real size id off j m' : map_with_id m real size id off false = Ok (true, m') ->
  map_with_id m real size id off j = Ok (true, m').
Proof.
  destruct j; [|auto]. unfold map_with_id. destruct (bad_range real size); [discriminate|].
  destruct (candidates m real size); cbn [obind]; try discriminate. destruct (collect _ _ _ _ _) as ([o|], dels); [apply split_jit|auto].
Qed.
Lemma mmap_jit m id k s m' s' : map_mmap (cf false) m id k s = Ok (Some m', s') -> map_mmap (cf true) m id k s = Ok (Some m', s').
Proof.
  unfold map_mmap. change (process_mapper (cf true)) with (process_mapper (cf false)).
  destruct (process_mapper (cf false) (m_pid m) kernel_pid s) as [(mp, s1)| | | |]; cbn [obind]; try discriminate.
  cbn [cf pc_jit pc_remap andb]. destruct (if k then _ else _) as (start, length).
  match goal with |- context [map_with_id mp start length id ?off false] =>
    destruct (map_with_id mp start length id off false) as [([|], mp')| | | |] eqn:E; cbn [obind negb]; try discriminate end.
  intros H. rewrite (map_jit _ _ _ _ _ _ _ E). cbn [obind negb]. exact H.
Qed.
Lemma chain_jit : forall l ip orig pid tid s, map_chain (cf true) ip orig pid tid l s = map_chain (cf false) ip orig pid tid l s.
Proof.
  induction l as [|a l IH]; intros; cbn [map_chain]; [reflexivity|]. rewrite !IH.
  destruct (context_max <=? a); [reflexivity|]. destruct (a =? orig); [reflexivity|].
  change (map_address (cf true)) with (map_address (cf false)).
  destruct (map_address (cf false) a pid tid s) as [(((ok, a'), l1), s1)| | | |]; cbn [obind]; try reflexivity. now rewrite IH.
Qed.
Lemma branches_jit pid tid : forall n l s, map_branches (cf true) pid tid n l s = map_branches (cf false) pid tid n l s.
Proof.
  induction n as [|n IH]; intros [|b l] s; try reflexivity. cbn [map_branches]. change (map_address (cf true)) with (map_address (cf false)).
  destruct (map_address (cf false) (b_from b) pid tid s) as [(((ok, a'), l1), s1)| | | |]; cbn [obind]; try reflexivity.
  destruct (map_address (cf false) (b_to b) pid tid s1) as [(((ok2, a2), l2), s2)| | | |]; cbn [obind]; try reflexivity. now rewrite IH.
Qed.
Lemma sample_jit i s : map_sample (cf true) i s = map_sample (cf false) i s.
Proof.
  unfold map_sample. destruct (nth_error (ps_rows s) i) as [(e, inf)|]; [|reflexivity]. destruct (e_body e); try reflexivity.
  cbv zeta. change (map_address (cf true)) with (map_address (cf false)).
  match goal with |- context [map_address ?c ?a ?p ?t ?s0] => destruct (map_address c a p t s0) as [(((ok, ip), code), s1)| | | |] end;
    cbn [obind]; try reflexivity.
  match goal with |- context [obind (if ?b then ?x else ?y) _] => destruct (if b then x else y) as [((addr, data), s2)| | | |] end;
    cbn [obind]; try reflexivity.
  rewrite chain_jit. match goal with |- context [map_chain ?c ?a ?b ?p ?t ?l ?s0] =>
    destruct (map_chain c a b p t l s0) as [(((ch, ls), okc), s3)| | | |] end; cbn [obind]; try reflexivity.
  unfold map_branch_stack. now rewrite branches_jit.
Qed.
Lemma event_jit i fk s r : process_event (cf false) i fk s = Ok r -> process_event (cf true) i fk s = Ok r.
Proof.
  unfold process_event. destruct (nth_error (ps_rows s) i) as [(e, inf)|]; [|auto]. cbv zeta.
  destruct (64 <=? e_type e); [exact (fun H => H)|]. destruct (e_type e =? 9); [rewrite sample_jit; auto|].
  destruct ((e_type e =? 1) || (e_type e =? 10)); [|exact (fun H => H)].
  match goal with |- context [map_mmap (cf false) ?m ?id ?k ?st] =>
    destruct (map_mmap (cf false) m id k st) as [([m'|], s')| | | |] eqn:E; cbn [obind]; try discriminate end.
  intros H. rewrite (mmap_jit _ _ _ _ _ _ E). exact H.
Qed.
Lemma rows_jit : forall n i fk s r, process_rows (cf false) n i fk s = Ok r -> process_rows (cf true) n i fk s = Ok r.
Proof.
  induction n as [|n IH]; intros i fk s r; cbn [process_rows]; [auto|].
  destruct (process_event (cf false) i fk s) as [x| | | |] eqn:E; cbn [obind]; try discriminate.
  rewrite (event_jit _ _ _ _ E). cbn [obind]. destruct x as ([k|], s'); auto.
Qed.
Lemma parse_jit evs r : parse_raw_events (cf false) evs = Ok r -> parse_raw_events (cf true) evs = Ok r.
Proof.
  unfold parse_raw_events, process_events. destruct (process_rows (cf false) _ _ _ _) as [x| | | |] eqn:E; cbn [obind]; try discriminate.
  rewrite (rows_jit _ _ _ _ _ E). auto.
Qed.

(** The converter does not look at this option. *)
Section Options.
Variables (d : PerfProto.perf_proto) (l o o' : N) (t : list (N * list N)).
Hypothesis Same : forall b, b <> 2 -> N.testbit o b = N.testbit o' b.
Let c := Build_cfg d l o t.
Let c' := Build_cfg d l o' t.
Lemma opted_same b : b <> 2 -> opted c b = opted c' b.
Proof using Same. exact (Same b). Qed.
Lemma check_same b m : check_main c b m = check_main c' b m.
Proof using Same. unfold check_main. now rewrite !(opted_same kGroupByPids), !(opted_same kFailOnMainMappingMismatch) by discriminate. Qed.
Lemma get_same s cx : get_or_create c s cx = get_or_create c' s cx.
Proof using Same.
  unfold get_or_create. rewrite (opted_same kGroupByPids) by discriminate. destruct (pi_builder _) as [bi|]; [|reflexivity].
  destruct (at_ _ _); cbn [obind]; try reflexivity. now rewrite check_same.
Qed.
Lemma call_same s h : on_call c s h = on_call c' s h.
Proof using Same.
  destruct h as [cx|cm e|pid (q, m)]; [|reflexivity|reflexivity]. cbn [on_call]. unfold on_sample_call.
  replace (accepted c' cx) with (accepted c cx) by (unfold accepted; now rewrite (opted_same kDropLostEvents) by discriminate).
  destruct (negb (accepted c cx)); [reflexivity|]. rewrite get_same, (opted_same kAddDataAddressFrames) by discriminate. reflexivity.
Qed.
Lemma run_same : forall hs s, run_calls c s hs = run_calls c' s hs.
Proof using Same.
  induction hs as [|h hs IH]; intros s; [reflexivity|]. cbn [run_calls]. rewrite call_same.
  destruct (on_call c' s h) as [(s1, x)| | | |]; cbn [obind]; try reflexivity. now rewrite IH.
Qed.
Lemma convert_same : convert c = convert c'.
Proof using Same.
  unfold convert. change (cf_data c') with (cf_data c). destruct (NormalizerModel.process (cf_data c)); cbn [obind]; try reflexivity.
  now rewrite run_same.
Qed.
End Options.

Lemma raw_jit md5 base order bytes build_ids labels o o' types ps :
  (forall b, b <> 2 -> N.testbit o b = N.testbit o' b) -> N.testbit o 2 = false ->
  raw_to_profiles md5 base order bytes build_ids labels o types = Ok ps ->
  raw_to_profiles md5 base order bytes build_ids labels o' types = Ok ps.
Proof.
  intros Same B. unfold raw_to_profiles. destruct (FileModel.read_perf_data _ bytes) as [st| | | |]; auto.
  intros H. ok_inv H. assert (E' : to_proto md5 base order o' build_ids (swapped bytes) st = Ok a).
  { revert E. unfold to_proto. destruct (PipelineModel.each _ _); cbn [obind]; try discriminate.
    destruct (arrange st build_ids _) as (ys, bs). destruct (huge_pages md5 order ys); cbn [obind]; try discriminate.
    unfold parser_options. rewrite B. fold (cf false). fold (cf (N.testbit o' 2)).
    destruct (parse_raw_events (cf false) _) as [r| | | |] eqn:P; cbn [obind]; try discriminate.
    destruct (N.testbit o' 2); [rewrite (parse_jit _ _ P)|rewrite P]; auto. }
  rewrite E'. cbn [obind]. rewrite <- (convert_same a labels o o' types Same). exact H0.
Qed.
