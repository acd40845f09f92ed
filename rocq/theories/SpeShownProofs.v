(** C69: the records of a trace are shown. *)
From Coq Require Import String.
From Verif Require Import Base BytesModel TextModel Assoc ProfileModel SpeModel PerfProto NormalizerModel NormalizerSpec NormalizerProofs
  NormalizerMoreProofs NormalizerStepProofs NormalizerMainProofs NormalizerBuildProofs ConverterModel ConverterSpec
  ConverterFinalProofs ConverterProps.
From Verif Require Import PipelineSpec PipelineCallProofs PipelineProofs SuccessProofs RecordSpec RecordNameProofs RecordProofs SpeShownSpec.
Local Open Scope N_scope.
Local Open Scope list_scope.

(** ** Processes of threads *)
Fixpoint given (h : list perf_event) (tid : N) : option N :=
  match h with
  | [] => None
  | ev :: h =>
      match gives_pid ev with
      | Some (t, p) => if t =? tid then Some p else given h tid
      | None => given h tid
      end
  end.
Lemma last_given h tid : last_pid h tid = dflt (given h tid).
Proof. induction h as [|ev h IH]; [reflexivity|]. cbn. destruct (gives_pid ev) as [(t, p)|]; [destruct (t =? tid)|]; auto. Qed.
Lemma t2p_given evs tid : aget N.eqb tid (fold_left t2p_step evs []) = given (rev evs) tid.
Proof.
  induction evs as [|ev evs IH] using rev_ind; [reflexivity|]. rewrite fold_left_app, rev_app_distr. cbn [fold_left rev app given].
  unfold t2p_step at 1, gives_pid. destruct (ev_what ev); try exact IH; cbn [aset aget]; rewrite N.eqb_sym;
    match goal with |- (if ?b then _ else _) = _ => destruct b; [reflexivity|exact IH] end.
Qed.

Definition trace_sample (pid : N) (r : spe_rec) : sample_ev :=
  {| s_ip := ip_addr (sr_ip r); s_pid := Some pid; s_tid := Some (trace_tid r); s_time := None; s_addr := None; s_id := None;
     s_period := 0; s_cpu := None; s_callchain := []; s_branch := []; s_weight := None; s_wstruct := None; s_data_src := None;
     s_cgroup := None; s_data_page := None; s_code_page := None |}.

(** ** What is delivered of a trace *)
Definition of_record (e : nenv) (h all : list perf_event) (r : spe_rec) (cx : sctx) : Prop :=
  delivered e h None (trace_sample (trace_pid all r) r) (Some r) cx /\ cx_cgroup cx = None.

Lemma records_delivered e h all : ne_t2p e = fold_left t2p_step all [] -> forall rs s s' cs,
  Inv e h s -> on_spe_records e s rs = Ok (s', cs) ->
  exists cxs, cs = map HSample cxs /\ Forall2 (of_record e h all) rs cxs.
Proof.
  intros T. induction rs as [|r rs IH]; intros s s' cs I H; cbn [on_spe_records] in H.
  { injection H as _ <-. exists []. split; [reflexivity|constructor]. }
  ok_inv H. destruct a as (s1, c1). ok_inv H0. destruct a as (s2, c2). injection H as _ <-.
  unfold on_spe_record in E. rewrite T, t2p_given in E. change (w32 (sc_id (sr_ctx r))) with (trace_tid r) in E.
  assert (X : exists miss, (if trace_tid r =? 0 then (0, 0%Z) else
      match given (rev all) (trace_tid r) with Some p => (p, 0%Z) | None => (0, 1%Z) end) = (trace_pid all r, miss)).
  { unfold trace_pid. rewrite last_given. destruct (trace_tid r =? 0); [eauto|]. destruct (given _ _); eauto. }
  destruct X as (miss & X). rewrite X in E. fold (trace_sample (trace_pid all r) r) in E.
  assert (I1 : Inv e h (add_stat 0 0 0 miss s)) by now apply (inv_same e h s).
  destruct (on_sample_spec e h _ None (trace_sample (trace_pid all r) r) (Some r) I1) as (s3 & c3 & Es & I3 & _ & Hc).
  rewrite Es in E. injection E as -> ->. cbn in Hc. destruct Hc as (cx & -> & D).
  destruct (IH _ _ _ I3 E0) as (cxs & -> & F). exists (cx :: cxs). split; [reflexivity|]. constructor; [|exact F].
  split; [exact D|]. exact (on_sample_cgroup _ _ _ _ _ _ _ _ I1 Es).
Qed.

Lemma env_parts p e : normalizer_env p = Ok e -> ne_spe e = has_spe (pp_events p) /\
  ne_comm_exec e = existsb fa_comm_exec (pp_attrs p) /\
  (has_spe (pp_events p) = true -> ne_t2p e = fold_left t2p_step (pp_events p) []).
Proof.
  unfold normalizer_env. destruct (fold_left add_build_id _ _). intros H. ok_inv H. injection H0 as <-.
  split; [reflexivity|]. split; [reflexivity|]. cbn [ne_t2p]. now intros ->.
Qed.

Lemma process_trace p cs e h misc buf base t rs :
  process p = Ok cs -> normalizer_env p = Ok e -> has_spe (pp_events p) = true ->
  pp_events p = h ++ {| ev_misc := misc; ev_what := EvAuxtrace (Some buf) base |} :: t ->
  decode_trace {| st_buf := buf; st_base := base; st_swap := false |} = Ok rs ->
  exists cs0 cxs cs2, cs = cs0 ++ map HSample cxs ++ cs2 /\ Forall2 (of_record e (rev h) (pp_events p)) rs cxs /\
    forall pid tid, thread_name (rev cs0) pid tid = name_at (ne_comm_exec e) (rev h) pid tid.
Proof.
  intros H He Sp Hp Dc. destruct (process_at p cs h _ t H Hp) as (e' & s0 & cs0 & s1 & c1 & cs2 & He' & Hr & Ho & ->).
  rewrite He in He'. injection He' as <-. destruct (env_parts _ _ He) as (E1 & _ & E2). rewrite Sp in E1. specialize (E2 Sp).
  unfold on_event in Ho. cbn [ev_what] in Ho. rewrite E1, Dc in Ho. cbn [obind] in Ho.
  destruct (records_delivered e (rev h) _ E2 _ _ _ _ (run_inv0 _ _ _ _ Hr) Ho) as (cxs & -> & F).
  exists cs0, cxs, cs2. split; [reflexivity|]. split; [exact F|]. now destruct (run_names e h _ _ Hr) as (A & _).
Qed.

(** ** Stack and labels *)
Section Record.
Variables (e : nenv) (h all : list perf_event) (r : spe_rec) (cx : sctx).
Hypothesis D : of_record e h all r cx.
Let pid := trace_pid all r.

Lemma trace_no_chain : cx_chain cx = [].
Proof using D.
  destruct D as (D1 & _). pose proof (dl_chain_len _ _ _ _ _ _ D1) as L. cbn in L. now destruct (cx_chain cx).
Qed.
Lemma trace_frames c : map fst (stack_frames c cx) = trace_stack (data_frames c) h pid r.
Proof using D.
  pose proof trace_no_chain as Nc. destruct D as (D1 & _).
  assert (Nb : from_branches cx = false).
  { unfold from_branches. rewrite (dl_spe _ _ _ _ _ _ D1). now destruct (cx_branch cx). }
  assert (Cc : callchain_frames cx = []) by (unfold callchain_frames; rewrite Nb, Nc; reflexivity).
  assert (Bc : branch_sources cx = []) by (unfold branch_sources; rewrite Nb; reflexivity).
  unfold stack_frames, trace_stack, code_frames. rewrite map_app. cbn [map fst]. rewrite Cc, Bc. cbn [app map].
  rewrite !mapped_start, (agrees_start _ _ _ (dl_map _ _ _ _ _ _ D1)), (dl_sample _ _ _ _ _ _ D1).
  pose proof (dl_addr _ _ _ _ _ _ D1) as A. cbn [trace_sample s_ip s_pid s_addr dflt context_from_header] in *. f_equal.
  - destruct (data_frames c); [|reflexivity]. cbn [map fst]. now rewrite A.
  - unfold pid. now destruct (resolve h _ _ _).
Qed.
Lemma trace_view c hi hj cy : of_record e h all r cy ->
  (forall p t, thread_name hi p t = thread_name hj p t) -> view_of c hi cx = view_of c hj cy.
Proof using D.
  destruct D as (D1 & G1). intros (D2 & G2) Nm. unfold view_of, total_latency.
  rewrite (dl_spe _ _ _ _ _ _ D1), (dl_spe _ _ _ _ _ _ D2), (dl_misc _ _ _ _ _ _ D1), (dl_misc _ _ _ _ _ _ D2),
    (dl_sample _ _ _ _ _ _ D1), (dl_sample _ _ _ _ _ _ D2), G1, G2, !Nm. reflexivity.
Qed.
Lemma trace_expected c hi name : (forall p t, thread_name hi p t = name p t) ->
  expected_labels c hi cx = trace_labels (cf_labels c) (cf_types c) name pid r.
Proof using D.
  destruct D as (D1 & G1). intros Nm. unfold expected_labels, trace_labels, shown_labels. unfold view_of, total_latency.
  cbn [vw_tid vw_time vw_mode vw_comm vw_type vw_tcomm vw_cgroup vw_code_page vw_data_page vw_cpu vw_cache vw_src vw_snoop vw_total vw_issue vw_trans].
  rewrite (dl_spe _ _ _ _ _ _ D1), (dl_misc _ _ _ _ _ _ D1), (dl_sample _ _ _ _ _ _ D1), G1, !Nm, !num_num, !str_txt, mode_txt.
  rewrite <- !app_assoc. reflexivity.
Qed.
End Record.

(** ** Positions *)
Definition here (r : place) (f : hcall -> bool) (hs : list hcall) (os : list (option place)) (j : nat) : bool :=
  match nth_error hs j, nth_error os j with
  | Some h, Some (Some x) => ((fst x =? fst r) && (snd x =? snd r))%nat && f h
  | _, _ => false
  end.
Lemma filter_seq f n : forall a, filter f (List.seq (S a) n) = map S (filter (fun j => f (S j)) (List.seq a n)).
Proof. induction n as [|n IH]; intros a; [reflexivity|]. cbn [List.seq filter]. rewrite IH. now destruct (f (S a)). Qed.
Lemma placed_here r f : forall hs os,
  List.length (filter f (placed r hs os)) = List.length (filter (here r f hs os) (List.seq 0 (List.length hs))).
Proof.
  induction hs as [|x hs IH]; intros os; [reflexivity|]. cbn [List.length List.seq filter]. rewrite filter_seq.
  destruct os as [|o os].
  { cbn [placed filter List.length]. unfold here at 1. cbn [nth_error]. symmetry.
    assert (Z : forall l, filter (fun j => here r f (x :: hs) [] (S j)) l = []).
    { induction l as [|j l E]; [reflexivity|]. cbn [filter]. unfold here at 1. cbn [nth_error]. now destruct (nth_error hs j). }
    now rewrite Z. }
  change (fun j => here r f (x :: hs) (o :: os) (S j)) with (here r f hs os).
  cbn [placed]. unfold here at 1. cbn [nth_error].
  destruct o as [y|]; [|now rewrite map_length, IH]. destruct (_ && _)%bool; cbn [filter andb]; [|now rewrite map_length, IH].
  destruct (f x); cbn [List.length]; now rewrite map_length, IH.
Qed.
Lemma count_positions r f hs os l : NoDup l ->
  (forall j, In j l -> exists h, nth_error hs j = Some h /\ f h = true /\ nth_error os j = Some (Some r)) ->
  (List.length l <= List.length (filter f (placed r hs os)))%nat.
Proof.
  intros Nd H. rewrite placed_here. apply NoDup_incl_length; [exact Nd|]. intros j Ij.
  destruct (H j Ij) as (h & Eh & Fh & Eo). apply filter_In. split.
  - apply in_seq. assert (j < List.length hs)%nat by (apply nth_error_Some; congruence). lia.
  - unfold here. now rewrite Eh, Eo, !Nat.eqb_refl, Fh.
Qed.

(** Between two samples of a trace there are only samples. *)
Lemma between_samples cs0 cxs cs2 i j : (i < j < List.length cxs)%nat ->
  let hs := cs0 ++ map HSample cxs ++ cs2 in
  let n := List.length cs0 in
  exists ys, between (n + i) (n + j) hs = map HSample ys /\
    before (n + i) hs = map HSample (rev (firstn i cxs)) ++ rev cs0 /\
    before (n + j) hs = map HSample (rev (firstn j cxs)) ++ rev cs0.
Proof.
  intros L hs n.
  assert (Fi : forall k, (k <= List.length cxs)%nat -> firstn (n + k) hs = cs0 ++ map HSample (firstn k cxs)).
  { intros k Lk. unfold hs, n. rewrite firstn_app, firstn_all2 by lia. f_equal.
    replace (List.length cs0 + k - List.length cs0)%nat with k by lia.
    rewrite firstn_app, map_length. replace (k - List.length cxs)%nat with 0%nat by lia. cbn [firstn]. now rewrite app_nil_r, firstn_map. }
  exists (firstn (j - S i) (skipn (S i) cxs)). split.
  - unfold between. replace (n + j - S (n + i))%nat with (j - S i)%nat by lia.
    replace (S (n + i)) with (n + S i)%nat by lia.
    assert (Sk : skipn (n + S i) hs = map HSample (skipn (S i) cxs) ++ cs2).
    { unfold hs, n. rewrite skipn_app, skipn_all2 by lia. cbn [app]. replace (List.length cs0 + S i - List.length cs0)%nat with (S i) by lia.
      rewrite skipn_app, map_length. replace (S i - List.length cxs)%nat with 0%nat by lia. now rewrite skipn_map. }
    rewrite Sk, firstn_app, map_length, skipn_length. replace (j - S i - (List.length cxs - S i))%nat with 0%nat by lia.
    cbn [firstn]. now rewrite app_nil_r, firstn_map.
  - unfold before. rewrite !Fi by lia. now rewrite !rev_app_distr, !map_rev.
Qed.
Lemma names_past cxs r pid tid : thread_name (map HSample cxs ++ r) pid tid = thread_name r pid tid.
Proof. induction cxs as [|x l IH]; [reflexivity|exact IH]. Qed.
Lemma samples_none (f : hcall -> bool) ys : (forall cx, f (HSample cx) = false) -> existsb f (map HSample ys) = false.
Proof. intros H. induction ys as [|y ys IH]; [reflexivity|]. cbn. now rewrite H. Qed.

Lemma trace_alike c e h all r cs0 cxs cs2 i j cx cy : (i < j)%nat ->
  nth_error cxs i = Some cx -> nth_error cxs j = Some cy -> of_record e h all r cx -> of_record e h all r cy ->
  alike c (cs0 ++ map HSample cxs ++ cs2) (List.length cs0 + i) (List.length cs0 + j) cx cy.
Proof.
  intros L Ei Ej Dx Dy. assert (Lj : (j < List.length cxs)%nat) by (apply nth_error_Some; congruence).
  destruct (between_samples cs0 cxs cs2 i j ltac:(lia)) as (ys & Bt & B1 & B2).
  split; [|split; [|split; [|split]]].
  - destruct Dx as (Dx & _), Dy as (Dy & _). now rewrite (dl_sample _ _ _ _ _ _ Dx), (dl_sample _ _ _ _ _ _ Dy).
  - rewrite Bt. apply samples_none. reflexivity.
  - apply (trace_view e h all r cx Dx c); [exact Dy|]. intros p t. now rewrite B1, B2, !names_past.
  - now rewrite (trace_frames _ _ _ _ _ Dx), (trace_frames _ _ _ _ _ Dy).
  - rewrite Bt. apply Forall_forall. intros a _. apply samples_none. reflexivity.
Qed.

Lemma Forall2_at {A B} (R : A -> B -> Prop) l k : Forall2 R l k -> forall i x, nth_error l i = Some x ->
  exists y, nth_error k i = Some y /\ R x y.
Proof.
  induction 1 as [|a b l k H F IH]; intros [|i] x E; try discriminate E.
  - injection E as <-. exists b. split; [reflexivity|exact H].
  - exact (IH i x E).
Qed.

(** ** They are shown *)
Lemma trace_shown c hs ps h misc buf base t rs r :
  process (cf_data c) = Ok hs -> never_reset c hs -> convert c = Ok ps -> has_spe (pp_events (cf_data c)) = true ->
  pp_events (cf_data c) = h ++ {| ev_misc := misc; ev_what := EvAuxtrace (Some buf) base |} :: t ->
  decode_trace {| st_buf := buf; st_base := base; st_swap := false |} = Ok rs -> In r rs ->
  pp_attrs (cf_data c) <> [] ->
  let pid := trace_pid (pp_events (cf_data c)) r in
  exists p s, In p ps /\
    shows_trace p s (if grouped c then pid else 0) r rs (trace_stack (data_frames c) (rev h) pid r) /\
    (same_fields (pp_events (cf_data c)) (trace_facts pid r) ->
     Forall2 (reads (pr_data p)) (ps_label s)
       (trace_labels (cf_labels c) (cf_types c) (name_at (existsb fa_comm_exec (pp_attrs (cf_data c))) (rev h)) pid r)).
Proof.
  intros P NR C Sp Hp Dc Ir Na pid.
  assert (He : exists e, normalizer_env (cf_data c) = Ok e) by (unfold process in P; ok_inv P; eauto).
  destruct He as (e & He).
  destruct (process_trace _ _ _ _ _ _ _ _ _ P He Sp Hp Dc) as (cs0 & cxs & cs2 & Ehs & F2 & Nm).
  set (all := pp_events (cf_data c)) in *. set (n := List.length cs0) in *.
  assert (Hat : forall i cx, nth_error cxs i = Some cx -> nth_error hs (n + i) = Some (HSample cx)).
  { intros i cx Ei. rewrite Ehs. unfold n. rewrite nth_error_app2 by lia. replace (List.length cs0 + i - List.length cs0)%nat with i by lia.
    rewrite nth_error_app1; [now apply map_nth_error|]. rewrite map_length. apply nth_error_Some. congruence. }
  assert (Bi : (0 < events c)%nat) by (unfold events; destruct (pp_attrs (cf_data c)); [contradiction|cbn; lia]).
  assert (K : forall q cx, of_record e (rev h) all q cx -> kept c cx = true /\ sample_of c 0 (HSample cx) = true).
  { intros q cx (D & _). assert (K : kept c cx = true).
    { unfold kept. rewrite (dl_attr _ _ _ _ _ _ D), (dl_lost _ _ _ _ _ _ D). cbn [andb negb].
      apply andb_true_iff. split; [|reflexivity]. apply andb_true_iff. split; [apply Z.leb_le|apply Z.ltb_lt]; lia. }
    split; [exact K|]. unfold sample_of. now rewrite K, (dl_attr _ _ _ _ _ _ D). }
  destruct (In_nth_error _ _ Ir) as (i & Ei). destruct (Forall2_at _ _ _ F2 i r Ei) as (cx & Ex & D).
  pose proof (Hat i cx Ex) as Hn. destruct (K r cx D) as (Kx & _).
  destruct (convert_samples c hs ps P NR C) as (os & Co & As & Mg & St & La).
  assert (Pl : forall q j cy, nth_error cxs j = Some cy -> of_record e (rev h) all q cy ->
    exists w, nth_error os (n + j) = Some (Some w)).
  { intros q j cy Ej Dy. destruct (pc_kept _ _ _ _ Co _ (HSample cy) (Hat j cy Ej)) as (_ & Q). apply Q. exists cy.
    split; [reflexivity|]. now destruct (K q cy Dy). }
  destruct (Pl r i cx Ex D) as (w & Hw).
  assert (Same : forall j cy, nth_error cxs j = Some cy -> of_record e (rev h) all r cy -> nth_error os (n + j) = Some (Some w)).
  { intros j cy Ej Dy. destruct (Pl r j cy Ej Dy) as (w' & Hw'). rewrite Hw'. do 2 f_equal.
    destruct (lt_eq_lt_dec i j) as [[L|<-]|L].
    - symmetry. apply (Mg (n + i)%nat (n + j)%nat cx cy w w'); [lia|split; [now apply Hat|assumption]..|].
      rewrite Ehs. now apply (trace_alike c e (rev h) all r).
    - congruence.
    - apply (Mg (n + j)%nat (n + i)%nat cy cx w' w); [lia|split; [now apply Hat|assumption]..|].
      rewrite Ehs. now apply (trace_alike c e (rev h) all r). }
  destruct (St _ cx w (conj Hn Hw)) as (p & s & Ep & Es & F). exists p, s.
  pose proof (nth_error_In _ _ Ep) as Ip. pose proof (nth_error_In _ _ Es) as Is. split; [exact Ip|].
  assert (Fd : In cx (filed (fst w) hs (assigned c hs))).
  { apply in_filed with (n + i)%nat; [exact Hn|]. rewrite <- As, nth_error_map. exact (f_equal (option_map (option_map fst)) Hw). }
  destruct (C29_pid_and_span c hs ps (fst w) p P C Ep) as (_ & Pid & _ & _).
  split; [split; [|split; [exact Is|split]]|].
  { rewrite <- (Pid cx Fd). unfold filed_under. destruct D as (D & _). now rewrite (dl_sample _ _ _ _ _ _ D). }
  { intros m (l & Nd & <- & Hl). destruct (pc_values _ _ _ _ Co w s 0%nat) as (V & _); [unfold sample_at; now rewrite Ep|exact Bi|].
    change (2 * 0)%nat with 0%nat in V. rewrite V. apply inj_le.
    rewrite <- (map_length (Nat.add n) l). apply count_positions.
    - apply FinFun.Injective_map_NoDup; [|exact Nd]. intros a b. lia.
    - intros k Ik. apply in_map_iff in Ik as (j & <- & Ij). destruct (Forall2_at _ _ _ F2 j r (Hl j Ij)) as (cy & Ey & Dy).
      exists (HSample cy). split; [now apply Hat|]. split; [now destruct (K r cy Dy)|now apply (Same j cy)]. }
  { unfold pid. rewrite <- (trace_frames _ _ _ _ _ D). exact F. }
  intros Sf. destruct (env_parts _ _ He) as (Se & <- & _).
  assert (Bf : forall p t, thread_name (before (n + i) hs) p t = name_at (ne_comm_exec e) (rev h) p t).
  { intros q u. rewrite <- Nm. assert (Li : (i < List.length cxs)%nat) by (apply nth_error_Some; congruence).
    unfold before. rewrite Ehs. unfold n. rewrite firstn_app, firstn_all2 by lia.
    replace (List.length cs0 + i - List.length cs0)%nat with i by lia.
    rewrite firstn_app, map_length. replace (i - List.length cxs)%nat with 0%nat by lia. cbn [firstn]. rewrite app_nil_r, firstn_map.
    now rewrite rev_app_distr, <- map_rev, names_past. }
  unfold pid. rewrite <- (trace_expected _ _ _ _ _ D c _ _ Bf).
  destruct (first_place os w _ Hw) as (j & Lj & Hj & Fj).
  assert (Lj' : (j < List.length hs)%nat) by (rewrite <- (pc_length _ _ _ _ Co); apply nth_error_Some; congruence).
  destruct (nth_error hs j) as [hj|] eqn:Ej; [|apply nth_error_None in Ej; lia].
  destruct (pc_kept _ _ _ _ Co j hj Ej) as (Pk & _). destruct Pk as (cy & -> & Ky); [eauto|].
  destruct (La j cy w (conj Ej Hj) Fj) as (p' & s' & Ep' & Es' & Fl). rewrite Ep in Ep'. injection Ep' as <-. rewrite Es in Es'. injection Es' as <-.
  destruct (Nat.eq_dec j (n + i)) as [->|Nj].
  { rewrite Hn in Ej. injection Ej as <-. exact Fl. }
  assert (Al : alike c hs j (n + i) cy cx).
  { apply (Mg j (n + i)%nat cy cx w w); [lia|split; assumption|split; assumption|reflexivity]. }
  destruct Al as (A1 & _ & A2 & _). destruct D as (D & _).
  rewrite <- (labels_alike c (before j hs) (before (n + i) hs) cy cx); [exact Fl|exact A2|exact A1|..].
  all: rewrite (dl_sample _ _ _ _ _ _ D); cbn [trace_sample s_pid s_tid s_time s_cpu present].
  all: destruct (process_samples _ _ _ cy P He (nth_error_In _ _ Ej)) as [(ev & Iev & Wev)|[(_ & _ & L1 & L2 & L3 & L4)|(_ & L1 & L2 & L3 & L4)]];
    [|assumption|assumption].
  all: destruct (Sf ev _ Iev Wev) as (B1 & B2 & B3 & B4); assumption.
Qed.
