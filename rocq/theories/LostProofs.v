(** C67: lost samples are shown. *)
From Coq Require Import String.
From Verif Require Import Base BytesModel TextModel Assoc ProfileModel PerfProto NormalizerModel NormalizerSpec NormalizerProofs
  NormalizerMoreProofs NormalizerStepProofs NormalizerMainProofs NormalizerBuildProofs ConverterModel ConverterSpec
  ConverterFinalProofs ConverterProps.
From Verif Require Import PipelineSpec PipelineCallProofs PipelineProofs SuccessProofs RecordSpec RecordNameProofs RecordProofs LostSpec.
Local Open Scope N_scope.
Local Open Scope list_scope.

(** ** The samples a report makes *)
Definition lost_record (id pid tid : N) : sample_ev :=
  {| s_ip := 9 * 2 ^ 60; s_pid := Some pid; s_tid := Some tid; s_time := None; s_addr := None; s_id := Some id; s_period := 0;
     s_cpu := None; s_callchain := []; s_branch := []; s_weight := None; s_wstruct := None; s_data_src := None;
     s_cgroup := None; s_data_page := None; s_code_page := None |}.
Definition lost_context (index : Z) (id pid tid : N) (r : mref) : sctx :=
  {| cx_misc := None; cx_sample := lost_record id pid tid; cx_main := None; cx_map := Some r; cx_addr := None; cx_chain := [];
     cx_branch := []; cx_attr := index; cx_cgroup := None; cx_lost := true; cx_spe := None |}.

Lemma process_report p cs h l misc t (kind : bool) e :
  process p = Ok cs -> normalizer_env p = Ok e ->
  pp_events p = h ++ {| ev_misc := misc; ev_what := if kind then EvLostSamples l else EvLost l |} :: t ->
  ne_lost_samples e = kind ->
  forall i, event_index e (lost_record (lo_id l) (lo_pid l) (lo_tid l)) = Z.of_nat i ->
  exists cs0 q m cs2,
    cs = cs0 ++ repeat (HSample (lost_context (Z.of_nat i) (lo_id l) (lo_pid l) (lo_tid l) (q, m))) (N.to_nat (lo_lost l)) ++ cs2 /\
    (forall pid tid, thread_name (rev cs0) pid tid = name_at (ne_comm_exec e) (rev h) pid tid).
Proof.
  intros H He Hp Hk i Ei. destruct (process_at p cs h _ t H Hp) as (e' & s0 & cs0 & s1 & c1 & cs2 & He' & Hr & Ho & ->).
  rewrite He in He'. injection He' as <-.
  assert (D : deliver_lost e s0 l = Ok (s1, c1)).
  { unfold on_event in Ho. cbn [ev_what] in Ho. destruct kind; cbn in Ho; rewrite Hk in Ho; exact Ho. }
  unfold deliver_lost in D. cbv zeta in D. unfold lost_record in Ei. change (9 * 2 ^ 60) with lost_ip in Ei. rewrite Ei in D.
  destruct (Z.eqb_spec (Z.of_nat i) (-1)) as [Q|_]; [lia|].
  destruct (fake_mapping _ _ _ _ _) as (s2, q) eqn:Fk. ok_inv D. injection H0 as _ <-.
  exists cs0, q, a, cs2. split; [reflexivity|].
  now destruct (run_names e h _ _ Hr) as (A & _).
Qed.

(** ** Where they are placed *)
Lemma repeat_at {A} (x : A) n : forall l j r, (j < n)%nat -> nth_error (l ++ repeat x n ++ r) (List.length l + j) = Some x.
Proof.
  intros l j r L. rewrite nth_error_app2 by lia. replace (List.length l + j - List.length l)%nat with j by lia.
  rewrite nth_error_app1 by (now rewrite repeat_length). now apply nth_error_repeat.
Qed.
Lemma count_placed f r x : f x = true -> forall hs os k n,
  (forall j, (j < n)%nat -> nth_error hs (k + j) = Some x /\ nth_error os (k + j) = Some (Some r)) ->
  (n <= List.length (filter f (placed r hs os)))%nat.
Proof.
  intros Fx. induction hs as [|y hs IH]; intros os k n H.
  { destruct n; [lia|]. destruct (H 0%nat ltac:(lia)) as (Q & _). rewrite Nat.add_0_r in Q. destruct k; discriminate Q. }
  destruct os as [|o os].
  { destruct n; [lia|]. destruct (H 0%nat ltac:(lia)) as (_ & Q). rewrite Nat.add_0_r in Q. destruct k; discriminate Q. }
  destruct k as [|k].
  - destruct n as [|n]; [lia|]. destruct (H 0%nat ltac:(lia)) as (Q1 & Q2). injection Q1 as ->. injection Q2 as ->.
    cbn [placed]. rewrite !Nat.eqb_refl. cbn [andb filter]. rewrite Fx. cbn [List.length]. apply le_n_S. apply (IH os 0%nat).
    intros j L. destruct (H (S j) ltac:(lia)) as (A & B). split; [exact A|exact B].
  - specialize (IH os k n). transitivity (List.length (filter f (placed r hs os))).
    { apply IH. intros j L. destruct (H j L) as (A & B). split; [exact A|exact B]. }
    cbn [placed]. destruct o as [z|]; [|lia]. destruct (_ && _)%bool; [|lia]. cbn [filter]. destruct (f y); cbn [List.length]; lia.
Qed.
Lemma name_skips cx n l pid tid : thread_name (repeat (HSample cx) n ++ l) pid tid = thread_name l pid tid.
Proof. induction n as [|n IH]; [reflexivity|exact IH]. Qed.
Lemma rev_repeat {A} (x : A) n : rev (repeat x n) = repeat x n.
Proof.
  induction n as [|n IH]; [reflexivity|]. cbn [repeat rev]. rewrite IH. clear. induction n as [|n IH]; [reflexivity|]. cbn. now rewrite IH.
Qed.
Lemma firstn_repeat' {A} (x : A) k : forall n, (k <= n)%nat -> firstn k (repeat x n) = repeat x k.
Proof. induction k as [|k IH]; intros [|n] L; try reflexivity; [lia|]. cbn. f_equal. apply IH. lia. Qed.

Lemma copies_alike c cs0 cx n cs2 j : (0 < j < n)%nat ->
  alike c (cs0 ++ repeat (HSample cx) n ++ cs2) (List.length cs0) (List.length cs0 + j) cx cx.
Proof.
  intros (L0 & L). set (hs := cs0 ++ _).
  assert (Sk : skipn (List.length cs0) hs = repeat (HSample cx) n ++ cs2).
  { unfold hs. rewrite skipn_app, skipn_all, Nat.sub_diag. reflexivity. }
  assert (Bt : between (List.length cs0) (List.length cs0 + j) hs = repeat (HSample cx) (j - 1)).
  { unfold between. replace (List.length cs0 + j - S (List.length cs0))%nat with (j - 1)%nat by lia.
    replace (skipn (S (List.length cs0)) hs) with (repeat (HSample cx) (n - 1) ++ cs2).
    - rewrite firstn_app, repeat_length. replace (j - 1 - (n - 1))%nat with 0%nat by lia. cbn [firstn]. rewrite app_nil_r.
      apply firstn_repeat'. lia.
    - transitivity (skipn 1 (skipn (List.length cs0) hs)).
      + rewrite Sk. destruct n as [|n]; [lia|]. cbn [repeat app skipn]. now replace (S n - 1)%nat with n by lia.
      + clear. unfold hs. induction cs0 as [|x l IH]; [reflexivity|]. cbn [List.length app]. exact IH. }
  assert (B0 : before (List.length cs0) hs = rev cs0).
  { unfold before, hs. rewrite firstn_app, Nat.sub_diag, firstn_all. cbn [firstn]. now rewrite app_nil_r. }
  assert (Bj : before (List.length cs0 + j) hs = repeat (HSample cx) j ++ rev cs0).
  { unfold before, hs. rewrite firstn_app. replace (List.length cs0 + j - List.length cs0)%nat with j by lia.
    rewrite firstn_all2 by lia. rewrite firstn_app, repeat_length. replace (j - n)%nat with 0%nat by lia. cbn [firstn].
    rewrite app_nil_r, firstn_repeat' by lia. now rewrite rev_app_distr, rev_repeat. }
  assert (Ex : forall f : hcall -> bool, f (HSample cx) = false -> existsb f (repeat (HSample cx) (j - 1)) = false).
  { clear. intros f H. induction (j - 1)%nat as [|k IH]; [reflexivity|]. cbn. now rewrite H. }
  split; [reflexivity|]. split; [|split; [|split; [reflexivity|]]].
  - rewrite Bt. apply Ex. reflexivity.
  - rewrite B0, Bj. unfold view_of. rewrite !name_skips. reflexivity.
  - rewrite Bt. apply Forall_forall. intros a _. apply Ex. reflexivity.
Qed.

(** ** They are shown *)
Lemma lost_shown c hs ps e h misc l t (kind : bool) i :
  process (cf_data c) = Ok hs -> never_reset c hs -> convert c = Ok ps -> normalizer_env (cf_data c) = Ok e ->
  drops_lost c = false ->
  pp_events (cf_data c) = h ++ {| ev_misc := misc; ev_what := if kind then EvLostSamples l else EvLost l |} :: t ->
  ne_lost_samples e = kind ->
  event_of (map fa_ids (pp_attrs (cf_data c))) (Some (lo_id l)) = Some i -> lo_lost l <> 0 ->
  exists p s, In p ps /\
    shows_lost p s i (if grouped c then lo_pid l else 0) (lo_lost l) (lost_stack (data_frames c)) /\
    ((forall ev sm, In ev (pp_events (cf_data c)) -> ev_what ev = EvSample sm -> s_ip sm <> 9 * 2 ^ 60) ->
     Forall2 (reads (pr_data p)) (ps_label s)
       (shown_labels (cf_labels c) (cf_types c) (name_at (existsb fa_comm_exec (pp_attrs (cf_data c))) (rev h)) (fun _ => None) None
          (lost_facts (lo_pid l) (lo_tid l)))).
Proof.
  intros P NR C He Dr Hp Hk Ei Nz.
  assert (Id : event_index e (lost_record (lo_id l) (lo_pid l) (lo_tid l)) = Z.of_nat i).
  { rewrite PipelineCallProofs.event_index_id, (index_event _ _ _ He). cbn [lost_record s_id]. rewrite Ei. reflexivity. }
  assert (Bi : (i < events c)%nat) by (unfold events; rewrite <- (map_length fa_ids); now apply event_of_bound in Ei).
  destruct (process_report _ _ _ _ _ _ _ _ P He Hp Hk i Id) as (cs0 & q & m & cs2 & Ehs & Nm).
  set (cx := lost_context (Z.of_nat i) (lo_id l) (lo_pid l) (lo_tid l) (q, m)) in *. set (n := N.to_nat (lo_lost l)) in *.
  assert (Ln : (0 < n)%nat) by lia.
  assert (Hat : forall j, (j < n)%nat -> nth_error hs (List.length cs0 + j) = Some (HSample cx)).
  { intros j L. rewrite Ehs. now apply repeat_at. }
  pose proof (Hat 0%nat Ln) as Hn. rewrite Nat.add_0_r in Hn.
  assert (Bf : before (List.length cs0) hs = rev cs0).
  { unfold before. rewrite Ehs, firstn_app, Nat.sub_diag, firstn_all. cbn [firstn]. now rewrite app_nil_r. }
  assert (K : kept c cx = true).
  { unfold kept. cbn [cx lost_context cx_attr cx_lost]. rewrite Dr. cbn [andb negb].
    apply andb_true_iff. split; [|reflexivity]. apply andb_true_iff. split; [apply Z.leb_le|apply Z.ltb_lt]; lia. }
  destruct (convert_samples c hs ps P NR C) as (os & Co & As & Mg & St & La).
  destruct (pc_kept _ _ _ _ Co _ (HSample cx) Hn) as (_ & Pl). destruct Pl as (r & Hr); [eauto|].
  assert (Oat : forall j, (j < n)%nat -> nth_error os (List.length cs0 + j) = Some (Some r)).
  { intros j L. destruct (Nat.eq_dec j 0) as [->|Nj]; [now rewrite Nat.add_0_r|].
    destruct (pc_kept _ _ _ _ Co _ (HSample cx) (Hat j L)) as (_ & Pl). destruct Pl as (r' & Hr'); [eauto|].
    rewrite Hr'. do 2 f_equal. symmetry.
    apply (Mg (List.length cs0) (List.length cs0 + j)%nat cx cx r r'); [lia|split; assumption|split; [now apply Hat|exact Hr']|].
    rewrite Ehs. apply copies_alike. lia. }
  destruct (St _ cx r (conj Hn Hr)) as (p & s & Ep & Es & F). exists p, s.
  pose proof (nth_error_In _ _ Ep) as Ip. pose proof (nth_error_In _ _ Es) as Is. split; [exact Ip|].
  assert (Fd : In cx (filed (fst r) hs (assigned c hs))).
  { apply in_filed with (List.length cs0); [exact Hn|]. rewrite <- As, nth_error_map. exact (f_equal (option_map (option_map fst)) Hr). }
  destruct (C29_pid_and_span c hs ps (fst r) p P C Ep) as (_ & Pid & _ & _).
  split; [split; [rewrite <- (Pid cx Fd); reflexivity|split; [exact Is|split]]|].
  { destruct (pc_values _ _ _ _ Co r s i) as (V & _); [unfold sample_at; now rewrite Ep|exact Bi|]. rewrite V.
    assert (X : (n <= List.length (filter (sample_of c i) (placed r hs os)))%nat).
    { apply count_placed with (HSample cx) (List.length cs0); [|intros j L; split; [now apply Hat|now apply Oat]].
      unfold sample_of. rewrite K. cbn [cx lost_context cx_attr]. now rewrite Z.eqb_refl. }
    lia. }
  { replace (lost_stack (data_frames c)) with (map fst (stack_frames c cx)); [exact F|].
    unfold stack_frames, lost_stack. rewrite map_app. destruct (data_frames c); reflexivity. }
  intros Ni.
  assert (Se : ne_comm_exec e = existsb fa_comm_exec (pp_attrs (cf_data c))).
  { clear - He. unfold normalizer_env in He. destruct (fold_left add_build_id _ _). ok_inv He. injection H as <-. reflexivity. }
  destruct Se.
  assert (El : expected_labels c (rev cs0) cx =
    shown_labels (cf_labels c) (cf_types c) (name_at (ne_comm_exec e) (rev h)) (fun _ => None) None (lost_facts (lo_pid l) (lo_tid l))).
  { unfold expected_labels, shown_labels. unfold view_of, total_latency.
    cbn [vw_tid vw_time vw_mode vw_comm vw_type vw_tcomm vw_cgroup vw_code_page vw_data_page vw_cpu vw_cache vw_src vw_snoop vw_total vw_issue vw_trans].
    cbn [cx lost_context cx_spe cx_misc cx_sample cx_cgroup]. rewrite !Nm, !num_num, !str_txt, mode_txt.
    cbn [nonzero N.eqb negb]. rewrite !andb_false_r. reflexivity. }
  rewrite <- El, <- Bf. clear El.
  destruct (first_place os r _ Hr) as (j & Lj & Hj & Fj).
  assert (Lj' : (j < List.length hs)%nat) by (rewrite <- (pc_length _ _ _ _ Co); apply nth_error_Some; congruence).
  destruct (nth_error hs j) as [hj|] eqn:Ej; [|apply nth_error_None in Ej; lia].
  destruct (pc_kept _ _ _ _ Co j hj Ej) as (Pk & _). destruct Pk as (cy & -> & Ky); [eauto|].
  destruct (La j cy r (conj Ej Hj) Fj) as (p' & s' & Ep' & Es' & Fl). rewrite Ep in Ep'. injection Ep' as <-. rewrite Es in Es'. injection Es' as <-.
  destruct (Nat.eq_dec j (List.length cs0)) as [->|Nj].
  { rewrite Hn in Ej. injection Ej as <-. exact Fl. }
  assert (Al : alike c hs j (List.length cs0) cy cx).
  { apply (Mg j (List.length cs0) cy cx r r); [lia|split; assumption|split; assumption|reflexivity]. }
  destruct Al as (A1 & _ & A2 & A3 & _).
  rewrite <- (labels_alike c (before j hs) (before (List.length cs0) hs) cy cx); [exact Fl|exact A2|exact A1|..].
  all: destruct (process_samples _ _ _ cy P He (nth_error_In _ _ Ej)) as [(ev & Iev & Wev)|[(_ & _ & L1 & L2 & L3 & L4)|(_ & L1 & L2 & L3 & L4)]];
    [exfalso; apply leaf_same in A3; cbn [cx lost_context cx_map cx_sample mapped_or_zero lost_record s_ip] in A3;
     destruct (cx_map cy); cbn [mapped_or_zero] in A3; [exact (Ni _ _ Iev Wev A3)|discriminate A3]|assumption|assumption].
Qed.
