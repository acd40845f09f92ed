(** Sample keys and labels against the specification's view of a sample. *)
From Coq Require Import String.
From Verif Require Import Base BytesModel TextModel Assoc ProfileModel BuilderModel BuilderSpec BuilderProofs
  SpeModel PerfProto NormalizerModel NormalizerSpec NormalizerProofs ConverterModel ConverterSpec ConverterProofs
  ConverterOpenProofs ConverterInvProofs.
Local Open Scope N_scope.
Local Open Scope list_scope.

Lemma mask_bit v k : (N.land v (2 ^ k) =? 0) = negb (N.testbit v k).
Proof.
  pose proof (option_on_bit {| cf_data := {| pp_attrs := []; pp_events := []; pp_build_ids := []; pp_types := [];
    pp_version := None; pp_command := None |}; cf_labels := 0; cf_options := v; cf_types := [] |} k) as H.
  unfold option_on, opted in H. cbn [cf_options] in H. rewrite <- H. now rewrite negb_involutive.
Qed.

Lemma land_lor v a b : (N.land v (N.lor a b) =? 0) = (N.land v a =? 0) && (N.land v b =? 0).
Proof.
  rewrite N.land_lor_distr_r.
  destruct (N.eqb_spec (N.lor (N.land v a) (N.land v b)) 0) as [H|H].
  - apply N.lor_eq_0_iff in H. destruct H as (-> & ->). reflexivity.
  - destruct (N.eqb_spec (N.land v a) 0) as [Ha|Ha]; [|reflexivity].
    destruct (N.eqb_spec (N.land v b) 0) as [Hb|Hb]; [|reflexivity].
    rewrite Ha, Hb in H. now contradiction H.
Qed.

Lemma level_eq v : data_src_string (mem_lvl v) = level_text v.
Proof.
  unfold data_src_string, level_text, mem_lvl. rewrite N.shiftr_div_pow2.
  generalize (v / 2 ^ 5 mod 2 ^ 14). clear v. intros l. cbn zeta.
  change (N.land l 2) with (N.land l (2 ^ 1)). rewrite mask_bit. destruct (negb (N.testbit l 1)); [reflexivity|].
  cbn [first_match].
  change (N.land l 0x300) with (N.land l (N.lor (2 ^ 8) (2 ^ 9))). rewrite land_lor.
  change (N.land l 8) with (N.land l (2 ^ 3)). change (N.land l 0x10) with (N.land l (2 ^ 4)).
  change (N.land l 0x20) with (N.land l (2 ^ 5)). change (N.land l 0x40) with (N.land l (2 ^ 6)).
  change (N.land l 0x80) with (N.land l (2 ^ 7)). change (N.land l 0x400) with (N.land l (2 ^ 10)).
  change (N.land l 0x800) with (N.land l (2 ^ 11)). change (N.land l 0x1000) with (N.land l (2 ^ 12)).
  change (N.land l 0x2000) with (N.land l (2 ^ 13)). rewrite !mask_bit. rewrite <- negb_orb.
  destruct (N.testbit l 3); [reflexivity|]. cbn [negb]. destruct (N.testbit l 4); [reflexivity|]. cbn [negb].
  destruct (N.testbit l 5); [reflexivity|]. cbn [negb]. destruct (N.testbit l 6); [reflexivity|]. cbn [negb].
  destruct (N.testbit l 7); [reflexivity|]. cbn [negb]. destruct (N.testbit l 8 || N.testbit l 9); [reflexivity|]. cbn [negb].
  destruct (N.testbit l 10); [reflexivity|]. cbn [negb]. destruct (N.testbit l 11); [reflexivity|]. cbn [negb].
  destruct (N.testbit l 12); [reflexivity|]. cbn [negb]. destruct (N.testbit l 13); reflexivity.
Qed.

Lemma snoop_eq v : snoop_string (mem_snoop v) = snoop_text v.
Proof.
  unfold snoop_string, snoop_text, mem_snoop. rewrite N.shiftr_div_pow2.
  generalize (v / 2 ^ 19 mod 2 ^ 5). clear v. intros l. cbn [first_match].
  change (N.land l 2) with (N.land l (2 ^ 1)). change (N.land l 4) with (N.land l (2 ^ 2)).
  change (N.land l 8) with (N.land l (2 ^ 3)). change (N.land l 0x10) with (N.land l (2 ^ 4)).
  rewrite !mask_bit.
  destruct (N.testbit l 1), (N.testbit l 2), (N.testbit l 3), (N.testbit l 4); reflexivity.
Qed.

Lemma mode_eq misc : exec_mode_string (context_from_header misc) = mode_text misc.
Proof.
  destruct misc as [m|]; [|reflexivity]. unfold context_from_header, mode_text.
  change 7 with (N.ones 3). rewrite N.land_ones. change (2 ^ 3) with 8.
  assert (H : m mod 8 < 8) by (apply N.mod_lt; discriminate). revert H. generalize (m mod 8). clear m. intros m H.
  assert (X : m = 0 \/ m = 1 \/ m = 2 \/ m = 3 \/ m = 4 \/ m = 5 \/ m = 6 \/ m = 7) by lia.
  destruct X as [->|[->|[->|[->|[->|[->|[->| ->]]]]]]]; reflexivity.
Qed.

Lemma mode_inj a b : exec_mode_string a = exec_mode_string b -> a = b.
Proof. destruct a, b; intros H; try reflexivity; vm_compute in H; discriminate H. Qed.

Lemma actx_eqb_eq a b : actx_eqb a b = true <-> a = b.
Proof. destruct a, b; cbn; split; congruence. Qed.

Lemma skey_eqb_eq a b : skey_eqb a b = true <-> a = b.
Proof.
  unfold skey_eqb. rewrite !andb_true_iff, !N.eqb_eq, !Z.eqb_eq, actx_eqb_eq, list_eqb_eq.
  destruct a, b; cbn. split.
  - intros H. decompose [and] H. now subst.
  - intros H. injection H. intros. subst. repeat split.
Qed.

Record view_key (b : builder) (p : N) (v : view) (k : skey) : Prop := {
  vk_pid : sk_pid k = p;
  vk_tid : sk_tid k = vw_tid v;
  vk_time : sk_time k = vw_time v;
  vk_mode : exec_mode_string (sk_mode k) = vw_mode v;
  vk_comm : den b (vw_comm v) (sk_comm k);
  vk_type : den b (vw_type v) (sk_type k);
  vk_tcomm : den b (vw_tcomm v) (sk_tcomm k);
  vk_cgroup : den b (vw_cgroup v) (sk_cgroup k);
  vk_code : sk_code_page k = vw_code_page v;
  vk_data : sk_data_page k = vw_data_page v;
  vk_cpu : sk_cpu k = vw_cpu v;
  vk_cache : sk_cache k = vw_cache v;
  vk_src : den b (vw_src v) (sk_src k);
  vk_snoop : den b (vw_snoop v) (sk_snoop k);
  vk_total : sk_total k = vw_total v;
  vk_issue : sk_issue k = vw_issue v;
  vk_trans : sk_trans k = vw_trans v }.

Lemma view_key_grows b b' p v k : tables b -> grows b b' -> view_key b p v k -> view_key b' p v k.
Proof. intros T G []. constructor; try assumption; eapply den_grows; eassumption. Qed.

Lemma view_key_strings b p v k : view_key b p v k -> key_strings b k.
Proof. intros []. repeat split; eapply den_str_ok; eassumption. Qed.

Lemma view_ext v v' :
  vw_tid v = vw_tid v' -> vw_time v = vw_time v' -> vw_mode v = vw_mode v' -> vw_comm v = vw_comm v' ->
  vw_type v = vw_type v' -> vw_tcomm v = vw_tcomm v' -> vw_cgroup v = vw_cgroup v' ->
  vw_code_page v = vw_code_page v' -> vw_data_page v = vw_data_page v' -> vw_cpu v = vw_cpu v' ->
  vw_cache v = vw_cache v' -> vw_src v = vw_src v' -> vw_snoop v = vw_snoop v' -> vw_total v = vw_total v' ->
  vw_issue v = vw_issue v' -> vw_trans v = vw_trans v' -> v = v'.
Proof. destruct v, v'. cbn. intros. now subst. Qed.

Lemma view_key_inj b p v k p' v' k' i i' :
  view_key b p v k -> view_key b p' v' k' ->
  (with_stack i k = with_stack i' k' <-> p = p' /\ v = v' /\ i = i').
Proof.
  intros A B. split.
  - intros H. unfold with_stack in H. injection H as H1 H2 H3 H4 H5 H6 H7 H8 H9 H10 H11 H12 H13 H14 H15 H16 H17 H18.
    split; [|split; [|exact H15]].
    + rewrite <- (vk_pid _ _ _ _ A), <- (vk_pid _ _ _ _ B). exact H1.
    + apply view_ext; destruct A as [a1 a2 a3 a4 a5 a6 a7 a8 a9 a10 a11 a12 a13 a14 a15 a16 a17];
        destruct B as [b1 b2 b3 b4 b5 b6 b7 b8 b9 b10 b11 b12 b13 b14 b15 b16 b17].
      * now rewrite <- a2, <- b2.
      * now rewrite <- a3, <- b3.
      * rewrite <- a4, <- b4. now f_equal.
      * exact (proj1 (den_inj _ _ _ _ _ a5 b5) H5).
      * exact (proj1 (den_inj _ _ _ _ _ a6 b6) H6).
      * exact (proj1 (den_inj _ _ _ _ _ a7 b7) H7).
      * exact (proj1 (den_inj _ _ _ _ _ a8 b8) H8).
      * now rewrite <- a9, <- b9.
      * now rewrite <- a10, <- b10.
      * now rewrite <- a11, <- b11.
      * now rewrite <- a12, <- b12.
      * exact (proj1 (den_inj _ _ _ _ _ a13 b13) H13).
      * exact (proj1 (den_inj _ _ _ _ _ a14 b14) H14).
      * now rewrite <- a15, <- b15.
      * now rewrite <- a16, <- b16.
      * now rewrite <- a17, <- b17.
  - intros (-> & -> & ->). destruct A as [a1 a2 a3 a4 a5 a6 a7 a8 a9 a10 a11 a12 a13 a14 a15 a16 a17].
    destruct B as [b1 b2 b3 b4 b5 b6 b7 b8 b9 b10 b11 b12 b13 b14 b15 b16 b17].
    unfold with_stack. rewrite a1, a2, a3, a9, a10, a11, a12, a15, a16, a17, b1, b2, b3, b9, b10, b11, b12, b15, b16, b17.
    rewrite (mode_inj (sk_mode k) (sk_mode k') (eq_trans a4 (eq_sym b4))).
    rewrite (proj2 (den_inj _ _ _ _ _ a5 b5) eq_refl), (proj2 (den_inj _ _ _ _ _ a6 b6) eq_refl),
      (proj2 (den_inj _ _ _ _ _ a7 b7) eq_refl), (proj2 (den_inj _ _ _ _ _ a8 b8) eq_refl),
      (proj2 (den_inj _ _ _ _ _ a13 b13) eq_refl), (proj2 (den_inj _ _ _ _ _ a14 b14) eq_refl). reflexivity.
Qed.

Lemma with_stack_view b p v k i : view_key b p v k -> view_key b p v (with_stack i k).
Proof. intros []. constructor; assumption. Qed.

Lemma has_present {A} (o : option A) : has o = present o. Proof. reflexivity. Qed.

Lemma make_key_view c pi b cx b' k h :
  tables b ->
  (forall tid, comm_of pi tid = thread_name h (dflt (s_pid (cx_sample cx))) tid) ->
  make_key c pi b cx = (b', k) ->
  view_key b' (dflt (s_pid (cx_sample cx))) (view_of c h cx) k /\ sx b b'.
Proof.
  intros T CM H. pose proof (make_key_sx _ _ _ _ _ _ H) as X. split; [|exact X]. revert H.
  unfold make_key. rewrite !CM.
  set (sm := cx_sample cx) in *. set (pid := dflt (s_pid sm)) in *.
  destruct (opt_id _ b _) as [b1 comm] eqn:E1.
  destruct (opt_id _ b1 _) as [b2 type] eqn:E2.
  destruct (opt_id _ b2 _) as [b3 tcomm] eqn:E3.
  destruct (opt_id _ b3 _) as [b4 cg] eqn:E4.
  destruct (opt_id _ b4 _) as [b5 src] eqn:E5.
  destruct (opt_id _ b5 _) as [b6 snoop] eqn:E6.
  intros H. injection H as <- <-.
  destruct (opt_id_sx _ _ _ _ _ E1) as (_ & _ & _ & X1). destruct (X1 T) as (T1 & G1).
  destruct (opt_id_sx _ _ _ _ _ E2) as (_ & _ & _ & X2). destruct (X2 T1) as (T2 & G2).
  destruct (opt_id_sx _ _ _ _ _ E3) as (_ & _ & _ & X3). destruct (X3 T2) as (T3 & G3).
  destruct (opt_id_sx _ _ _ _ _ E4) as (_ & _ & _ & X4). destruct (X4 T3) as (T4 & G4).
  destruct (opt_id_sx _ _ _ _ _ E5) as (_ & _ & _ & X5). destruct (X5 T4) as (T5 & G5).
  destruct (opt_id_sx _ _ _ _ _ E6) as (_ & _ & _ & X6). destruct (X6 T5) as (T6 & G6).
  apply opt_id_den in E1; [|exact T]. apply opt_id_den in E2; [|exact T1]. apply opt_id_den in E3; [|exact T2].
  apply opt_id_den in E4; [|exact T3]. apply opt_id_den in E5; [|exact T4]. apply opt_id_den in E6; [|exact T5].
  assert (G56 := G6). assert (G46 := grows_trans _ _ _ G5 G56). assert (G36 := grows_trans _ _ _ G4 G46).
  assert (G26 := grows_trans _ _ _ G3 G36). assert (G16 := grows_trans _ _ _ G2 G26).
  apply (den_grows _ _ _ _ T1 G16) in E1. apply (den_grows _ _ _ _ T2 G26) in E2.
  apply (den_grows _ _ _ _ T3 G36) in E3. apply (den_grows _ _ _ _ T4 G46) in E4.
  apply (den_grows _ _ _ _ T5 G56) in E5.
  unfold view_of. fold sm. fold pid.
  change 2 with (2 ^ 1) at 1. change 4 with (2 ^ 2) at 1. change 8 with (2 ^ 3) at 1.
  change 16 with (2 ^ 4). change 32 with (2 ^ 5). change 64 with (2 ^ 6). change 128 with (2 ^ 7).
  change 256 with (2 ^ 8). change 512 with (2 ^ 9). change 1024 with (2 ^ 10). change 2048 with (2 ^ 11).
  change 4096 with (2 ^ 12). change 8192 with (2 ^ 13). change 16384 with (2 ^ 14). change 32768 with (2 ^ 15).
  rewrite !label_on_bit.
  constructor; cbn [sk_pid sk_tid sk_time sk_mode sk_comm sk_type sk_tcomm sk_cgroup sk_code_page sk_data_page sk_cpu
    sk_cache sk_src sk_snoop sk_total sk_issue sk_trans vw_tid vw_time vw_mode vw_comm vw_type vw_tcomm vw_cgroup
    vw_code_page vw_data_page vw_cpu vw_cache vw_src vw_snoop vw_total vw_issue vw_trans]; try reflexivity.
  - change kExecutionModeLabel with 3. destruct (labelled c 3); [apply mode_eq|reflexivity].
  - exact E1.
  - assert (Y : text_if (thread_types_on c && has (s_tid sm)) (or_empty (aget N.eqb (dflt (s_tid sm)) (cf_types c))) =
      text_if (labelled c 5 && present (s_tid sm))
        match aget N.eqb (dflt (s_tid sm)) (cf_types c) with Some t => t | None => [] end).
    { unfold thread_types_on. change kThreadTypeLabel with 5. unfold or_empty, has, present.
      destruct (cf_types c) as [|x l]; cbn [is_empty negb aget].
      - rewrite andb_false_r. cbn [andb]. unfold text_if at 2. now destruct (labelled c 5 && _).
      - now rewrite andb_true_r. }
    rewrite Y in E2. exact E2.
  - exact E3.
  - exact E4.
  - unfold key_cache, num_if. fold sm. change kCacheLatencyLabel with 11.
    destruct (s_wstruct sm) as [[[v|] o]|]; try reflexivity; now destruct (labelled c 11).
  - rewrite level_eq in E5. exact E5.
  - rewrite snoop_eq in E6. exact E6.
  - unfold key_total, num_if, total_latency. fold sm. change kTotalLatencyLabel with 13.
    destruct (labelled c 13); [|reflexivity]. destruct (cx_spe cx); [reflexivity|].
    now destruct (s_wstruct sm) as [[o [v|]]|].
  - unfold key_issue, num_if. change kIssueLatencyLabel with 14.
    destruct (cx_spe cx); [reflexivity|]. now destruct (labelled c 14).
  - unfold key_trans, num_if. change kTranslationLatencyLabel with 15.
    destruct (cx_spe cx); [reflexivity|]. now destruct (labelled c 15).
Qed.

(** * Labels *)
Definition shown (g : Z -> list N) (e : bool * list N * lval) : list read_label :=
  let '(w, key, v) := e in
  if w then [match v with
             | LStr i => {| rl_key := key; rl_str := g i; rl_num := 0; rl_unit := [] |}
             | LText s => {| rl_key := key; rl_str := s; rl_num := 0; rl_unit := [] |}
             | LNum n u => {| rl_key := key; rl_str := []; rl_num := n; rl_unit := u |}
             end] else [].

Lemma den_string b s i : den b s i -> string_of (b_profile b) i = Some s.
Proof. intros (_ & A & B). unfold string_of. apply Z.leb_le in A. now rewrite A. Qed.

Lemma string_of_grows b b' i s : grows b b' -> string_of (b_profile b) i = Some s -> string_of (b_profile b') i = Some s.
Proof.
  intros G. unfold string_of. destruct (0 <=? i)%Z; [|discriminate]. intros H.
  destruct (gr_str _ _ G) as (t & ->). rewrite nth_error_app1; [exact H|]. exact (nth_error_len_some _ _ _ H).
Qed.

Lemma reads_grows b b' l r : grows b b' -> reads (b_profile b) l r -> reads (b_profile b') l r.
Proof.
  intros G (A & B & C & D). split; [|split; [|split]]; try assumption; eapply string_of_grows; eassumption.
Qed.

Lemma emit_reads g ls : forall b b' r,
  tables b -> emit_labels b ls = (b', r) ->
  (forall w key i, In (w, key, LStr i) ls -> w = true -> string_of (b_profile b) i = Some (g i)) ->
  Forall2 (reads (b_profile b')) r (flat_map (shown g) ls).
Proof.
  induction ls as [|[[w key] v] ls IH]; intros b b' r T H HL; cbn [emit_labels] in H.
  { injection H as <- <-. constructor. }
  destruct w.
  2:{ cbn [flat_map shown app]. apply (IH b b' r T H). intros w k i Hin. apply (HL w k i). now right. }
  destruct (string_id b key) as [b1 ki] eqn:E1.
  destruct (string_id_sx _ _ _ _ E1) as (_ & _ & _ & X1). destruct (X1 T) as (T1 & G1).
  pose proof (string_id_den _ _ _ _ T E1) as D1.
  assert (X : exists b2 l r2, tables b2 /\ grows b1 b2 /\ emit_labels b2 ls = (b', r2) /\ r = l :: r2 /\
    reads (b_profile b2) l (match v with
             | LStr i => {| rl_key := key; rl_str := g i; rl_num := 0; rl_unit := [] |}
             | LText s => {| rl_key := key; rl_str := s; rl_num := 0; rl_unit := [] |}
             | LNum n u => {| rl_key := key; rl_str := []; rl_num := n; rl_unit := u |}
             end)).
  { destruct v as [i|s|n u].
    - destruct (emit_labels b1 ls) as [b2 r2] eqn:E2. injection H as <- <-. eexists b1, _, r2.
      split; [exact T1|]. split; [apply grows_refl|]. split; [exact E2|]. split; [reflexivity|].
      split; [exact (den_string _ _ _ D1)|]. split; [|split; [reflexivity|exact (den_string _ _ _ (den0 _ T1))]].
      cbn [lb_str rl_str]. eapply string_of_grows; [exact G1|]. apply (HL true key i); [now left|reflexivity].
    - destruct (string_id b1 s) as [b2 i] eqn:E2.
      destruct (string_id_sx _ _ _ _ E2) as (_ & _ & _ & X2). destruct (X2 T1) as (T2 & G2).
      pose proof (string_id_den _ _ _ _ T1 E2) as D2.
      destruct (emit_labels b2 ls) as [b3 r3] eqn:E3. injection H as <- <-. eexists b2, _, r3.
      split; [exact T2|]. split; [exact G2|]. split; [exact E3|]. split; [reflexivity|].
      split; [exact (den_string _ _ _ (den_grows _ _ _ _ T1 G2 D1))|]. split; [exact (den_string _ _ _ D2)|].
      split; [reflexivity|exact (den_string _ _ _ (den0 _ T2))].
    - destruct (string_id b1 u) as [b2 i] eqn:E2.
      destruct (string_id_sx _ _ _ _ E2) as (_ & _ & _ & X2). destruct (X2 T1) as (T2 & G2).
      pose proof (string_id_den _ _ _ _ T1 E2) as D2.
      destruct (emit_labels b2 ls) as [b3 r3] eqn:E3. injection H as <- <-. eexists b2, _, r3.
      split; [exact T2|]. split; [exact G2|]. split; [exact E3|]. split; [reflexivity|].
      split; [exact (den_string _ _ _ (den_grows _ _ _ _ T1 G2 D1))|].
      split; [exact (den_string _ _ _ (den0 _ T2))|]. split; [reflexivity|exact (den_string _ _ _ D2)]. }
  destruct X as (b2 & l & r2 & T2 & G2 & E2 & -> & RD).
  destruct (emit_labels_sx _ _ _ _ E2) as (_ & _ & _ & X3). destruct (X3 T2) as (T3 & G3).
  cbn [flat_map shown]. change ([?x] ++ ?y) with (x :: y). constructor; [exact (reads_grows _ _ _ _ G3 RD)|].
  apply (IH b2 b' r2 T2 E2). intros w k i Hin Hw. eapply string_of_grows; [exact G2|].
  eapply string_of_grows; [exact G1|]. apply (HL w k i); [now right|exact Hw].
Qed.

Lemma den_zero b s i : tables b -> den b s i -> (i =? 0)%Z = is_empty s.
Proof.
  intros T D. pose proof (den_inj _ _ _ _ _ D (den0 b T)) as I.
  destruct (Z.eqb_spec i 0) as [E|E].
  - rewrite (proj1 I E). reflexivity.
  - destruct s; [|reflexivity]. now contradiction E; apply I.
Qed.

Lemma str_shown b g s i key (w : bool) :
  tables b -> den b s i -> (forall j, string_of (b_profile b) j = Some (g j) \/ string_of (b_profile b) j = None) ->
  (s <> [] -> w = true) ->
  shown g (w && negb (i =? 0)%Z, key, LStr i) = str_label key s.
Proof.
  intros T D HG W. rewrite (den_zero _ _ _ T D). unfold str_label. destruct s as [|x s].
  - cbn [is_empty negb]. rewrite andb_false_r. reflexivity.
  - rewrite W by discriminate. cbn [is_empty negb andb shown].
    destruct (HG i) as [E|E]; rewrite (den_string _ _ _ D) in E; [|discriminate E]. injection E as <-. reflexivity.
Qed.

Lemma num_shown g (w w' : bool) key n u :
  w = w' -> shown g (w, key, LNum (s64 n) u) = num_label w' key n u.
Proof. intros <-. unfold shown, num_label. rewrite s64_int64. reflexivity. Qed.

Lemma app2 {A} (a a' b b' : list A) : a = a' -> b = b' -> a ++ b = a' ++ b'.
Proof. now intros -> ->. Qed.

Lemma labels_shown c h cx b p k :
  tables b -> view_key b p (view_of c h cx) k ->
  let g := fun i => match string_of (b_profile b) i with Some s => s | None => [] end in
  flat_map (shown g) (label_list c (cx_sample cx) k) = expected_labels c h cx.
Proof.
  intros T V. cbn zeta. set (g := fun i => _).
  assert (HG : forall j, string_of (b_profile b) j = Some (g j) \/ string_of (b_profile b) j = None).
  { intros j. unfold g. destruct (string_of (b_profile b) j); auto. }
  clearbody g. unfold label_list, expected_labels. cbn [flat_map]. rewrite app_nil_r.
  change (label_on c 1) with (label_on c (2 ^ 0)). change (label_on c 2) with (label_on c (2 ^ 1)).
  change (label_on c 4) with (label_on c (2 ^ 2)). change (label_on c 1024) with (label_on c (2 ^ 10)).
  rewrite !label_on_bit. destruct V. set (v := view_of c h cx) in *.
  assert (OFF : forall bit mask, mask = 2 ^ bit -> label_on c mask = labelled c bit)
    by (intros bit mask ->; apply label_on_bit).
  apply app2; [now apply num_shown|].
  apply app2; [now apply num_shown|].
  apply app2.
  { apply (str_shown b g _ _ _ _ T vk_comm0 HG). unfold v, view_of. cbn [vw_comm]. unfold text_if.
    rewrite (OFF 4 16 eq_refl). change kCommLabel with 4. destruct (labelled c 4); [reflexivity|easy]. }
  apply app2; [now apply num_shown|].
  apply app2.
  { cbn [shown]. rewrite vk_mode0.
    assert (E : labelled c kExecutionModeLabel && negb (actx_eqb (sk_mode k) CUnknown) = negb (is_empty (vw_mode v))).
    { rewrite <- vk_mode0. assert (M := vk_mode0). unfold v, view_of in M. cbn [vw_mode] in M.
      rewrite (OFF 3 8 eq_refl) in M. change kExecutionModeLabel with 3. destruct (labelled c 3).
      - destruct (sk_mode k); reflexivity.
      - destruct (sk_mode k); try reflexivity; vm_compute in M; discriminate M. }
    rewrite E. unfold str_label. destruct (vw_mode v); reflexivity. }
  apply app2.
  { apply (str_shown b g _ _ _ _ T vk_type0 HG). unfold v, view_of. cbn [vw_type]. unfold text_if.
    rewrite (OFF 5 32 eq_refl). unfold thread_types_on. change kThreadTypeLabel with 5. destruct (labelled c 5); [|easy].
    cbn [andb]. destruct (cf_types c); [|reflexivity]. cbn [aget]. destruct (present _); easy. }
  apply app2.
  { apply (str_shown b g _ _ _ _ T vk_tcomm0 HG). unfold v, view_of. cbn [vw_tcomm]. unfold text_if.
    rewrite (OFF 6 64 eq_refl). change kThreadCommLabel with 6. destruct (labelled c 6); [reflexivity|easy]. }
  apply app2.
  { apply (str_shown b g _ _ _ _ T vk_cgroup0 HG). unfold v, view_of. cbn [vw_cgroup]. unfold text_if.
    rewrite (OFF 7 128 eq_refl). change kCgroupLabel with 7. destruct (labelled c 7); [reflexivity|easy]. }
  apply app2.
  { rewrite vk_code0. apply num_shown. unfold nonzero, v, view_of. cbn [vw_code_page]. unfold num_if.
    rewrite (OFF 8 256 eq_refl). change kCodePageSizeLabel with 8. now destruct (labelled c 8). }
  apply app2.
  { rewrite vk_data0. apply num_shown. unfold nonzero, v, view_of. cbn [vw_data_page]. unfold num_if.
    rewrite (OFF 9 512 eq_refl). change kDataPageSizeLabel with 9. now destruct (labelled c 9). }
  apply app2; [now apply num_shown|].
  apply app2.
  { rewrite vk_cache0. apply num_shown. unfold nonzero, v, view_of. cbn [vw_cache]. unfold num_if.
    rewrite (OFF 11 2048 eq_refl). change kCacheLatencyLabel with 11. now destruct (labelled c 11). }
  apply app2.
  { apply (str_shown b g _ _ _ _ T vk_src0 HG). unfold v, view_of. cbn [vw_src]. unfold text_if.
    rewrite (OFF 12 4096 eq_refl). change kDataSrcLabel with 12. destruct (labelled c 12); [reflexivity|easy]. }
  apply app2.
  { apply (str_shown b g _ _ _ _ T vk_snoop0 HG). unfold v, view_of. cbn [vw_snoop]. unfold text_if.
    rewrite (OFF 12 4096 eq_refl). change kDataSrcLabel with 12. destruct (labelled c 12); [reflexivity|easy]. }
  apply app2.
  { rewrite vk_total0. apply num_shown. unfold nonzero, v, view_of. cbn [vw_total]. unfold num_if.
    rewrite (OFF 13 8192 eq_refl). change kTotalLatencyLabel with 13. now destruct (labelled c 13). }
  apply app2.
  { rewrite vk_issue0. apply num_shown. unfold nonzero, v, view_of. cbn [vw_issue]. unfold num_if.
    rewrite (OFF 14 16384 eq_refl). change kIssueLatencyLabel with 14. now destruct (labelled c 14). }
  rewrite vk_trans0. apply num_shown. unfold nonzero, v, view_of. cbn [vw_trans]. unfold num_if.
  rewrite (OFF 15 32768 eq_refl). change kTranslationLatencyLabel with 15. now destruct (labelled c 15).
Qed.
