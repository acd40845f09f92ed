(** Which profile a sample goes to, and time spans. *)
From Coq Require Import String.
From Verif Require Import Base BytesModel TextModel Assoc ProfileModel BuilderModel BuilderSpec BuilderProofs
  SpeModel PerfProto NormalizerModel NormalizerSpec NormalizerProofs ConverterModel ConverterSpec ConverterProofs.
Local Open Scope N_scope.
Local Open Scope list_scope.

Lemma bump_sample_keeps s r i w s' :
  bump_sample s r i w = Ok s' ->
  cs_metas s' = cs_metas s /\ cs_pids s' = cs_pids s /\ cs_stats s' = cs_stats s /\
  List.length (cs_builders s') = List.length (cs_builders s).
Proof.
  unfold bump_sample. intros H.
  destruct (at_ (cs_builders s) (fst r)) as [b| | | |]; try discriminate H. cbn [obind] in H.
  destruct (at_ (pf_sample (b_profile b)) (snd r)) as [p| | | |]; try discriminate H. cbn [obind] in H.
  destruct (bump (ps_val p) i w) as [vals| | | |]; try discriminate H. cbn [obind] in H.
  injection H as <-. do 3 (split; [reflexivity|]). cbn [cs_builders set_builders]. apply length_set_nth.
Qed.

Lemma info_pids s s' q : cs_pids s' = cs_pids s -> info s' q = info s q.
Proof. unfold info. now intros ->. Qed.

Lemma add_or_update_keeps c s cx pid k bi s' r :
  add_or_update c s cx pid k bi = Ok (s', r) ->
  cs_metas s' = cs_metas s /\ cs_stats s' = cs_stats s /\
  List.length (cs_builders s') = List.length (cs_builders s) /\
  forall q, pi_builder (info s' q) = pi_builder (info s q) /\ pi_loc (info s' q) = pi_loc (info s q) /\
    pi_map (info s' q) = pi_map (info s q) /\ pi_comm (info s' q) = pi_comm (info s q).
Proof.
  unfold add_or_update. intros H. destruct (aget skey_eqb k (pi_sample (info s pid))) as [r0|].
  - destruct (bump_sample s r0 _ _) as [s1| | | |] eqn:E; try discriminate H. cbn [obind] in H.
    injection H as <- <-. destruct (bump_sample_keeps _ _ _ _ _ E) as (A & B & C & D).
    do 3 (split; [assumption|]). intros q. rewrite (info_pids s s1 q B). auto.
  - destruct (at_ (cs_builders s) bi) as [b| | | |] eqn:E; try discriminate H. cbn [obind] in H.
    match type of H with obind (bump_sample ?s0 _ _ _) _ = _ => set (s0' := s0) in H;
      destruct (bump_sample s0' (bi, List.length (pf_sample (b_profile b))) (Z.to_nat (cx_attr cx)) (weight_of c cx))
        as [s1| | | |] eqn:E1; try discriminate H end.
    cbn [obind] in H. injection H as <- <-. destruct (bump_sample_keeps _ _ _ _ _ E1) as (A & B & C & D).
    split; [rewrite A; reflexivity|]. split; [rewrite C; reflexivity|]. split.
    { rewrite D. unfold s0'. cbn [cs_builders set_info set_pids set_builders]. apply length_set_nth. }
    intros q. rewrite (info_pids s0' s1 q B). unfold s0'. rewrite info_set.
    destruct (N.eqb_spec q pid) as [->|_]; rewrite ?info_builders; auto.
Qed.

Lemma new_builder_keeps c pi o pi' b :
  new_builder c pi o = Ok (pi', b) -> pi_builder pi' = pi_builder pi.
Proof.
  unfold new_builder. intros H. destruct (add_types builder0 0 (event_names (cf_data c)) 0) as [b0 last].
  destruct o as [m|].
  - match type of H with context [add_mapping pi ?b1 (Some m)] =>
      destruct (add_mapping pi b1 (Some m)) as [[[pi1 b2] id]| | | |] eqn:E2; try discriminate H end.
    cbn [obind] in H. injection H as <- <-. exact (add_mapping_builder _ _ _ _ _ _ E2).
  - cbn [obind] in H. now injection H as <- <-.
Qed.

Definition step_metas (metas metas' : list pmeta) (h : hcall) (a : option nat) (c : cfg) : Prop :=
  match h, a with
  | HSample cx, Some k =>
      let t := dflt (s_time (cx_sample cx)) in
      (exists m, nth_error metas k = Some m /\ pm_pid m = filed_under c cx /\
         metas' = set_nth k (stamped t m) metas) \/
      (k = List.length metas /\
       metas' = metas ++ [stamped t {| pm_pid := filed_under c cx; pm_min := 0; pm_max := 0 |}])
  | _, _ => metas' = metas
  end.

Lemma stamped_pid t m : pm_pid (stamped t m) = pm_pid m.
Proof. unfold stamped. now destruct (int64_of t =? 0)%Z. Qed.

Lemma call_open c s h s' o openp :
  is_open s openp -> on_call c s h = Ok (s', o) ->
  exists a openp',
    (forall r, assign c (List.length (cs_builders s)) openp (h :: r) =
               a :: assign c (List.length (cs_builders s')) openp' r) /\
    is_open s' openp' /\ step_metas (cs_metas s) (cs_metas s') h a c.
Proof.
  intros (L & O & M) H. destruct h as [cx|cm e|pid [q m]]; cbn [on_call] in H.
  - destruct (on_sample_inv _ _ _ _ _ H) as [(K & -> & ->)|(K & X)].
    { exists None, openp. cbn [assign]. rewrite K. split; [reflexivity|]. split; [repeat split; auto|reflexivity]. }
    cbn zeta in X. destruct X as (s1 & bi & b & b1 & k & pi2 & b2 & ids & r & G & Nb & MK & AL & AU & ->).
    destruct (add_or_update_keeps _ _ _ _ _ _ _ _ AU) as (A1 & A2 & A3 & A4).
    cbn [cs_metas set_stats set_builders set_info set_pids] in A1.
    cbn [cs_builders set_stats set_builders set_info set_pids] in A3. rewrite length_set_nth in A3.
    pose proof (add_locations_builder _ _ _ _ _ _ AL) as PB.
    assert (I : forall q, pi_builder (info s' q) = pi_builder (info s1 q)).
    { intros q. destruct (A4 q) as (E & _). rewrite E. rewrite info_stats, info_builders, info_set.
      destruct (N.eqb_spec q (dflt (s_pid (cx_sample cx)))) as [->|_]; [exact PB|reflexivity]. }
    destruct (get_or_create_inv _ _ _ _ _ G) as [(P & _ & B & Q & _ & MM)|(P & Hbi & pi & b0 & NB & B & _ & Q & MM)].
    + exists (Some bi), openp. split; [|split].
      * intros r0. cbn [assign]. rewrite K. rewrite <- O, P. rewrite A3, B. reflexivity.
      * assert (Lm : List.length (cs_metas s1) = List.length (cs_metas s)).
        { destruct (_ =? 0)%Z; [now rewrite MM|]. destruct MM as (m & _ & ->). apply length_set_nth. }
        split; [now rewrite A1, Lm, A3, B|]. split.
        -- intros p. rewrite I, (info_pids s s1 p Q). apply O.
        -- intros p k0 Hp. destruct (M p k0 Hp) as (m & Hm & Hpid).
           rewrite A1. destruct (_ =? 0)%Z; [rewrite MM; eauto|]. destruct MM as (m0 & Hm0 & ->).
           rewrite nth_error_set_nth. destruct (Nat.eqb_spec k0 bi) as [->|_].
           ++ rewrite Hm0 in Hm. injection Hm as ->.
              rewrite (proj2 (Nat.ltb_lt _ _) (nth_error_len_some _ _ _ Hm0)). cbn [andb].
              eexists. split; [reflexivity|]. now rewrite stamped_pid.
           ++ cbn [andb]. eauto.
      * cbn [step_metas]. left. destruct (M (filed_under c cx) bi) as (m & Hm & Hpid).
        { now rewrite <- O. }
        exists m. split; [exact Hm|]. split; [exact Hpid|]. rewrite A1.
        destruct (Z.eqb_spec (int64_of (dflt (s_time (cx_sample cx)))) 0) as [Ht|Ht].
        -- rewrite MM. unfold stamped. rewrite Ht. cbn. symmetry. now apply set_nth_same.
        -- destruct MM as (m0 & Hm0 & ->). rewrite Hm in Hm0. now injection Hm0 as ->.
    + specialize (MM L). exists (Some bi), (fun p => if p =? filed_under c cx then Some bi else openp p).
      split; [|split].
      * intros r0. cbn [assign]. rewrite K. rewrite <- O, P. rewrite A3, B, app_length. cbn [List.length].
        rewrite Nat.add_1_r, Hbi. reflexivity.
      * assert (Lm : List.length (cs_metas s1) = List.length (cs_builders s1)).
        { rewrite MM, B, !app_length, L. reflexivity. }
        split; [now rewrite A1, A3|]. split.
        -- intros p. rewrite I, Q. apply new_builder_keeps in NB. rewrite info_set in NB.
           destruct (N.eqb_spec p (dflt (s_pid (cx_sample cx)))) as [->|Hp].
           ++ rewrite NB. destruct (_ =? _); [reflexivity|apply O].
           ++ destruct (p =? filed_under c cx); [reflexivity|apply O].
        -- intros p k0. rewrite A1, MM. destruct (N.eqb_spec p (filed_under c cx)) as [->|Hp].
           ++ intros Hk. injection Hk as <-. exists (stamped (dflt (s_time (cx_sample cx)))
                {| pm_pid := filed_under c cx; pm_min := 0; pm_max := 0 |}).
              rewrite nth_error_app2, Hbi, L, Nat.sub_diag by lia. split; [reflexivity|]. now rewrite stamped_pid.
           ++ intros Hk. destruct (M p k0 Hk) as (m & Hm & Hpid). exists m.
              rewrite nth_error_app1; [auto|]. exact (nth_error_len_some _ _ _ Hm).
      * cbn [step_metas]. right. rewrite A1, MM, L. auto.
  - injection H as <- <-. exists None, (fun p => if e && (p =? cm_pid cm) then None else openp p).
    assert (LB : cs_builders (on_comm_call s cm e) = cs_builders s) by (unfold on_comm_call; now destruct e).
    assert (LM : cs_metas (on_comm_call s cm e) = cs_metas s) by (unfold on_comm_call; now destruct e).
    split; [intros r; now rewrite LB|]. split; [|exact LM]. split; [|split].
    + now rewrite LB, LM.
    + intros p. unfold on_comm_call. rewrite info_set. destruct e; cbn [andb].
      * rewrite info_set, N.eqb_refl. destruct (N.eqb_spec p (cm_pid cm)) as [->|Hp]; [reflexivity|].
        rewrite info_set. apply N.eqb_neq in Hp. rewrite Hp. apply O.
      * destruct (N.eqb_spec p (cm_pid cm)) as [->|Hp]; apply O.
    + intros p k0 Hk. assert (X : cs_metas (on_comm_call s cm e) = cs_metas s) by (unfold on_comm_call; now destruct e).
      rewrite X. destruct (e && (p =? cm_pid cm)); [discriminate|]. now apply M.
  - unfold on_mmap_call in H. destruct (hm_limit m <? hm_start m); [discriminate H|].
    cbn [obind] in H. injection H as <- <-. exists None, openp. split; [reflexivity|]. split; [|reflexivity].
    split; [exact L|]. split; [|exact M]. intros p. rewrite info_set.
    destruct (N.eqb_spec p pid) as [->|Hp]; apply O.
Qed.

(** The record of profile [k] after the samples filed there. *)
Definition meta_after (c : cfg) (metas : list pmeta) (k : nat) (l : list sctx) : option pmeta :=
  match nth_error metas k, l with
  | Some m, _ => Some (fold_left (fun m cx => stamped (dflt (s_time (cx_sample cx))) m) l m)
  | None, [] => None
  | None, cx :: _ =>
      Some (fold_left (fun m cx => stamped (dflt (s_time (cx_sample cx))) m) l
              {| pm_pid := filed_under c cx; pm_min := 0; pm_max := 0 |})
  end.

Lemma run_open c hs : forall s s' os openp,
  is_open s openp -> run_calls c s hs = Ok (s', os) ->
  List.length (cs_metas s') = List.length (cs_builders s') /\
  forall k, let l := filed k hs (assign c (List.length (cs_builders s)) openp hs) in
    nth_error (cs_metas s') k = meta_after c (cs_metas s) k l /\
    (forall m cx, nth_error (cs_metas s') k = Some m -> In cx l -> filed_under c cx = pm_pid m).
Proof.
  induction hs as [|h hs IH]; intros s s' os openp I H; cbn [run_calls] in H.
  - injection H as <- <-. split; [apply I|]. intros k. cbn [filed assign].
    split; [unfold meta_after; now destruct (nth_error (cs_metas s) k)|]. intros m cx _ [].
  - destruct (on_call c s h) as [[s1 o]| | | |] eqn:E; try discriminate H. cbn [obind] in H.
    destruct (run_calls c s1 hs) as [[s2 os2]| | | |] eqn:E2; try discriminate H. cbn [obind] in H.
    injection H as <- <-. destruct (call_open _ _ _ _ _ _ I E) as (a & openp' & A & I' & S).
    destruct (IH _ _ _ _ I' E2) as (L & F). split; [exact L|]. intros k. specialize (F k). cbn zeta in F.
    rewrite A. set (rest := assign c (List.length (cs_builders s1)) openp' hs) in *. cbn zeta.
    destruct h as [cx|cm e|pid m].
    + destruct a as [k0|].
      * cbn [filed]. destruct (Nat.eqb_spec k0 k) as [->|Hk].
        -- change ([cx] ++ filed k hs rest) with (cx :: filed k hs rest).
           cbn [step_metas] in S. destruct S as [(m & Hm & Hp & S)|(Hk & S)].
           ++ assert (N1 : nth_error (cs_metas s1) k = Some (stamped (dflt (s_time (cx_sample cx))) m)).
              { rewrite S, nth_error_set_nth, Nat.eqb_refl.
                now rewrite (proj2 (Nat.ltb_lt _ _) (nth_error_len_some _ _ _ Hm)). }
              unfold meta_after in F |- *. rewrite N1 in F. rewrite Hm. cbn [fold_left].
              destruct F as (F1 & F2). split; [exact F1|]. intros m' cx' Hm' [->|Hin]; [|eauto].
              rewrite F1 in Hm'. injection Hm' as <-. rewrite <- Hp. clear.
              generalize (filed k hs rest). intros l. rewrite <- (stamped_pid (dflt (s_time (cx_sample cx'))) m).
              generalize (stamped (dflt (s_time (cx_sample cx'))) m). clear.
              induction l as [|x l IH]; intros m; cbn [fold_left]; [reflexivity|].
              rewrite <- IH. now rewrite stamped_pid.
           ++ assert (N1 : nth_error (cs_metas s1) k = Some (stamped (dflt (s_time (cx_sample cx)))
                  {| pm_pid := filed_under c cx; pm_min := 0; pm_max := 0 |})).
              { rewrite S, nth_error_app2, Hk, Nat.sub_diag by lia. reflexivity. }
              assert (N0 : nth_error (cs_metas s) k = None) by (apply nth_error_None; lia).
              unfold meta_after in F |- *. rewrite N1 in F. rewrite N0. cbn [fold_left].
              destruct F as (F1 & F2). split; [exact F1|]. intros m' cx' Hm' [->|Hin]; [|eauto].
              rewrite F1 in Hm'. injection Hm' as <-. clear.
              generalize (filed k hs rest). intros l.
              set (m := stamped _ _). assert (E : pm_pid m = filed_under c cx') by apply stamped_pid.
              rewrite <- E. clearbody m. clear E. revert m.
              induction l as [|x l IH]; intros m; cbn [fold_left]; [reflexivity|].
              rewrite <- IH. now rewrite stamped_pid.
        -- cbn [app].
           assert (N1 : nth_error (cs_metas s1) k = nth_error (cs_metas s) k \/
                        (nth_error (cs_metas s1) k = None /\ nth_error (cs_metas s) k = None)).
           { cbn [step_metas] in S. destruct S as [(m & Hm & Hp & S)|(Hk0 & S)]; rewrite S.
             - left. rewrite nth_error_set_nth. apply Nat.neq_sym, Nat.eqb_neq in Hk. now rewrite Hk.
             - destruct (Nat.ltb_spec k (List.length (cs_metas s))) as [Hl|Hl].
               + left. now apply nth_error_app1.
               + right. split; apply nth_error_None; rewrite ?app_length; cbn; lia. }
           unfold meta_after in *. destruct N1 as [N1|(N1 & N2)].
           ++ now rewrite <- N1.
           ++ rewrite N1 in F. now rewrite N2.
      * cbn [step_metas] in S. cbn [filed]. now rewrite <- S.
    + cbn [step_metas] in S. cbn [filed]. now rewrite <- S.
    + cbn [step_metas] in S. cbn [filed]. now rewrite <- S.
Qed.

Lemma open0 : is_open cstate0 (fun _ => None).
Proof. split; [reflexivity|]. split; [reflexivity|]. discriminate. Qed.

(** The fold computes minimum and maximum. *)
Lemma fold_times l : forall m,
  fold_left (fun m cx => stamped (dflt (s_time (cx_sample cx))) m) l m =
  fold_left (fun m t => update_times t m) (times l) m.
Proof.
  induction l as [|cx l IH]; intros m; cbn [fold_left times map filter]; [reflexivity|].
  rewrite IH. unfold stamped. destruct (int64_of (dflt (s_time (cx_sample cx))) =? 0)%Z; reflexivity.
Qed.

Lemma update_fold ts : forall m,
  (forall t, In t ts -> t <> 0%Z) ->
  (pm_min m = 0 <-> pm_max m = 0)%Z -> (pm_min m <= pm_max m)%Z ->
  let m' := fold_left (fun m t => update_times t m) ts m in
  pm_pid m' = pm_pid m /\
  (pm_min m' = 0 <-> pm_max m' = 0)%Z /\ (pm_min m' <= pm_max m')%Z /\
  (ts = [] -> m' = m) /\
  (pm_min m' = pm_min m \/ In (pm_min m') ts) /\ (pm_max m' = pm_max m \/ In (pm_max m') ts) /\
  (ts <> [] -> pm_min m' <> 0%Z) /\
  (pm_min m <> 0%Z -> pm_min m' <> 0%Z /\ (pm_min m' <= pm_min m /\ pm_max m <= pm_max m')%Z) /\
  (forall t, In t ts -> (pm_min m' <= t <= pm_max m')%Z).
Proof.
  induction ts as [|t ts IH]; intros m Hn Hz Hle; cbn [fold_left].
  - cbn zeta. repeat split; try tauto; try lia; try (intros; contradiction).
  - assert (Ht : t <> 0%Z) by (apply Hn; now left).
    assert (Hn' : forall x, In x ts -> x <> 0%Z) by (intros x Hx; apply Hn; now right).
    set (m1 := update_times t m).
    assert (M1 : pm_pid m1 = pm_pid m /\
      pm_min m1 <> 0%Z /\ pm_max m1 <> 0%Z /\ (pm_min m1 <= t <= pm_max m1)%Z /\
      (pm_min m1 = pm_min m \/ pm_min m1 = t) /\ (pm_max m1 = pm_max m \/ pm_max m1 = t) /\
      (pm_min m <> 0%Z -> (pm_min m1 <= pm_min m /\ pm_max m <= pm_max m1)%Z)).
    { clear IH. unfold m1, update_times. cbn [pm_pid pm_min pm_max].
      destruct (Z.eqb_spec (pm_min m) 0) as [E1|E1]; destruct (Z.eqb_spec (pm_max m) 0) as [E2|E2]; try tauto;
        cbn [orb]; [repeat split; try tauto; lia|].
      destruct (Z.ltb_spec t (pm_min m)); destruct (Z.ltb_spec (pm_max m) t); repeat split; try tauto; try lia. }
    destruct M1 as (P1 & A1 & A2 & A3 & A4 & A5 & A6).
    destruct (IH m1 Hn') as (B0 & B1 & B2 & B3 & B4 & B5 & B6 & B7 & B8); [tauto|lia|].
    fold m1 in B0, B1, B2, B3, B4, B5, B6, B7, B8 |- *. cbn zeta in *.
    set (m' := fold_left (fun m t => update_times t m) ts m1) in *. clearbody m' m1.
    destruct (B7 A1) as (C1 & C2 & C3).
    split; [congruence|]. split; [exact B1|]. split; [exact B2|]. split; [discriminate|].
    split.
    { destruct B4 as [B4|B4]; [|right; now right]. destruct A4 as [A4|A4]; [left; congruence|right; left; congruence]. }
    split.
    { destruct B5 as [B5|B5]; [|right; now right]. destruct A5 as [A5|A5]; [left; congruence|right; left; congruence]. }
    split; [tauto|]. split.
    { intros Hm. split; [exact C1|]. specialize (A6 Hm). clear - A6 C2 C3. lia. }
    intros x [Hx|Hx]; [subst x; clear - A3 C2 C3; lia|exact (B8 x Hx)].
Qed.

Lemma times_nonzero l t : In t (times l) -> t <> 0%Z.
Proof. unfold times. rewrite filter_In. intros (_ & H). intros ->. discriminate H. Qed.

Lemma span ts pid :
  (forall t, In t ts -> t <> 0%Z) ->
  let m := fold_left (fun m t => update_times t m) ts {| pm_pid := pid; pm_min := 0; pm_max := 0 |} in
  pm_pid m = pid /\
  (ts = [] -> pm_min m = 0 /\ pm_max m = 0)%Z /\
  (ts <> [] -> In (pm_min m) ts /\ In (pm_max m) ts /\ forall t, In t ts -> (pm_min m <= t <= pm_max m)%Z).
Proof.
  intros Hn. destruct (update_fold ts {| pm_pid := pid; pm_min := 0; pm_max := 0 |} Hn) as
    (A & B & C & D & E & F & G & _ & I); cbn [pm_min pm_max]; [tauto|lia|]. cbn zeta in *.
  cbn [pm_min pm_max pm_pid] in *.
  split; [exact A|]. split.
  - intros ->. auto.
  - intros Ht. specialize (G Ht). split; [tauto|]. split; [|exact I]. destruct F as [F|F]; [tauto|exact F].
Qed.
