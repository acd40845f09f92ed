(** Whole runs of the converter. *)
From Coq Require Import String.
From Verif Require Import Base BytesModel TextModel Assoc ProfileModel BuilderModel BuilderSpec BuilderProofs
  SpeModel PerfProto NormalizerModel NormalizerSpec NormalizerProofs ConverterModel ConverterSpec ConverterProofs
  ConverterOpenProofs ConverterInvProofs ConverterKeyProofs ConverterStateProofs.
Local Open Scope N_scope.
Local Open Scope list_scope.

(** * Values *)
Definition cell (s : cstate) (r : sref) : option (list Z) :=
  match nth_error (cs_builders s) (fst r) with
  | Some b => option_map ps_val (nth_error (pf_sample (b_profile b)) (snd r))
  | None => None
  end.
Definition value (o : option (list Z)) (j : nat) : Z := match o with Some l => nth j l 0%Z | None => 0%Z end.

Definition same_place (x r : sref) : bool := ((fst x =? fst r) && (snd x =? snd r))%nat.
Lemma same_place_eq x r : same_place x r = true <-> x = r.
Proof.
  unfold same_place. rewrite andb_true_iff, !Nat.eqb_eq. destruct x, r; cbn. split; [intros (-> & ->); reflexivity|].
  intros H. injection H as -> ->. now split.
Qed.

Lemma cell_set s bi b b' r :
  nth_error (cs_builders s) bi = Some b ->
  cell (set_builders (set_nth bi b' (cs_builders s)) s) r =
  if (fst r =? bi)%nat then option_map ps_val (nth_error (pf_sample (b_profile b')) (snd r)) else cell s r.
Proof.
  intros H. unfold cell. cbn [cs_builders set_builders]. rewrite nth_error_set_nth.
  rewrite (proj2 (Nat.ltb_lt _ _) (nth_error_len_some _ _ _ H)), andb_true_r.
  now destruct (fst r =? bi)%nat.
Qed.

Lemma bump_cell s r i w s' x :
  bump_sample s r i w = Ok s' ->
  (forall j, value (cell s' x) j = (value (cell s x) j + if same_place r x then
    (if (j =? 2 * i)%nat then 1 else 0) + (if (j =? 2 * i + 1)%nat then w else 0) else 0)%Z) /\
  (cell s' x = None <-> cell s x = None) /\ cell s' r <> None.
Proof.
  intros H. destruct (bump_sample_inv _ _ _ _ _ H) as (b & p & vals & E1 & E2 & E3 & E4 & _). cbn zeta in E4.
  destruct (bump_values _ _ _ _ E3) as (L & _ & V). subst s'.
  assert (C : forall x, cell (set_builders (set_nth (fst r) (with_profile b (set_sample (set_nth (snd r)
      {| ps_loc := ps_loc p; ps_val := vals; ps_label := ps_label p |} (pf_sample (b_profile b))) (b_profile b)))
      (cs_builders s)) s) x = if same_place r x then Some vals else cell s x).
  { intros y. rewrite (cell_set _ _ _ _ _ E1). cbn [b_profile with_profile pf_sample set_sample].
    rewrite nth_error_set_nth. rewrite (proj2 (Nat.ltb_lt _ _) (nth_error_len_some _ _ _ E2)), andb_true_r.
    unfold same_place. rewrite (Nat.eqb_sym (fst r)), (Nat.eqb_sym (snd r)).
    destruct (fst y =? fst r)%nat eqn:F; cbn [andb]; [|reflexivity]. apply Nat.eqb_eq in F.
    destruct (snd y =? snd r)%nat; [reflexivity|]. unfold cell. now rewrite F, E1. }
  rewrite !C. assert (CR : cell s r = Some (ps_val p)) by (unfold cell; now rewrite E1, E2).
  split; [|split].
  - intros j. destruct (same_place r x) eqn:S; [|lia]. apply same_place_eq in S. subst x. rewrite CR.
    cbn [value]. rewrite V. lia.
  - destruct (same_place r x) eqn:S; [|reflexivity]. apply same_place_eq in S. subst x. rewrite CR. split; discriminate.
  - replace (same_place r r) with true by (symmetry; now apply same_place_eq). discriminate.
Qed.

Lemma new_sample_samples c b sm k : exists ls,
  pf_sample (b_profile (new_sample c b sm k)) = pf_sample (b_profile b) ++
    [{| ps_loc := sk_stack k; ps_val := repeat 0%Z (2 * events c); ps_label := ls |}].
Proof.
  unfold new_sample. destruct (emit_labels b (label_list c sm k)) as [b1 ls] eqn:E. exists ls.
  cbn [b_profile with_profile pf_sample set_sample]. now rewrite (sx_samples _ _ (emit_labels_sx _ _ _ _ E)).
Qed.

Lemma cell_same s s' : (forall j, nth_error (cs_builders s') j = nth_error (cs_builders s) j) -> forall x, cell s' x = cell s x.
Proof. intros H x. unfold cell. now rewrite H. Qed.

Lemma sample_cell c s cx s' r :
  on_sample_call c s cx = Ok (s', Some r) ->
  forall x,
  (forall j, value (cell s' x) j = (value (cell s x) j + if same_place r x then
    (if (j =? 2 * Z.to_nat (cx_attr cx))%nat then 1 else 0) +
    (if (j =? 2 * Z.to_nat (cx_attr cx) + 1)%nat then weight_of c cx else 0) else 0)%Z) /\
  (cell s' x <> None <-> cell s x <> None \/ x = r).
Proof.
  intros H x. destruct (on_sample_inv _ _ _ _ _ H) as [(_ & _ & X)|(_ & X)]; [discriminate X|].
  cbn zeta in X. destruct X as (s1 & bi & b & b1 & k & pi2 & b2 & ids & r' & G & NB & MK & AL & AU & E).
  injection E as <-.
  assert (C1 : forall x, cell s1 x = cell s x).
  { intros y. destruct (get_or_create_inv _ _ _ _ _ G) as [(_ & _ & EB & _)|(_ & EB0 & ? & b0 & E0 & EB & _)].
    - unfold cell. now rewrite EB.
    - unfold cell. rewrite EB. destruct (Nat.lt_ge_cases (fst y) (List.length (cs_builders s))) as [Hl|Hl].
      + now rewrite nth_error_app1.
      + rewrite nth_error_app2 by exact Hl. destruct (fst y - List.length (cs_builders s))%nat as [|n] eqn:En; cbn [nth_error].
        * rewrite (new_builder_samples _ _ _ _ _ E0). cbn. rewrite (proj2 (nth_error_None _ _) Hl). now destruct (snd y).
        * rewrite (proj2 (nth_error_None _ _) Hl). now destruct n. }
  set (s2 := set_stats _ _) in AU.
  assert (SAM : pf_sample (b_profile b2) = pf_sample (b_profile b)).
  { destruct (add_locations_gx _ _ _ _ _ _ AL) as (_ & ->). exact (sx_samples _ _ (make_key_sx _ _ _ _ _ _ MK)). }
  assert (NB2 : nth_error (cs_builders s2) bi = Some b2).
  { unfold s2. cbn [cs_builders set_stats set_builders]. rewrite nth_error_set_nth, Nat.eqb_refl.
    now rewrite (proj2 (Nat.ltb_lt _ _) (nth_error_len_some _ _ _ NB)). }
  assert (C2 : forall x, cell s2 x = cell s x).
  { intros y. rewrite <- C1. unfold s2. 
    change (cell (set_stats ?a ?t) y) with (cell t y).
    change (cell (set_builders ?a (set_info ?p ?q ?t)) y) with (cell (set_builders a t) y).
    rewrite (cell_set s1 bi b b2 y NB), SAM. unfold cell. destruct (Nat.eqb_spec (fst y) bi) as [->|]; [now rewrite NB|reflexivity]. }
  unfold add_or_update in AU. destruct (aget skey_eqb _ (pi_sample _)) as [r0|].
  - match type of AU with obind ?e _ = _ => destruct e as [s3| | | |] eqn:BS; try discriminate AU end.
    cbn [obind] in AU. injection AU as <- <-. destruct (bump_cell _ _ _ _ _ x BS) as (V & N0 & N1).
    split; [intros j; rewrite V, C2; reflexivity|]. rewrite N0, C2. split; [now left|]. intros [A| ->]; [exact A|].
    destruct (bump_cell _ _ _ _ _ r0 BS) as (_ & N2 & _). rewrite C2 in N2. tauto.
  - destruct (at_ (cs_builders s2) bi) as [b3| | | |] eqn:A2; try discriminate AU. cbn [obind] in AU. apply at_ok in A2.
    assert (Eb : b3 = b2) by congruence. subst b3.
    set (r0 := (bi, List.length (pf_sample (b_profile b2)))) in *.
    match type of AU with obind (bump_sample ?t _ _ _) _ = _ => set (s3 := t) in * end.
    match type of AU with obind ?e _ = _ => destruct e as [s4| | | |] eqn:BS; try discriminate AU end.
    cbn [obind] in AU. assert (Es : s4 = s' /\ r0 = r) by (injection AU; auto). destruct Es as (-> & <-). clear AU.
    destruct (bump_cell _ _ _ _ _ x BS) as (V & N0 & N1).
    assert (C3 : cell s3 x = if same_place r0 x then Some (repeat 0%Z (2 * events c)) else cell s x).
    { unfold s3. change (cell (set_info ?p ?q ?t) x) with (cell t x).
      rewrite (cell_set s2 bi b2 _ x NB2). unfold same_place. cbn [fst snd r0].
      destruct (new_sample_samples c b2 (cx_sample cx) (with_stack ids k)) as (ls & ->).
      rewrite (Nat.eqb_sym bi). destruct (Nat.eqb_spec (fst x) bi) as [Hx|Hx]; cbn [andb]; [|apply C2].
      destruct (Nat.eqb_spec (List.length (pf_sample (b_profile b2))) (snd x)) as [Hy|Hy].
      - rewrite nth_error_app2 by lia. now rewrite <- Hy, Nat.sub_diag.
      - rewrite <- C2. unfold cell. rewrite Hx, NB2.
        destruct (Nat.lt_ge_cases (snd x) (List.length (pf_sample (b_profile b2)))) as [Hl|Hl].
        + now rewrite nth_error_app1.
        + rewrite (proj2 (nth_error_None _ _) Hl), nth_error_app2 by exact Hl.
          destruct (snd x - List.length (pf_sample (b_profile b2)))%nat as [|n] eqn:En; [lia|]. now destruct n. }
    assert (C4 : cell s r0 = None).
    { rewrite <- C2. unfold cell. cbn [fst snd r0]. rewrite NB2.
      now rewrite (proj2 (nth_error_None _ _) (Nat.le_refl _)). }
    split.
    + intros j. rewrite V, C3. destruct (same_place r0 x) eqn:S; [|lia]. apply same_place_eq in S. subst x.
      rewrite C4. cbn [value]. rewrite nth_repeat0. lia.
    + rewrite N0, C3. destruct (same_place r0 x) eqn:S.
      * apply same_place_eq in S. subst x. split; [now right|discriminate].
      * split; [now left|]. intros [A| ->]; [exact A|].
        replace (same_place r0 r0) with true in S by (symmetry; now apply same_place_eq). discriminate S.
Qed.

(** * Comm and MMap *)
Definition resets (c : cfg) (h : hcall) : Prop := grouped c = false /\ execs 0 h.

Lemma comm_step c R h s cm e :
  Inv c R h s -> ~ resets c (HComm cm e) ->
  let s' := on_comm_call s cm e in
  Inv c R (HComm cm e :: h) s' /\ cs_builders s' = cs_builders s /\ cs_stats s' = cs_stats s /\
  (forall q, (pi_loc (info s' q) = pi_loc (info s q) /\ pi_sample (info s' q) = pi_sample (info s q)
              /\ pi_builder (info s' q) = pi_builder (info s q) /\ (e = true -> q <> cm_pid cm)) \/
             (e = true /\ q = cm_pid cm /\ pi_loc (info s' q) = [] /\ pi_sample (info s' q) = [] /\
              pi_builder (info s' q) = None)).
Proof.
  intros I NR s'.
  assert (EB : cs_builders s' = cs_builders s) by (unfold s', on_comm_call; now destruct e).
  assert (EM : cs_metas s' = cs_metas s) by (unfold s', on_comm_call; now destruct e).
  assert (ES : cs_stats s' = cs_stats s) by (unfold s', on_comm_call; now destruct e).
  set (nm := name_or_md5 (cm_comm cm) (cm_md5 cm)) in *.
  assert (Q : forall q, info s' q = if q =? cm_pid cm
     then (if e then pi_set_comm [(cm_tid cm, nm)] pinfo0
           else pi_set_comm (aset (cm_tid cm) nm (pi_comm (info s (cm_pid cm)))) (info s (cm_pid cm)))
     else info s q).
  { intros q. unfold s', on_comm_call. fold nm. destruct e; rewrite !info_set; destruct (q =? cm_pid cm) eqn:Eq; try reflexivity.
    rewrite N.eqb_refl. reflexivity. }
  assert (CASES : forall q, (pi_loc (info s' q) = pi_loc (info s q) /\ pi_sample (info s' q) = pi_sample (info s q)
              /\ pi_map (info s' q) = pi_map (info s q)
              /\ pi_builder (info s' q) = pi_builder (info s q) /\ (e = true -> q <> cm_pid cm)) \/
             (e = true /\ q = cm_pid cm /\ pi_loc (info s' q) = [] /\ pi_sample (info s' q) = [] /\ pi_map (info s' q) = [] /\
              pi_builder (info s' q) = None)).
  { intros q. rewrite Q. destruct (N.eqb_spec q (cm_pid cm)) as [->|Hq].
    - destruct e; [right|left]; repeat split; discriminate.
    - left. repeat split. auto. }
  assert (OB : forall p, pi_builder (info s' (okey c p)) = pi_builder (info s (okey c p)) \/
    (pi_builder (info s' (okey c p)) = None /\ pi_loc (info s' p) = [] /\ pi_map (info s' p) = [] /\ pi_sample (info s' p) = [])).
  { intros p. destruct (CASES (okey c p)) as [(_ & _ & _ & A & _)|(A & B & C & D & F & G)]; [now left|].
    right. split; [exact G|]. unfold okey in *. destruct (grouped c) eqn:GC; [auto|].
    exfalso. apply NR. split; [exact GC|]. cbn [execs]. now rewrite A. }
  split; [|split; [exact EB|split; [exact ES|]]].
  - constructor.
    + rewrite EB, EM. exact (iv_len _ _ _ _ I).
    + rewrite EB. exact (iv_core _ _ _ _ I).
    + intros p Hp. destruct (OB p) as [E|(_ & E)]; [|exact E]. rewrite E in Hp.
      destruct (iv_none _ _ _ _ I p Hp) as (A & B & D).
      destruct (CASES p) as [(E1 & E2 & E3 & _)|(_ & _ & E1 & E2 & E3 & _)]; rewrite E1, E2, E3; auto.
    + intros p bi Hp. destruct (OB p) as [E|(E & _)]; [|congruence]. rewrite E in Hp.
      destruct (iv_some _ _ _ _ I p bi Hp) as (b & NB & M & L & S). exists b. rewrite EB. split; [exact NB|].
      unfold maps_ok, locs_ok, sams_ok in *.
      destruct (CASES p) as [(E1 & E2 & E3 & _)|(_ & _ & E1 & E2 & E3 & _)]; rewrite E1, E2, E3; auto.
      split; [|split]; intros; discriminate.
    + intros p k p' k' r H1 H2.
      assert (S : forall q k, aget skey_eqb k (pi_sample (info s' q)) = Some r -> aget skey_eqb k (pi_sample (info s q)) = Some r).
      { intros q k0. destruct (CASES q) as [(_ & -> & _)|(_ & _ & _ & -> & _)]; [auto|discriminate]. }
      exact (iv_inj _ _ _ _ I _ _ _ _ _ (S _ _ H1) (S _ _ H2)).
    + intros p tid. unfold comm_of. rewrite Q. cbn [thread_name]. rewrite (N.eqb_sym p). fold nm.
      destruct (N.eqb_spec (cm_pid cm) p) as [<-|Hp]; [|exact (iv_comm _ _ _ _ I p tid)].
      rewrite <- (iv_comm _ _ _ _ I (cm_pid cm) tid). unfold comm_of.
      destruct e; cbn [pi_comm pi_set_comm].
      * cbn [aget]. rewrite (N.eqb_sym tid). now destruct (cm_tid cm =? tid).
      * rewrite aget_aset, (N.eqb_sym tid). now destruct (cm_tid cm =? tid).
  - intros q. destruct (CASES q) as [(A & B & _ & D & E)|(A & B & D & E & _ & F)]; [left|right]; auto.
Qed.

Lemma aget_filter {V} (f : N -> bool) k (l : list (N * V)) :
  aget N.eqb k (filter (fun e => f (fst e)) l) = if f k then aget N.eqb k l else None.
Proof.
  induction l as [|[x v] l IH]; cbn [filter aget fst]; [now destruct (f k)|].
  destruct (f x) eqn:Fx; cbn [aget].
  - destruct (N.eqb_spec k x) as [->|]; [now rewrite Fx|exact IH].
  - destruct (N.eqb_spec k x) as [->|]; [now rewrite IH, Fx|exact IH].
Qed.

Definition covers (m : hmapping) (a : N) : bool := (hm_start m <=? a) && (a <? hm_limit m).

Lemma mmap_step c R h s pid q0 m s' :
  Inv c R h s -> on_mmap_call s pid m = Ok s' ->
  Inv c R (HMMap pid (q0, m) :: h) s' /\ cs_builders s' = cs_builders s /\ cs_stats s' = cs_stats s /\
  (forall q, pi_sample (info s' q) = pi_sample (info s q) /\ pi_builder (info s' q) = pi_builder (info s q) /\
     forall a, aget N.eqb a (pi_loc (info s' q)) =
       if (pid =? q) && covers m a then None else aget N.eqb a (pi_loc (info s q))).
Proof.
  intros I H. unfold on_mmap_call in H. destruct (hm_limit m <? hm_start m); [discriminate H|]. injection H as <-.
  set (s' := set_info _ _ _).
  assert (Q : forall q, info s' q = if q =? pid
     then pi_set_loc (filter (fun e => negb ((hm_start m <=? fst e) && (fst e <? hm_limit m))) (pi_loc (info s pid))) (info s pid)
     else info s q) by (intros; unfold s'; apply info_set).
  assert (A : forall q, pi_sample (info s' q) = pi_sample (info s q) /\ pi_builder (info s' q) = pi_builder (info s q) /\
     pi_map (info s' q) = pi_map (info s q) /\ pi_comm (info s' q) = pi_comm (info s q) /\
     forall a, aget N.eqb a (pi_loc (info s' q)) =
       if (pid =? q) && covers m a then None else aget N.eqb a (pi_loc (info s q))).
  { intros q. rewrite Q, (N.eqb_sym pid). destruct (N.eqb_spec q pid) as [->|]; [|repeat split].
    do 4 (split; [reflexivity|]). intros a. cbn [pi_loc pi_set_loc andb].
    rewrite (aget_filter (fun x => negb ((hm_start m <=? x) && (x <? hm_limit m)))). unfold covers.
    now destruct ((hm_start m <=? a) && (a <? hm_limit m)). }
  assert (LE : forall q, pi_loc (info s q) = [] -> pi_loc (info s' q) = []).
  { intros q E. rewrite Q. destruct (N.eqb_spec q pid) as [->|]; [|exact E]. cbn [pi_loc pi_set_loc]. now rewrite E. }
  split; [|split; [reflexivity|split; [reflexivity|]]].
  - constructor.
    + exact (iv_len _ _ _ _ I).
    + exact (iv_core _ _ _ _ I).
    + intros p Hp. destruct (A (okey c p)) as (_ & E & _). rewrite E in Hp. destruct (iv_none _ _ _ _ I p Hp) as (X & Y & Z).
      destruct (A p) as (-> & _ & -> & _). split; [now apply LE|now split].
    + intros p bi Hp. destruct (A (okey c p)) as (_ & E & _). rewrite E in Hp.
      destruct (iv_some _ _ _ _ I p bi Hp) as (b & NB & M & L & S). exists b. split; [exact NB|].
      unfold maps_ok, locs_ok, sams_ok in *. destruct (A p) as (-> & _ & -> & _ & EL). split; [exact M|]. split; [|exact S].
      intros a id. rewrite EL. destruct ((pid =? p) && covers m a); [discriminate|]. apply L.
    + intros p k p' k' r. destruct (A p) as (-> & _). destruct (A p') as (-> & _). apply (iv_inj _ _ _ _ I).
    + intros p tid. unfold comm_of. destruct (A p) as (_ & _ & _ & -> & _). cbn [thread_name].
      exact (iv_comm _ _ _ _ I p tid).
  - intros q. destruct (A q) as (X & Y & _ & _ & Z). auto.
Qed.

Lemma inv_sample_history c R h s cx : Inv c R h s -> Inv c R (HSample cx :: h) s.
Proof. intros [A B D E F G]. now constructor. Qed.

(** * The whole run *)
Definition refs_known (R : ptr -> N -> N -> Prop) (h : hcall) : Prop :=
  forall q m, In (q, m) (refs_of h) -> R q (hm_start m) (hm_limit m).
Definition frames_within (c : cfg) (R : ptr -> N -> N -> Prop) (h : hcall) : Prop :=
  match h with
  | HSample cx => forall a q m s l, In (a, Some (q, m)) (stack_frames c cx) -> R q s l -> s <= a < l
  | _ => True
  end.

Lemma call_step c R h s x s' o :
  Inv c R h s -> refs_known R x -> ~ resets c x -> on_call c s x = Ok (s', o) ->
  Inv c R (x :: h) s' /\ growing s s' /\ (all_inside s -> frames_within c R x -> all_inside s').
Proof.
  intros I K NR H. destruct x as [cx|cm e|pid [q m]]; cbn [on_call] in H.
  - destruct (sample_step_ok _ _ _ _ _ _ _ I K H) as [(_ & -> & _)|(_ & r & _ & I' & SS & _ & A)].
    + split; [now apply inv_sample_history|]. split; [apply growing_refl|auto].
    + split; [now apply inv_sample_history|]. split; [exact (ss_grow _ _ _ _ _ _ SS)|]. exact A.
  - injection H as <- <-. destruct (comm_step _ _ _ _ _ _ I NR) as (I' & EB & _). split; [exact I'|].
    unfold growing, all_inside. rewrite EB. split; [apply growing_refl|auto].
  - destruct (on_mmap_call s pid m) as [s1| | | |] eqn:E; try discriminate H. cbn [obind] in H. injection H as <- <-.
    destruct (mmap_step _ _ _ _ _ q _ _ I E) as (I' & EB & _). split; [exact I'|].
    unfold growing, all_inside. rewrite EB. split; [apply growing_refl|auto].
Qed.

Lemma run_inv c R hs : forall h s s' os,
  Inv c R h s -> Forall (refs_known R) hs -> Forall (fun x => ~ resets c x) hs ->
  run_calls c s hs = Ok (s', os) ->
  Inv c R (rev hs ++ h) s' /\ growing s s' /\ (all_inside s -> Forall (frames_within c R) hs -> all_inside s').
Proof.
  induction hs as [|x hs IH]; intros h s s' os I K NR H; cbn [run_calls] in H.
  - injection H as <- <-. split; [exact I|]. split; [apply growing_refl|auto].
  - destruct (on_call c s x) as [[s1 o]| | | |] eqn:E; try discriminate H. cbn [obind] in H.
    destruct (run_calls c s1 hs) as [[s2 os2]| | | |] eqn:E2; try discriminate H. cbn [obind] in H.
    injection H as <- <-. inversion K as [|? ? K1 K2]; subst. inversion NR as [|? ? N1 N2]; subst.
    destruct (call_step _ _ _ _ _ _ _ I K1 N1 E) as (I1 & G1 & A1).
    destruct (IH _ _ _ _ I1 K2 N2 E2) as (I2 & G2 & A2). cbn [rev]. rewrite <- app_assoc. cbn [app].
    split; [exact I2|]. split; [exact (growing_trans _ _ _ G1 G2)|]. intros A F.
    inversion F as [|? ? F1 F2]; subst. apply A2; [now apply A1|exact F2].
Qed.

Lemma run_app c l1 : forall s l2 s' os,
  run_calls c s (l1 ++ l2) = Ok (s', os) <->
  exists s1 o1 o2, run_calls c s l1 = Ok (s1, o1) /\ run_calls c s1 l2 = Ok (s', o2) /\ os = o1 ++ o2.
Proof.
  induction l1 as [|x l1 IH]; intros s l2 s' os; cbn [app run_calls].
  - split.
    + intros H. exists s, [], os. auto.
    + intros (s1 & o1 & o2 & H1 & H2 & ->). injection H1 as <- <-. exact H2.
  - destruct (on_call c s x) as [[s1 o]| | | |]; cbn [obind];
      try (split; [discriminate|intros (? & ? & ? & X & _); discriminate X]).
    split.
    + intros H. destruct (run_calls c s1 (l1 ++ l2)) as [[s2 os2]| | | |] eqn:E; try discriminate H. cbn [obind] in H.
      injection H as <- <-. apply IH in E. destruct E as (s3 & o1 & o2 & H1 & H2 & ->).
      exists s3, (o :: o1), o2. rewrite H1. cbn [obind]. auto.
    + intros (s3 & o1 & o2 & H1 & H2 & ->).
      destruct (run_calls c s1 l1) as [[s4 os4]| | | |] eqn:E; try discriminate H1. cbn [obind] in H1.
      injection H1 as <- <-. rewrite (proj2 (IH s1 l2 s' (os4 ++ o2))); [reflexivity|]. exists s4, os4, o2. auto.
Qed.

Lemma run_length c hs : forall s s' os, run_calls c s hs = Ok (s', os) -> List.length os = List.length hs.
Proof.
  induction hs as [|x hs IH]; intros s s' os H; cbn [run_calls] in H.
  - now injection H as <- <-.
  - destruct (on_call c s x) as [[s1 o]| | | |]; try discriminate H. cbn [obind] in H.
    destruct (run_calls c s1 hs) as [[s2 os2]| | | |] eqn:E2; try discriminate H. cbn [obind] in H.
    injection H as <- <-. cbn [List.length]. f_equal. exact (IH _ _ _ E2).
Qed.
