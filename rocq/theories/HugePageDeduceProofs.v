(** Proofs about the deduction of huge pages. *)
From Coq Require Import String Permutation.
From Verif Require Import Base BytesModel TextModel TextProofs Assoc HugePageModel HugePageSpec HugePageProofs.
Local Open Scope N_scope.
Local Open Scope list_scope.

Definition typedm (m : vmap) : Prop := v_start m < 2 ^ 64 /\ v_len m < 2 ^ 64 /\ v_pgoff m < 2 ^ 64.

(** A range: huge pages one after the other, up to [next]. *)
Fixpoint chain (rng : list (pevent * vmap)) (next : vmap) : Prop :=
  match rng with
  | [] => True
  | (_, m) :: r =>
      typedm m /\ is_huge m = true /\
      w64 (v_start m + v_len m) = v_start (match r with [] => next | (_, x) :: _ => x end) /\ chain r next
  end.

Lemma w64_eq x : w64 x = x mod 2 ^ 64.
Proof. reflexivity. Qed.

(** Distance from a mapping to the next one, around the end of memory. *)
Definition dist (m next : vmap) : N := sub64 (v_start next) (v_start m).

Lemma dist_step m x next :
  typedm m -> w64 (v_start m + v_len m) = v_start x -> v_start next < 2 ^ 64 ->
  dist m next = w64 (v_len m + dist x next).
Proof.
  intros (A & B & _) E C. unfold dist, sub64, w64, two64 in *.
  change (2 ^ 64) with 18446744073709551616 in *.
  rewrite N.add_mod_idemp_r by discriminate. rewrite <- E.
  assert (D : v_start m + v_len m < 2 * 18446744073709551616) by lia.
  destruct (N.lt_ge_cases (v_start m + v_len m) 18446744073709551616) as [L|L].
  - rewrite (N.mod_small (v_start m + v_len m)) by exact L. f_equal. lia.
  - replace ((v_start m + v_len m) mod 18446744073709551616) with (v_start m + v_len m - 18446744073709551616).
    + replace (v_len m + (v_start next + 18446744073709551616 - (v_start m + v_len m - 18446744073709551616)))
        with ((v_start next + 18446744073709551616 - v_start m) + 1 * 18446744073709551616) by lia.
      now rewrite N.mod_add by discriminate.
    + apply (N.mod_unique _ _ 1); lia.
Qed.

Lemma aligned_lt n : aligned_string_length n < 18446744073709551616.
Proof.
  unfold aligned_string_length, align, w64, two64. set (x := _ + (8 - 1)). set (y := N.lnot _ _). clearbody x y.
  change 18446744073709551616 with (2 ^ 64). rewrite <- N.land_ones, <- N.land_assoc, (N.land_comm (N.ones 64)), N.land_assoc, N.land_ones.
  apply N.mod_lt. discriminate.
Qed.

Lemma or_else_given {A} (o d : option A) : or_else o d = given o d.
Proof. now destruct o. Qed.

Lemma update_one_renamed e m next pg :
  e_map e = Some m -> is_huge m = true -> typedm m -> v_start next < 2 ^ 64 -> v_pgoff next < 2 ^ 64 ->
  pg = sub64 (v_pgoff next) (dist m next) -> renamed e m next (update_one e m next pg).
Proof.
  intros EM H (T1 & T2 & T3) TN TP ->. unfold update_one. rewrite H. cbn [orb].
  eexists. split; [reflexivity|]. cbn [set_map e_time e_other set_filename set_size].
  split; [reflexivity|]. split; [reflexivity|]. split.
  { unfold set_filename. cbn [e_size set_map set_size]. unfold sub64, w64, w32, two64, two32. change (2 ^ 64) with 18446744073709551616.
    change (2 ^ 32) with 4294967296. f_equal.
    assert (L : aligned_string_length (len (v_file m)) < 18446744073709551616).
    { apply aligned_lt. }
    set (x := e_size e + aligned_string_length (len (v_file next))).
    set (y := aligned_string_length (len (v_file m))) in *. clearbody x y. clear - L.
    replace (x mod 18446744073709551616 + 18446744073709551616 - y)
      with (x mod 18446744073709551616 + (18446744073709551616 - y)) by lia.
    rewrite N.add_mod_idemp_l by discriminate. f_equal. lia. }
  assert (PG : (sub64 (v_pgoff next) (dist m next) + (v_start next + 2 ^ 64 - v_start m)) mod 2 ^ 64 = v_pgoff next).
  { unfold sub64, dist, sub64, two64. change (2 ^ 64) with 18446744073709551616 in *.
    set (d := v_start next + 18446744073709551616 - v_start m).
    assert (L : d mod 18446744073709551616 < 18446744073709551616) by (apply N.mod_lt; discriminate).
    rewrite N.add_mod_idemp_l by discriminate.
    rewrite <- N.add_mod_idemp_r by discriminate.
    replace (v_pgoff next + 18446744073709551616 - d mod 18446744073709551616 + d mod 18446744073709551616)
      with (v_pgoff next + 1 * 18446744073709551616) by lia.
    rewrite N.mod_add by discriminate. now apply N.mod_small. }
  cbn [v_pgoff set_build set_file]. destruct (N.eqb_spec (v_pgoff m) 0) as [Z|Z].
  - do 7 (split; [reflexivity|]). do 5 (split; [apply or_else_given|]). split; [|intros X; contradiction]. intros _.
    split; [unfold sub64, two64; apply N.mod_lt; discriminate|exact PG].
  - do 7 (split; [reflexivity|]). do 5 (split; [apply or_else_given|]). split; [intros X; contradiction|]. reflexivity.
Qed.

Lemma update_loop_spec rng next : forall pg,
  chain rng next -> (forall e m, In (e, m) rng -> e_map e = Some m) -> v_start next < 2 ^ 64 -> v_pgoff next < 2 ^ 64 ->
  (forall e m r, rng = (e, m) :: r -> pg = sub64 (v_pgoff next) (dist m next)) ->
  rng <> [] ->
  exists out, update_loop rng next pg = (out, v_pgoff next) /\
    Forall2 (fun em e' => renamed (fst em) (snd em) next e') rng out.
Proof.
  induction rng as [|[e m] r IH]; intros pg C EM TN TP PG NE; [contradiction|].
  cbn [update_loop]. destruct C as (T & H & S & C).
  specialize (PG e m r eq_refl). subst pg.
  assert (U : renamed e m next (update_one e m next (sub64 (v_pgoff next) (dist m next)))).
  { apply update_one_renamed; auto. apply EM. now left. }
  assert (ADV : forall d, d < 2 ^ 64 -> dist m next = w64 (v_len m + d) ->
            w64 (sub64 (v_pgoff next) (dist m next) + v_len m) = sub64 (v_pgoff next) d).
  { intros d Hd ->. destruct T as (_ & T & _). unfold sub64, w64, two64. change (2 ^ 64) with 18446744073709551616 in *.
    rewrite N.add_mod_idemp_l by discriminate. clear - Hd T TP.
    destruct (N.lt_ge_cases (v_len m + d) 18446744073709551616) as [L|L].
    - rewrite (N.mod_small (v_len m + d)) by exact L. f_equal. lia.
    - replace ((v_len m + d) mod 18446744073709551616) with (v_len m + d - 18446744073709551616).
      + replace (v_pgoff next + 18446744073709551616 - (v_len m + d - 18446744073709551616) + v_len m)
          with (v_pgoff next + 18446744073709551616 - d + 1 * 18446744073709551616) by lia.
        now rewrite N.mod_add by discriminate.
      + apply (N.mod_unique _ _ 1); lia. }
  assert (DL : forall x, dist x next < 2 ^ 64) by (intros x; unfold dist, sub64, two64; apply N.mod_lt; discriminate).
  destruct r as [|[e2 m2] r].
  - cbn [update_loop]. eexists. split; [|constructor; [exact U|constructor]]. f_equal.
    rewrite (ADV 0); [|reflexivity|].
    + unfold sub64, two64. change (2 ^ 64) with 18446744073709551616 in *. rewrite N.sub_0_r.
      replace (v_pgoff next + 18446744073709551616) with (v_pgoff next + 1 * 18446744073709551616) by lia.
      rewrite N.mod_add by discriminate. now apply N.mod_small.
    + rewrite (dist_step m next next T S TN). f_equal. f_equal. unfold dist, sub64, two64.
      replace (v_start next + 18446744073709551616 - v_start next) with 18446744073709551616 by lia. reflexivity.
  - destruct (IH (w64 (sub64 (v_pgoff next) (dist m next) + v_len m)) C) as (out & E & F).
    + intros x y Hx. apply EM. now right.
    + exact TN.
    + exact TP.
    + intros x y z Hx. injection Hx as <- <- <-. apply ADV; [apply DL|]. now apply dist_step.
    + discriminate.
    + rewrite E. eexists. split; [reflexivity|]. constructor; [exact U|exact F].
Qed.

(** The range length is the distance to the next mapping. *)
Lemma range_length_dist e m r next d :
  chain ((e, m) :: r) next -> v_start next < 2 ^ 64 ->
  range_length m (snd (last ((e, m) :: r) d)) = dist m next.
Proof.
  intros C TN. unfold range_length. set (l := snd (last ((e, m) :: r) d)).
  assert (A : w64 (v_start l + v_len l) = v_start next /\ v_start l < 2 ^ 64).
  { subst l. clear TN. revert e m C. induction r as [|[e2 m2] r IH]; intros e m (T & _ & S & C).
    - cbn. split; [exact S|apply T].
    - cbn [last]. destruct r as [|x r]; [destruct C as (T2 & _ & S2 & _); split; [exact S2|apply T2]|].
      exact (IH e2 m2 C). }
  destruct A as (A & B). destruct C as ((T & _) & _). unfold dist. rewrite <- A.
  unfold sub64, w64, two64. change (2 ^ 64) with 18446744073709551616 in *.
  rewrite N.add_mod_idemp_l by discriminate.
  replace ((v_start l + v_len l) mod 18446744073709551616 + 18446744073709551616 - v_start m)
    with ((v_start l + v_len l) mod 18446744073709551616 + (18446744073709551616 - v_start m)) by lia.
  rewrite N.add_mod_idemp_l by discriminate. f_equal. lia.
Qed.

Lemma update_range_spec e m r next d :
  chain ((e, m) :: r) next -> (forall e0 m0, In (e0, m0) ((e, m) :: r) -> e_map e0 = Some m0) ->
  v_start next < 2 ^ 64 -> v_pgoff next < 2 ^ 64 ->
  exists out, update_range m (snd (last ((e, m) :: r) d)) ((e, m) :: r) next = Ok out /\
    Forall2 (fun em e' => renamed (fst em) (snd em) next e') ((e, m) :: r) out.
Proof.
  intros C EM TN TP. unfold update_range. rewrite (range_length_dist e m r next d C TN).
  destruct (update_loop_spec _ next (sub64 (v_pgoff next) (dist m next)) C EM TN TP) as (out & E & F).
  - intros x y z H. now injection H as <- <- <-.
  - discriminate.
  - rewrite E. exists out. split; [|exact F].
    assert (X : v_pgoff next = w64 (sub64 (v_pgoff next) (dist m next) + dist m next)).
    { assert (L : dist m next < 2 ^ 64) by (unfold dist, sub64, two64; apply N.mod_lt; discriminate).
      unfold sub64, w64, two64. change (2 ^ 64) with 18446744073709551616 in *. rewrite N.add_mod_idemp_l by discriminate.
      replace (v_pgoff next + 18446744073709551616 - dist m next + dist m next) with (v_pgoff next + 1 * 18446744073709551616) by lia.
      rewrite N.mod_add by discriminate. symmetry. now apply N.mod_small. }
    rewrite <- X, N.eqb_refl. reflexivity.
Qed.

(** One event of a process in the result. *)
Definition outcome_of (l : list (pevent * vmap)) (out : list pevent) (i : nat) (em : pevent * vmap) (e' : pevent) : Prop :=
  e' = fst em \/
  is_huge (snd em) = true /\ exists j en next, (i < j)%nat /\ nth_error l j = Some (en, next) /\ nth_error out j = Some en /\
    is_huge next = false /\ renamed (fst em) (snd em) next e'.

Definition outcomes (l : list (pevent * vmap)) (out : list pevent) : Prop :=
  List.length out = List.length l /\
  forall i em, nth_error l i = Some em -> exists e', nth_error out i = Some e' /\ outcome_of l out i em e'.

Lemma outcomes_keep rng l out : outcomes l out -> outcomes (rng ++ l) (map fst rng ++ out).
Proof.
  intros (L & H). split; [rewrite !app_length, map_length; lia|].
  intros i em Hi. destruct (Nat.lt_ge_cases i (List.length rng)) as [LT|GE].
  - rewrite nth_error_app1 in Hi by exact LT. exists (fst em). rewrite nth_error_app1 by (now rewrite map_length).
    rewrite nth_error_map, Hi. split; [reflexivity|]. now left.
  - rewrite nth_error_app2 in Hi by exact GE. destruct (H _ _ Hi) as (e' & E & O). exists e'.
    rewrite nth_error_app2 by (now rewrite map_length). rewrite map_length. split; [exact E|].
    destruct O as [O|(HG & j & en & next & LT & A & B & C & D)]; [now left|right]. split; [exact HG|].
    exists (List.length rng + j)%nat, en, next. split; [lia|].
    rewrite !nth_error_app2 by (rewrite ?map_length; lia). rewrite map_length.
    replace (List.length rng + j - List.length rng)%nat with j by lia. auto.
Qed.

Lemma outcomes_update rng e m l out rng' :
  outcomes l out -> is_huge m = false -> (forall x, In x rng -> is_huge (snd x) = true) ->
  Forall2 (fun em e' => renamed (fst em) (snd em) m e') rng rng' ->
  outcomes (rng ++ (e, m) :: l) (rng' ++ e :: out).
Proof.
  intros (L & H) NH HG F.
  assert (LR : List.length rng' = List.length rng) by (clear - F; induction F; cbn; congruence).
  split; [rewrite !app_length; cbn; lia|]. intros i em Hi.
  destruct (Nat.lt_ge_cases i (List.length rng)) as [LT|GE].
  - rewrite nth_error_app1 in Hi by exact LT.
    assert (X : exists e', nth_error rng' i = Some e' /\ renamed (fst em) (snd em) m e').
    { clear - F Hi. revert i Hi. induction F as [|a b r r' H F IH]; intros [|i] Hi; cbn in *; try discriminate Hi.
      - injection Hi as <-. eauto.
      - eauto. }
    destruct X as (e' & E & R). exists e'. rewrite nth_error_app1 by lia. split; [exact E|]. right.
    split; [apply HG; eapply nth_error_In; eauto|].
    exists (List.length rng), e, m. split; [exact LT|]. rewrite nth_error_mid. split; [reflexivity|].
    split; [rewrite <- LR; apply nth_error_mid|]. auto.
  - destruct (i - List.length rng)%nat as [|k] eqn:K.
    + assert (i = List.length rng) by lia. subst i. rewrite nth_error_mid in Hi. injection Hi as <-. exists e.
      split; [rewrite <- LR; apply nth_error_mid|now left].
    + rewrite nth_error_app2, K in Hi by exact GE. cbn in Hi. destruct (H _ _ Hi) as (e' & E & O). exists e'.
      rewrite nth_error_app2, LR, K by lia. cbn. split; [exact E|].
      destruct O as [O|(HH & j & en & next & LT & A & B & C & D)]; [now left|right]. split; [exact HH|].
      exists (List.length rng + S j)%nat, en, next. split; [lia|].
      rewrite !nth_error_app2 by lia. rewrite LR. replace (List.length rng + S j - List.length rng)%nat with (S j) by lia. auto.
Qed.

Definition typedl (l : list (pevent * vmap)) : Prop := forall e m, In (e, m) l -> e_map e = Some m /\ typedm m.

Lemma chain_snoc rng e m x next d :
  chain rng x -> (rng <> [] -> w64 (v_start (snd (last rng d)) + v_len (snd (last rng d))) = v_start m) ->
  typedm m -> is_huge m = true -> w64 (v_start m + v_len m) = v_start next -> chain (rng ++ [(e, m)]) next.
Proof.
  intros C L T H S. induction rng as [|[e1 m1] r IH].
  - cbn. auto.
  - destruct C as (T1 & H1 & S1 & C). cbn [app chain]. split; [exact T1|]. split; [exact H1|].
    destruct r as [|[e2 m2] r].
    + cbn. split; [apply L; discriminate|]. auto.
    + cbn [app]. split; [exact S1|]. apply IH; [exact C|]. intros _. apply L. discriminate.
Qed.

Lemma chain_any rng x next : chain rng x -> w64 (v_start (snd (last rng (Build_pevent 0 0 None 0, x))) + v_len (snd (last rng (Build_pevent 0 0 None 0, x)))) = v_start next -> rng <> [] ->
  chain rng next.
Proof.
  induction rng as [|[e m] r IH]; intros C S NE; [exact I|]. destruct C as (T & H & S1 & C). cbn [chain].
  split; [exact T|]. split; [exact H|]. destruct r as [|[e2 m2] r].
  - split; [exact S|exact I].
  - split; [exact S1|]. apply IH; [exact C|exact S|discriminate].
Qed.

(** A range during the loop: huge pages, each followed by the next one. *)
Fixpoint run_of (rng : list (pevent * vmap)) : Prop :=
  match rng with
  | [] => True
  | (_, m) :: r =>
      typedm m /\ is_huge m = true /\
      match r with [] => True | (_, x) :: _ => w64 (v_start m + v_len m) = v_start x end /\ run_of r
  end.

Lemma run_of_snoc rng e m d :
  run_of rng -> (rng <> [] -> w64 (v_start (snd (last rng d)) + v_len (snd (last rng d))) = v_start m) ->
  typedm m -> is_huge m = true -> run_of (rng ++ [(e, m)]).
Proof.
  intros C L T H. induction rng as [|[e1 m1] r IH]; [cbn; auto|].
  destruct C as (T1 & H1 & S1 & C). cbn [app run_of]. split; [exact T1|]. split; [exact H1|].
  destruct r as [|[e2 m2] r].
  - cbn. split; [apply L; discriminate|]. auto.
  - cbn [app]. split; [exact S1|]. apply IH; [exact C|]. intros _. apply L. discriminate.
Qed.

Lemma run_of_chain rng next d :
  run_of rng -> (rng <> [] -> w64 (v_start (snd (last rng d)) + v_len (snd (last rng d))) = v_start next) -> chain rng next.
Proof.
  intros C L. induction rng as [|[e1 m1] r IH]; [exact I|].
  destruct C as (T1 & H1 & S1 & C). cbn [chain]. split; [exact T1|]. split; [exact H1|].
  destruct r as [|[e2 m2] r].
  - cbn. split; [apply L; discriminate|exact I].
  - split; [exact S1|]. apply IH; [exact C|]. intros _. apply L. discriminate.
Qed.

Lemma run_of_huge rng x : run_of rng -> In x rng -> is_huge (snd x) = true.
Proof.
  induction rng as [|[e m] r IH]; intros C H; [destruct H|]. destruct C as (_ & HG & _ & C).
  destruct H as [<-|H]; [exact HG|now apply IH].
Qed.

Lemma deduce_loop_ok l : forall pre rng,
  run_of rng -> typedl (rng ++ l) -> exists out, deduce_loop pre rng l = Ok out /\ outcomes (rng ++ l) out.
Proof.
  induction l as [|[e m] l IH]; intros pre rng R T; cbn [deduce_loop].
  - eexists. split; [reflexivity|]. rewrite <- (app_nil_r (map fst rng)). apply outcomes_keep. split; [reflexivity|].
    intros [|i] em H; discriminate H.
  - assert (TM : e_map e = Some m /\ typedm m) by (apply T; apply in_or_app; right; now left).
    assert (TL : typedl l) by (intros x y H; apply T; apply in_or_app; right; now right).
    destruct (is_huge m) eqn:HG.
    + assert (ONE : run_of [(e, m)]) by (cbn; repeat split; auto; apply TM).
      destruct rng as [|[e0 first] r]; [apply (IH pre [(e, m)] ONE); exact T|]. set (rng := (e0, first) :: r) in *.
      destruct (continues (snd (last rng (e, m))) m) eqn:CT.
      * change ((e, m) :: l) with ([(e, m)] ++ l) in *. rewrite app_assoc in *. apply IH; [|exact T].
        apply (run_of_snoc _ _ _ (e, m)); [exact R| |apply TM|exact HG]. intros _.
        unfold continues, vma_contiguous in CT. rewrite !andb_true_iff, !N.eqb_eq in CT. apply CT.
      * destruct (IH None [(e, m)] ONE) as (out & E & O).
        { intros x y H. apply T. apply in_or_app. now right. }
        rewrite E. cbn [obind]. eexists. split; [reflexivity|]. now apply outcomes_keep.
    + destruct (IH (Some m) [] I TL) as (out & E & O). cbn [app] in O.
      match goal with |- exists out, obind ?Y _ = _ /\ _ => assert (X : exists rng', Y = Ok rng' /\
        (rng' = map fst rng \/ Forall2 (fun em e' => renamed (fst em) (snd em) m e') rng rng')) end.
      { destruct rng as [|[e0 first] r]; [eexists; split; [reflexivity|now left]|]. cbn zeta.
        destruct (belongs pre first (snd (last ((e0, first) :: r) (e, m))) m) eqn:B; [|eauto].
        unfold belongs, vma_contiguous in B. rewrite !andb_true_iff, !N.eqb_eq in B. destruct B as ((((_ & B) & _) & _) & _).
        destruct (update_range_spec e0 first r m (e, m)) as (out' & E' & F).
        - apply (run_of_chain _ _ (e, m)); [exact R|]. intros _. exact B.
        - intros x y H. apply T. apply in_or_app. now left.
        - apply TM.
        - apply TM.
        - exists out'. split; [exact E'|now right]. }
      destruct X as (rng' & -> & X). cbn [obind]. rewrite E. cbn [obind]. eexists. split; [reflexivity|].
      destruct X as [->|X].
      * apply outcomes_keep. split; [destruct O as (L & _); cbn; lia|]. intros [|i] em H.
        -- injection H as <-. exists e. split; [reflexivity|now left].
        -- cbn in H. destruct O as (_ & O). destruct (O i em H) as (e' & E1 & O1). exists e'. split; [exact E1|].
           destruct O1 as [O1|(HH & j & en & next & LT & A & B & C & D)]; [now left|right]. split; [exact HH|].
           exists (S j), en, next. split; [lia|]. auto.
      * apply outcomes_update; auto. intros x. now apply run_of_huge.
Qed.

(** ** Selecting the events of a process *)

Fixpoint rank (ms : list bool) (i : nat) : nat :=
  match ms, i with
  | [], _ => O
  | _, O => O
  | true :: ms, S i => S (rank ms i)
  | false :: ms, S i => rank ms i
  end.

Lemma rank_mono ms : forall i j, (i <= j)%nat -> (rank ms i <= rank ms j)%nat.
Proof.
  induction ms as [|b ms IH]; intros [|i] [|j] L; cbn; try lia; destruct b; try lia.
  - specialize (IH i j ltac:(lia)). lia.
  - apply IH. lia.
Qed.

(** The mask fits the events: as long, and on mmap events only. *)
Inductive fits_mask : list bool -> list pevent -> Prop :=
| fm_nil : fits_mask [] []
| fm_false ms e evs : fits_mask ms evs -> fits_mask (false :: ms) (e :: evs)
| fm_true ms e m evs : e_map e = Some m -> fits_mask ms evs -> fits_mask (true :: ms) (e :: evs).

Lemma take_at ms evs : fits_mask ms evs -> forall r e m, nth_error (take_mask ms evs) r = Some (e, m) ->
  exists i, nth_error ms i = Some true /\ rank ms i = r /\ nth_error evs i = Some e /\ e_map e = Some m.
Proof.
  induction 1 as [|ms e0 evs F IH|ms e0 m0 evs E F IH]; intros r e m H; cbn [take_mask] in H.
  - destruct r; discriminate H.
  - destruct (IH _ _ _ H) as (i & A). now exists (S i).
  - rewrite E in H. destruct r as [|r]; cbn in H.
    + injection H as <- <-. now exists O.
    + destruct (IH _ _ _ H) as (i & A & B & C). exists (S i). cbn. rewrite B. auto.
Qed.

Lemma take_of ms evs : fits_mask ms evs -> forall i e, nth_error ms i = Some true -> nth_error evs i = Some e ->
  exists m, e_map e = Some m /\ nth_error (take_mask ms evs) (rank ms i) = Some (e, m).
Proof.
  induction 1 as [|ms e0 evs F IH|ms e0 m0 evs E F IH]; intros [|i] e A B; cbn in A, B; try discriminate A.
  - cbn. eauto.
  - injection B as <-. exists m0. cbn. rewrite E. auto.
  - destruct (IH _ _ A B) as (m & X & Y). exists m. cbn. rewrite E. auto.
Qed.

Lemma put_at ms evs : fits_mask ms evs -> forall new i, List.length new = List.length (take_mask ms evs) ->
  List.length (put_mask ms evs new) = List.length evs /\
  nth_error (put_mask ms evs new) i =
    match nth_error ms i with Some true => nth_error new (rank ms i) | _ => nth_error evs i end.
Proof.
  induction 1 as [|ms e0 evs F IH|ms e0 m0 evs E F IH]; intros new i L; cbn [take_mask put_mask] in *.
  - split; [reflexivity|]. now destruct i.
  - destruct (IH new (pred i) L) as (A & B). split; [cbn; now rewrite A|].
    destruct i as [|i]; [reflexivity|]. cbn. exact B.
  - rewrite E in L. destruct new as [|x new]; [discriminate L|]. cbn in L.
    destruct (IH new (pred i) ltac:(lia)) as (A & B). split; [cbn; now rewrite A|].
    destruct i as [|i]; [reflexivity|]. cbn. exact B.
Qed.

Lemma mask_fits k evs : forall st, fits_mask (mask k st evs) evs.
Proof.
  induction evs as [|e evs IH]; intros st; cbn [mask]; [constructor|].
  destruct ((st || opens k e) && of_key k e && existsb (opens k) (e :: evs)) eqn:B; [|constructor; apply IH].
  unfold of_key in B. destruct (e_map e) as [m|] eqn:E; [|rewrite andb_false_r in B; discriminate B].
  apply (fm_true _ _ m); [exact E|apply IH].
Qed.

Lemma mask_key k evs : forall st i e, nth_error (mask k st evs) i = Some true -> nth_error evs i = Some e -> of_key k e = true.
Proof.
  induction evs as [|e0 evs IH]; intros st [|i] e A B; cbn in A, B; try discriminate A.
  - injection B as <-. injection A as A. rewrite !andb_true_iff in A. apply A.
  - eapply IH; eauto.
Qed.

Lemma of_key_spec k e : of_key k e = true <-> exists m, e_map e = Some m /\ key_of m = k.
Proof.
  unfold of_key. destruct (e_map e) as [m|]; split; intros H.
  - exists m. now rewrite N.eqb_eq in H.
  - destruct H as (x & E & K). injection E as <-. now apply N.eqb_eq.
  - discriminate H.
  - destruct H as (x & E & _). discriminate E.
Qed.

Lemma renamed_typed e m next e' : typed e -> e_map e = Some m -> renamed e m next e' -> typed e'.
Proof.
  intros T E (m' & E' & _ & _ & _ & _ & S & L & _ & _ & _ & _ & _ & _ & _ & _ & _ & P0 & P1). unfold typed in *.
  rewrite E in T. rewrite E', S, L. split; [apply T|]. split; [apply T|].
  destruct (N.eq_dec (v_pgoff m) 0) as [Z|Z]; [now apply P0|]. rewrite (P1 Z). apply T.
Qed.

Lemma not_huge m : is_huge m = false -> ~ huge_name (v_file m).
Proof. intros H X. apply huge_iff in X. congruence. Qed.

Lemma deduce_key_ok k evs :
  Forall typed evs -> exists evs', deduce_key k evs = Ok evs' /\ List.length evs' = List.length evs /\
    forall i e, nth_error evs i = Some e ->
      exists e', nth_error evs' i = Some e' /\ deduced evs evs' i e e' /\ (of_key k e = false -> e' = e) /\
        (forall k', of_key k' e' = of_key k' e).
Proof.
  intros T. unfold deduce_key. set (ms := mask k false evs).
  assert (F : fits_mask ms evs) by apply mask_fits.
  assert (TL : typedl (take_mask ms evs)).
  { intros e m H. apply In_nth_error in H. destruct H as (r & H). destruct (take_at _ _ F _ _ _ H) as (i & _ & _ & A & B).
    split; [exact B|]. rewrite Forall_forall in T. specialize (T e (nth_error_In _ _ A)). unfold typed in T. now rewrite B in T. }
  destruct (deduce_loop_ok (take_mask ms evs) None [] I TL) as (out & E & L & O). cbn [app] in L, O.
  rewrite E. cbn [obind]. eexists. split; [reflexivity|]. split; [exact (proj1 (put_at ms evs F out 0%nat L))|].
  intros i e Hi. destruct (put_at ms evs F out i L) as (_ & P).
  destruct (nth_error ms i) as [[|]|] eqn:M.
  - destruct (take_of _ _ F _ _ M Hi) as (m & EM & TK). destruct (O _ _ TK) as (e' & E' & OC).
    exists e'. split; [congruence|]. cbn [fst snd] in OC.
    assert (K : of_key k e = true) by (eapply mask_key; eauto).
    destruct OC as [->|(HG & j & en & next & LT & A & B & NH & R)].
    + split; [now left|]. auto.
    + destruct (take_at _ _ F _ _ _ A) as (j' & M' & RK & A' & EN).
      split; [|split; [congruence|]].
      * right. exists m, j', en, next. split; [exact EM|]. split; [now apply huge_iff|].
        split. { destruct (Nat.lt_ge_cases i j') as [X|X]; [exact X|]. apply (rank_mono ms) in X. lia. }
        split; [exact A'|]. split. { destruct (put_at ms evs F out j' L) as (_ & P'). rewrite P', M', RK. exact B. }
        split; [exact EN|]. split; [|split; [now apply not_huge|exact R]].
        assert (K' : of_key k en = true) by (eapply mask_key; eauto).
        apply of_key_spec in K, K'. destruct K as (? & K1 & K2), K' as (? & K3 & K4). congruence.
      * intros k'. destruct R as (m' & Em' & _ & _ & _ & P1 & _). unfold of_key, key_of. now rewrite EM, Em', P1.
  - exists e. split; [congruence|]. split; [now left|]. auto.
  - exists e. split; [congruence|]. split; [now left|]. auto.
Qed.

(** ** All processes, in any order *)

Definition keyed (ks : list N) (e : pevent) : Prop := exists m, e_map e = Some m /\ In (key_of m) ks.

Record deducing (evs0 evs : list pevent) (todo : list N) : Prop := {
  dd_len : List.length evs = List.length evs0;
  dd_at : forall i e0, nth_error evs0 i = Some e0 -> exists e, nth_error evs i = Some e /\
    deduced evs0 evs i e0 e /\ (keyed todo e0 -> e = e0) /\ (forall k, of_key k e = of_key k e0) }.

Lemma deducing0 evs order : deducing evs evs order.
Proof. split; [reflexivity|]. intros i e H. exists e. split; [exact H|]. split; [now left|]. auto. Qed.

Lemma deducing_typed evs0 evs order : Forall typed evs0 -> deducing evs0 evs order -> Forall typed evs.
Proof.
  intros T [L A]. rewrite Forall_forall in *. intros e H. apply In_nth_error in H. destruct H as (i & H).
  destruct (nth_error evs0 i) as [e0|] eqn:E0.
  - destruct (A i e0 E0) as (e1 & E1 & D & _). assert (e1 = e) by congruence. subst e1.
    assert (T0 : typed e0) by (apply T; eapply nth_error_In; eauto).
    destruct D as [->|(m & j & en & next & EM & _ & _ & _ & _ & _ & _ & _ & R)]; [exact T0|].
    eapply renamed_typed; eauto.
  - exfalso. apply nth_error_None in E0. assert (i < List.length evs)%nat by (apply nth_error_Some; congruence). lia.
Qed.

Lemma deducing_step evs0 evs evs' k order :
  NoDup (k :: order) -> deducing evs0 evs (k :: order) -> List.length evs' = List.length evs ->
  (forall i e, nth_error evs i = Some e ->
      exists e', nth_error evs' i = Some e' /\ deduced evs evs' i e e' /\ (of_key k e = false -> e' = e) /\
        (forall k', of_key k' e' = of_key k' e)) ->
  deducing evs0 evs' order.
Proof.
  intros ND [L A] L' S. inversion ND as [|x y NI ND' EQ]; subst x y. split; [congruence|].
  intros i e0 E0. destruct (A i e0 E0) as (e & E & D & U & K). destruct (S i e E) as (e' & E' & D' & U' & K').
  exists e'. split; [exact E'|].
  assert (SAME : forall j en mn, nth_error evs j = Some en -> e_map en = Some mn -> key_of mn <> k -> nth_error evs' j = Some en).
  { intros j en mn Hj Em NK. destruct (S j en Hj) as (x & X & _ & Ux & _). rewrite X. f_equal. apply Ux.
    unfold of_key. rewrite Em. now apply N.eqb_neq. }
  split; [|split].
  - destruct (of_key k e0) eqn:OK.
    + assert (e = e0). { apply U. apply of_key_spec in OK. destruct OK as (m & ? & <-). exists m. split; [assumption|now left]. }
      subst e. destruct D' as [->|(m & j & en & next & EM & HG & LT & Hj & Hj' & EN & KK & NH & R)]; [now left|].
      right. exists m, j, en, next. do 3 (split; [assumption|]). split; [|auto].
      apply of_key_spec in OK. destruct OK as (m1 & M1 & M2).
      destruct (nth_error evs0 j) as [e1|] eqn:E1.
      * destruct (A j e1 E1) as (e2 & E2 & _ & U2 & K2). assert (e2 = en) by congruence. subst e2. f_equal. symmetry.
        apply U2. assert (OKn : of_key k e1 = true) by (rewrite <- K2; apply of_key_spec; exists next; split; [exact EN|congruence]).
        apply of_key_spec in OKn. destruct OKn as (m2 & ? & <-). exists m2. split; [assumption|now left].
      * exfalso. apply nth_error_None in E1. assert (j < List.length evs)%nat by (apply nth_error_Some; congruence). lia.
    + assert (e' = e) by (apply U'; now rewrite K). subst e'.
      destruct D as [->|(m & j & en & next & EM & HG & LT & Hj & Hj' & EN & KK & NH & R)]; [now left|].
      right. exists m, j, en, next. do 4 (split; [assumption|]). split; [|auto].
      apply (SAME j en next Hj' EN). rewrite KK. unfold of_key in OK. rewrite EM in OK. now apply N.eqb_neq in OK.
  - intros (m & EM & IN). assert (e = e0) by (apply U; exists m; split; [exact EM|now right]). subst e.
    apply U'. unfold of_key. rewrite EM. apply N.eqb_neq. intros <-. contradiction.
  - intros k'. now rewrite K', K.
Qed.

Lemma deduce_steps order : forall evs0 evs,
  NoDup order -> Forall typed evs0 -> deducing evs0 evs order ->
  exists evs', deduce order evs = Ok evs' /\ deducing evs0 evs' [].
Proof.
  induction order as [|k order IH]; intros evs0 evs ND T D; cbn [deduce]; [eauto|].
  destruct (deduce_key_ok k evs (deducing_typed _ _ _ T D)) as (evs1 & E & L & S). rewrite E. cbn [obind].
  inversion ND as [|x y NI ND' EQ]; subst x y. apply IH; [exact ND'|exact T|].
  eapply deducing_step; eauto.
Qed.

Lemma deduce_ok order evs :
  NoDup order -> Forall typed evs ->
  exists evs', deduce order evs = Ok evs' /\ List.length evs' = List.length evs /\
    forall i e, nth_error evs i = Some e -> exists e', nth_error evs' i = Some e' /\ deduced evs evs' i e e'.
Proof.
  intros ND T. destruct (deduce_steps order evs evs ND T (deducing0 _ _)) as (evs' & E & L & A).
  exists evs'. split; [exact E|]. split; [exact L|]. intros i e H. destruct (A i e H) as (e' & A1 & A2 & _). eauto.
Qed.

(** ** The order of the processes does not matter *)

(** The events of a process are the same in both lists. *)
Definition alike (k : N) (a b : list pevent) : Prop := Forall2 (fun x y => x = y \/ of_key k x = false /\ of_key k y = false) a b.

Lemma alike_exists k a b : alike k a b -> existsb (opens k) a = existsb (opens k) b.
Proof.
  induction 1 as [|x y a b H F IH]; [reflexivity|]. cbn. rewrite IH. f_equal.
  destruct H as [->|(H1 & H2)]; [reflexivity|]. unfold opens. now rewrite H1, H2.
Qed.

Lemma alike_mask k a b : alike k a b -> forall st, mask k st a = mask k st b.
Proof.
  induction 1 as [|x y a b H F IH]; intros st; [reflexivity|]. cbn [mask].
  pose proof (alike_exists k (x :: a) (y :: b) (Forall2_cons x y H F)) as EX. rewrite EX.
  assert (O : opens k x = opens k y) by (destruct H as [->|(H1 & H2)]; [reflexivity|unfold opens; now rewrite H1, H2]).
  assert (K : of_key k x = of_key k y) by (destruct H as [->|(H1 & H2)]; [reflexivity|now rewrite H1, H2]).
  now rewrite O, K, IH.
Qed.

Lemma alike_take k a b : alike k a b -> forall st, take_mask (mask k st a) a = take_mask (mask k st b) b.
Proof.
  intros A st. rewrite <- (alike_mask k a b A). revert st.
  induction A as [|x y a b H F IH]; intros st; [reflexivity|]. cbn [mask].
  destruct H as [->|(H1 & H2)].
  - destruct (_ && _); cbn [take_mask]; now rewrite IH.
  - rewrite H1, andb_false_r. cbn [andb take_mask]. apply IH.
Qed.

Lemma alike_at k a b i x : alike k a b -> nth_error a i = Some x -> of_key k x = true -> nth_error b i = Some x.
Proof.
  intros A. revert i. induction A as [|y z a b H F IH]; intros [|i] E K; cbn in *; try discriminate E.
  - injection E as ->. destruct H as [->|(H & _)]; congruence.
  - eauto.
Qed.

(** What one process gets does not depend on the others. *)
Lemma deduce_key_alike k a b a' b' :
  alike k a b -> Forall typed a -> deduce_key k a = Ok a' -> deduce_key k b = Ok b' ->
  forall i x, nth_error a i = Some x -> of_key k x = true -> nth_error b' i = nth_error a' i.
Proof.
  intros A T E1 E2 i x X K. unfold deduce_key in *.
  pose proof (mask_fits k a false) as FA. pose proof (mask_fits k b false) as FB.
  rewrite <- (alike_mask k a b A false) in E2, FB.
  pose proof (alike_take k a b A false) as TK. rewrite <- (alike_mask k a b A false) in TK. rewrite <- TK in E2.
  assert (TL : typedl (take_mask (mask k false a) a)).
  { intros e m H. apply In_nth_error in H. destruct H as (r & H). destruct (take_at _ _ FA _ _ _ H) as (j & _ & _ & B & C).
    split; [exact C|]. rewrite Forall_forall in T. specialize (T e (nth_error_In _ _ B)). unfold typed in T. now rewrite C in T. }
  destruct (deduce_loop_ok _ None [] I TL) as (out & E & L & _). cbn [app] in L.
  rewrite E in E1, E2. cbn [obind] in E1, E2. injection E1 as <-. injection E2 as <-.
  rewrite (proj2 (put_at _ _ FA out i L)). rewrite TK in L. rewrite (proj2 (put_at _ _ FB out i L)).
  destruct (nth_error (mask k false a) i) as [[|]|]; [reflexivity| |]; rewrite X; eapply alike_at; eauto.
Qed.

Lemma deducing_alike evs0 evs order k : deducing evs0 evs order -> In k order -> alike k evs0 evs.
Proof.
  intros [L A] IN. unfold alike. revert evs L A. induction evs0 as [|e0 evs0 IH]; intros [|e evs] L A; try discriminate L; constructor.
  - destruct (A 0%nat e0 eq_refl) as (e' & E & _ & U & K). injection E as <-. destruct (of_key k e0) eqn:OK.
    + left. symmetry. apply U. apply of_key_spec in OK. destruct OK as (m & ? & <-). now exists m.
    + right. split; [reflexivity|]. now rewrite K.
  - assert (X : forall i y, nth_error evs0 i = Some y -> exists e, nth_error evs i = Some e /\ (keyed order y -> e = y) /\ (forall k, of_key k e = of_key k y)).
    { intros i y H. destruct (A (S i) y H) as (e' & E & _ & U & K). eauto. }
    clear IH A. cbn in L. injection L as L. revert evs L X.
    induction evs0 as [|x evs0 IH]; intros [|y evs] L X; try discriminate L; constructor.
    + destruct (X 0%nat x eq_refl) as (e' & E & U & K). injection E as <-. destruct (of_key k x) eqn:OK.
      * left. symmetry. apply U. apply of_key_spec in OK. destruct OK as (m & ? & <-). now exists m.
      * right. split; [reflexivity|]. now rewrite K.
    + apply IH; [now injection L|]. intros i z H. exact (X (S i) z H).
Qed.

Lemma of_key_unique k k' e : of_key k e = true -> of_key k' e = true -> k = k'.
Proof. rewrite !of_key_spec. intros (m & A & B) (m' & C & D). congruence. Qed.

Lemma deduce_result order : forall evs0 evs evs',
  NoDup order -> Forall typed evs0 -> deducing evs0 evs order -> deduce order evs = Ok evs' ->
  forall i e0, nth_error evs0 i = Some e0 ->
    (forall k a, In k order -> of_key k e0 = true -> deduce_key k evs0 = Ok a -> nth_error evs' i = nth_error a i) /\
    ((forall k, In k order -> of_key k e0 = false) -> nth_error evs' i = nth_error evs i).
Proof.
  induction order as [|k order IH]; intros evs0 evs evs' ND T D E i e0 E0; cbn [deduce] in E.
  - injection E as <-. split; [intros k a []|reflexivity].
  - destruct (deduce_key_ok k evs (deducing_typed _ _ _ T D)) as (evs1 & E1 & L & S). rewrite E1 in E. cbn [obind] in E.
    pose proof (deducing_step _ _ _ _ _ ND D L S) as D1.
    inversion ND as [|x y NI ND' EQ]; subst x y.
    destruct (IH evs0 evs1 evs' ND' T D1 E i e0 E0) as (I1 & I2). split.
    + intros k' a [<-|IN] OK DA; [|now apply (I1 k')].
      rewrite I2.
      * eapply (deduce_key_alike k evs0 evs a evs1); eauto. eapply deducing_alike; [exact D|now left].
      * intros k' IN. destruct (of_key k' e0) eqn:OK'; [|reflexivity]. exfalso. apply NI.
        now rewrite (of_key_unique k k' e0 OK OK').
    + intros NK. rewrite I2 by (intros k' IN; apply NK; now right).
      destruct D as [DL DA]. destruct (DA i e0 E0) as (e & Ee & _ & _ & K). destruct (S i e Ee) as (e1 & Ee1 & _ & U & _).
      rewrite Ee1, Ee. f_equal. apply U. rewrite K. apply NK. now left.
Qed.

Lemma nth_ext_eq {A} (l l' : list A) : List.length l = List.length l' -> (forall i, (i < List.length l)%nat -> nth_error l i = nth_error l' i) -> l = l'.
Proof.
  revert l'. induction l as [|x l IH]; intros [|y l'] L H; try discriminate L; [reflexivity|].
  pose proof (H 0%nat ltac:(cbn; lia)) as H0. cbn in H0. injection H0 as ->. f_equal. apply IH; [now injection L|].
  intros i Hi. exact (H (S i) ltac:(cbn; lia)).
Qed.

Lemma deduce_order order order' evs :
  NoDup order -> Permutation order order' -> Forall typed evs -> deduce order evs = deduce order' evs.
Proof.
  intros ND P T. assert (ND' : NoDup order') by (eapply Permutation_NoDup; eauto).
  destruct (deduce_steps order evs evs ND T (deducing0 _ _)) as (r & E & D).
  destruct (deduce_steps order' evs evs ND' T (deducing0 _ _)) as (r' & E' & D').
  rewrite E, E'. f_equal. apply nth_ext_eq; [rewrite (dd_len _ _ _ D), (dd_len _ _ _ D'); reflexivity|].
  intros i Hi. rewrite (dd_len _ _ _ D) in Hi. destruct (nth_error evs i) as [e|] eqn:Ee; [|apply nth_error_None in Ee; lia].
  destruct (deduce_result order evs evs r ND T (deducing0 _ _) E i e Ee) as (A & B).
  destruct (deduce_result order' evs evs r' ND' T (deducing0 _ _) E' i e Ee) as (A' & B').
  destruct (existsb (fun k => of_key k e) order) eqn:X.
  - apply existsb_exists in X. destruct X as (k & IN & K).
    destruct (deduce_key_ok k evs T) as (a & Ea & _). rewrite (A k a IN K Ea).
    rewrite (A' k a); auto. eapply Permutation_in; eauto.
  - assert (N : forall k, In k order -> of_key k e = false).
    { intros k IN. destruct (of_key k e) eqn:K; [|reflexivity]. assert (existsb (fun k => of_key k e) order = true); [|congruence].
      apply existsb_exists. eauto. }
    rewrite (B N), B'; [reflexivity|]. intros k IN. apply N. eapply Permutation_in; [|exact IN]. now apply Permutation_sym.
Qed.

(** ** Pages that must be renamed *)

Lemma update_loop_length rng next : forall pg, List.length (fst (update_loop rng next pg)) = List.length rng.
Proof.
  induction rng as [|[e m] r IH]; intros pg; [reflexivity|]. cbn [update_loop].
  destruct (update_loop r next (w64 (pg + v_len m))) as (o, p) eqn:U. cbn. f_equal. specialize (IH (w64 (pg + v_len m))). now rewrite U in IH.
Qed.

Lemma update_range_length f l rng next out : update_range f l rng next = Ok out -> List.length out = List.length rng.
Proof.
  unfold update_range. pose proof (update_loop_length rng next (sub64 (v_pgoff next) (range_length f l))) as L.
  destruct (update_loop rng next _) as (o, p). destruct (p =? _); [|discriminate]. intros H. now injection H as <-.
Qed.

Lemma deduce_loop_head a : forall pre rng e p l out,
  is_huge p = false -> deduce_loop pre rng (a ++ (e, p) :: l) = Ok out ->
  exists o1 o2, out = o1 ++ o2 /\ deduce_loop (Some p) [] l = Ok o2 /\ List.length o1 = (List.length rng + List.length a + 1)%nat.
Proof.
  induction a as [|[e0 m0] a IH]; intros pre rng e p l out NH E; cbn [app deduce_loop] in E.
  - rewrite NH in E. match type of E with obind ?X _ = _ => destruct X as [rng'| | | |] eqn:R; try discriminate E end.
    cbn [obind] in E. destruct (deduce_loop (Some p) [] l) as [o2| | | |] eqn:D; try discriminate E. cbn [obind] in E.
    injection E as <-. exists (rng' ++ [e]), o2. rewrite <- app_assoc. split; [reflexivity|]. split; [reflexivity|].
    rewrite app_length. cbn. assert (List.length rng' = List.length rng); [|lia].
    destruct rng as [|[e1 f] r]; [now injection R as <-|]. cbn zeta in R.
    destruct (belongs _ _ _ _); [now apply update_range_length in R|]. injection R as <-. cbn. now rewrite map_length.
  - destruct (is_huge m0) eqn:HG.
    + destruct rng as [|[e1 f] r].
      * destruct (IH _ _ _ _ _ _ NH E) as (o1 & o2 & A & B & C). exists o1, o2. cbn in *. split; [exact A|]. split; [exact B|]. lia.
      * destruct (continues _ m0).
        -- destruct (IH _ _ _ _ _ _ NH E) as (o1 & o2 & A & B & C). exists o1, o2. split; [exact A|]. split; [exact B|].
           rewrite app_length in C. cbn in *. lia.
        -- match type of E with obind ?X _ = _ => destruct X as [o| | | |] eqn:R; try discriminate E end.
           cbn [obind] in E. injection E as <-. destruct (IH _ _ _ _ _ _ NH R) as (o1 & o2 & A & B & C). subst o.
           exists (fst (e1, f) :: map fst r ++ o1), o2. cbn [app]. rewrite <- app_assoc. split; [reflexivity|]. split; [exact B|].
           cbn in *. rewrite app_length, map_length. lia.
    + match type of E with obind ?X _ = _ => destruct X as [rng'| | | |] eqn:R; try discriminate E end.
      cbn [obind] in E. match type of E with obind ?X _ = _ => destruct X as [o| | | |] eqn:D; try discriminate E end.
      cbn [obind] in E. injection E as <-. destruct (IH _ _ _ _ _ _ NH D) as (o1 & o2 & A & B & C). subst o.
      exists (rng' ++ e0 :: o1), o2. rewrite <- app_assoc. split; [reflexivity|]. split; [exact B|].
      rewrite app_length. cbn in *. assert (List.length rng' = List.length rng); [|lia].
      destruct rng as [|[e1 f] r]; [now injection R as <-|]. cbn zeta in R.
      destruct (belongs _ _ _ _); [now apply update_range_length in R|]. injection R as <-. cbn. now rewrite map_length.
Qed.

(** The pages of a run are collected. *)
Lemma deduce_loop_run pre l : forall more rng,
  rng <> [] -> (forall x, In x more -> is_huge (snd x) = true) ->
  (forall r1 x y r2, rng ++ more = r1 ++ x :: y :: r2 -> continues (snd x) (snd y) = true) ->
  deduce_loop pre rng (more ++ l) = deduce_loop pre (rng ++ more) l.
Proof.
  induction more as [|[e m] more IH]; intros rng NE HG C; [now rewrite app_nil_r|].
  cbn [app deduce_loop]. pose proof (HG (e, m) (or_introl eq_refl)) as HM. cbn [snd] in HM. rewrite HM.
  destruct rng as [|x0 r0]; [contradiction|].
  destruct (exists_last NE) as (r1 & x & E). rewrite E in *. rewrite last_last.
  assert (CT : continues (snd x) m = true).
  { apply (C r1 x (e, m) more). now rewrite <- app_assoc. }
  destruct x0 as [e0 f0]. rewrite CT. rewrite IH.
  - now rewrite <- app_assoc.
  - now destruct r1.
  - intros y H. apply HG. now right.
  - intros a y z b H. apply (C a y z b). rewrite <- H, <- !app_assoc. reflexivity.
Qed.

Lemma mask_synth k l : (forall x, In x l -> synthesized k x) -> k < 2 ^ 32 -> forall st,
  mask k st (map fst l) = map (fun _ => true) l.
Proof.
  intros S K. induction l as [|[e m] l IH]; intros st; [reflexivity|]. cbn [map mask fst].
  destruct (S (e, m) (or_introl eq_refl)) as (E & P & T). cbn in E, P, T.
  assert (OK : of_key k e = true).
  { apply of_key_spec. exists m. split; [exact E|]. unfold key_of. rewrite P. unfold w32, two32. now apply N.mod_small. }
  assert (OP : opens k e = true) by (unfold opens; now rewrite OK, T).
  cbn [existsb]. rewrite OK, OP, orb_true_r. cbn [andb orb]. f_equal. apply IH. intros x H. apply S. now right.
Qed.

Lemma take_all l : (forall x, In x l -> e_map (fst x) = Some (snd x)) -> take_mask (map (fun _ => true) l) (map fst l) = l.
Proof.
  induction l as [|[e m] l IH]; intros S; [reflexivity|]. cbn [map take_mask fst].
  pose proof (S (e, m) (or_introl eq_refl)) as E. cbn in E. rewrite E. f_equal. apply IH. intros x H. apply S. now right.
Qed.

Lemma put_all (l : list (pevent * vmap)) : forall new, List.length new = List.length l ->
  put_mask (map (fun _ => true) l) (map fst l) new = new.
Proof.
  induction l as [|[e m] l IH]; intros [|x new] L; try discriminate L; [reflexivity|]. cbn. f_equal. apply IH. now injection L.
Qed.

Lemma adjoin_app a m b stop : adjoin (a ++ m :: b) stop -> adjoin a (v_start m) /\ adjoin (m :: b) stop.
Proof.
  induction a as [|x a IH]; intros H; [split; [exact I|exact H]|]. cbn [app adjoin] in H. destruct H as (H1 & H2).
  destruct (IH H2) as (A & B). split; [|exact B]. cbn [adjoin]. split; [|exact A]. destruct a; exact H1.
Qed.

Lemma adjoin_bound l m stop : adjoin (m :: l) stop -> v_start m + v_len m <= stop.
Proof.
  revert m. induction l as [|x l IH]; intros m (H & R); [lia|]. specialize (IH x R). lia.
Qed.

Lemma pages_renamed k a e m r en n b base :
  let l := a ++ ((e, m) :: r) ++ (en, n) :: b in
  k < 2 ^ 32 -> Forall typed (map fst l) -> (forall x, In x l -> synthesized k x) ->
  (forall x, In x ((e, m) :: r) -> huge_name (v_file (snd x)) /\ v_file (snd x) = v_file m /\ v_pgoff (snd x) = 0) ->
  adjoin (map snd ((e, m) :: r)) (v_start n) -> ~ huge_name (v_file n) ->
  (forall a' x, a = a' ++ [x] -> ~ huge_name (v_file (snd x))) ->
  base_offset (match rev a with [] => None | x :: _ => Some (snd x) end) (v_start m) n base ->
  v_pgoff n = base + (v_start n - v_start m) ->
  exists oa orr ob, deduce [k] (map fst l) = Ok (oa ++ orr ++ en :: ob) /\
    List.length oa = List.length a /\ Forall2 (fun x e' => renamed (fst x) (snd x) n e') ((e, m) :: r) orr.
Proof.
  intros l K T S HG AD NN LB BO PG. cbn [deduce]. unfold deduce_key.
  rewrite (mask_synth k l S K), (take_all l (fun x H => proj1 (S x H))).
  assert (TL : typedl l).
  { intros e0 m0 H. pose proof (proj1 (S _ H)) as E. cbn in E. split; [exact E|]. rewrite Forall_forall in T.
    specialize (T e0 (in_map fst _ _ H)). unfold typed in T. now rewrite E in T. }
  destruct (deduce_loop_ok l None [] I TL) as (out & D & L & _). rewrite D. cbn [obind].
  rewrite (put_all l out L).
  assert (NH : is_huge n = false) by (destruct (is_huge n) eqn:X; [exfalso; apply NN; now apply huge_iff|reflexivity]).
  assert (HR : forall x, In x ((e, m) :: r) -> is_huge (snd x) = true) by (intros x H; apply huge_iff; now apply HG).
  assert (TN : typedm n) by (apply (TL en n); unfold l; rewrite !in_app_iff; cbn; auto).
  assert (TR : forall x, In x ((e, m) :: r) -> typedm (snd x)).
  { intros [x y] H. apply (TL x y). unfold l. rewrite !in_app_iff. auto. }
  assert (PID : forall x y, In x l -> In y l -> pid_of (snd x) =? pid_of (snd y) = true).
  { intros x y X Y. unfold pid_of. rewrite (proj1 (proj2 (S x X))), (proj1 (proj2 (S y Y))). apply N.eqb_refl. }
  assert (INR : forall x, In x ((e, m) :: r) -> In x l) by (intros x H; unfold l; rewrite !in_app_iff; auto).
  assert (ENDS : forall r1 x r2, (e, m) :: r = r1 ++ x :: r2 ->
            w64 (v_start (snd x) + v_len (snd x)) = v_start (match r2 with [] => n | y :: _ => snd y end)).
  { intros r1 x r2 E. rewrite E in AD. rewrite map_app in AD. cbn [map] in AD. apply adjoin_app in AD. destruct AD as (_ & AD).
    pose proof (adjoin_bound _ _ _ AD) as B. destruct AD as (AD & _). unfold w64, two64. destruct TN as (TN & _).
    change (2 ^ 64) with 18446744073709551616 in *. rewrite N.mod_small by lia. rewrite AD. now destruct r2. }
  assert (RUN : forall r1 x y r2, (e, m) :: r = r1 ++ x :: y :: r2 -> continues (snd x) (snd y) = true).
  { intros r1 x y r2 E. unfold continues, vma_contiguous.
    assert (X : In x ((e, m) :: r)) by (rewrite E; apply in_or_app; right; now left).
    assert (Y : In y ((e, m) :: r)) by (rewrite E; apply in_or_app; right; right; now left).
    rewrite (PID x y) by auto. rewrite (ENDS r1 x (y :: r2) E), N.eqb_refl.
    destruct (HG x X) as (_ & F1 & P1), (HG y Y) as (_ & F2 & P2). rewrite F1, F2, P1, P2.
    rewrite (proj2 (list_eqb_spec _ _) eq_refl). cbn. now rewrite orb_true_r. }
  assert (CH : chain ((e, m) :: r) n).
  { assert (G : forall q r1, (e, m) :: r = r1 ++ q -> chain q n).
    { induction q as [|[e1 m1] q IH]; intros r1 E; [exact I|]. cbn [chain].
      assert (X : In (e1, m1) ((e, m) :: r)) by (rewrite E; apply in_or_app; right; now left).
      split; [exact (TR _ X)|]. split; [exact (HR _ X)|]. split.
      - pose proof (ENDS r1 (e1, m1) q E) as Z. cbn [snd] in Z. rewrite Z. now destruct q as [|[? ?] ?].
      - apply (IH (r1 ++ [(e1, m1)])). now rewrite <- app_assoc. }
    exact (G _ [] eq_refl). }
  assert (RL : range_length m (snd (last ((e, m) :: r) (en, n))) = v_start n - v_start m).
  { rewrite (range_length_dist e m r n (en, n) CH) by apply TN. unfold dist, sub64, two64.
    pose proof (adjoin_bound _ _ _ AD) as B. cbn [snd] in B. destruct TN as (TN & _). clear - B TN. change (2 ^ 64) with 18446744073709551616 in *.
    replace (v_start n + 18446744073709551616 - v_start m) with (v_start n - v_start m + 1 * 18446744073709551616) by lia.
    rewrite N.mod_add by discriminate. apply N.mod_small. lia. }
  assert (CORE : forall pre, pre = match rev a with [] => None | x :: _ => Some (snd x) end ->
            forall o2, deduce_loop pre [] (((e, m) :: r) ++ (en, n) :: b) = Ok o2 ->
            exists orr ob, o2 = orr ++ en :: ob /\ Forall2 (fun x e' => renamed (fst x) (snd x) n e') ((e, m) :: r) orr).
  { intros pre PRE o2 E. cbn [app deduce_loop] in E. pose proof (HR (e, m) (or_introl eq_refl)) as H0. cbn [snd] in H0. rewrite H0 in E.
    change (r ++ (en, n) :: b) with (r ++ ((en, n) :: b)) in E.
    rewrite (deduce_loop_run pre ((en, n) :: b) r [(e, m)]) in E.
    2: discriminate.
    2: intros x H; apply HR; now right.
    2: exact RUN.
    cbn [app deduce_loop] in E. rewrite NH in E.
    assert (BL : belongs pre m (snd (last ((e, m) :: r) (en, n))) n = true).
    { unfold belongs. rewrite RL.
      assert (LASTIN : In (last ((e, m) :: r) (en, n)) ((e, m) :: r)).
      { destruct (@exists_last _ ((e, m) :: r)) as (r1 & x & Ex); [discriminate|]. rewrite Ex, last_last.
        apply in_or_app. right. now left. }
      assert (V : vma_contiguous (snd (last ((e, m) :: r) (en, n))) n = true).
      { unfold vma_contiguous.
        assert (NIN : In (en, n) l) by (unfold l; rewrite !in_app_iff; cbn; auto).
        pose proof (PID (last ((e, m) :: r) (en, n)) (en, n) (INR _ LASTIN) NIN) as PX. cbn [snd] in PX. rewrite PX. cbn [andb].
        destruct (@exists_last _ ((e, m) :: r)) as (r1 & x & Ex); [discriminate|]. rewrite Ex, last_last.
        rewrite (ENDS r1 x [] Ex). apply N.eqb_refl. }
      assert (EQF : equivalent_file (snd (last ((e, m) :: r) (en, n))) n = true)
        by (unfold equivalent_file; now rewrite (HR _ LASTIN), orb_true_r).
      rewrite V, EQF. cbn [andb].
      rewrite PG. replace (v_start n - v_start m <=? base + (v_start n - v_start m)) with true by (symmetry; apply N.leb_le; lia).
      cbn [andb]. apply N.eqb_eq.
      assert (SB : sub64 (base + (v_start n - v_start m)) (v_start n - v_start m) = base).
      { unfold sub64, two64. destruct TN as (_ & _ & TN). rewrite PG in TN. change (2 ^ 64) with 18446744073709551616 in *.
        replace (base + (v_start n - v_start m) + 18446744073709551616 - (v_start n - v_start m))
          with (base + 1 * 18446744073709551616) by lia.
        rewrite N.mod_add by discriminate. apply N.mod_small. lia. }
      rewrite SB. subst pre. destruct (rev a) as [|x ra] eqn:RA; [exact BO|]. cbn [base_offset] in BO.
      assert (A : a = rev ra ++ [x]) by (rewrite <- (rev_involutive a), RA; reflexivity).
      assert (XIN : In x l) by (unfold l; rewrite A, !in_app_iff; cbn; auto).
      assert (XH : is_huge (snd x) = false).
      { destruct (is_huge (snd x)) eqn:Z; [|reflexivity]. exfalso. apply (LB _ _ A). now apply huge_iff. }
      unfold equivalent_file. rewrite H0, XH, NH, !orb_true_r, !orb_false_r, andb_true_r.
      unfold vma_contiguous. pose proof (PID x (e, m) XIN ltac:(apply INR; now left)) as PX. cbn [snd] in PX. rewrite PX. cbn [andb].
      destruct BO as [(B1 & B2 & B3)|(B & ->)].
      - rewrite B2, (proj2 (list_eqb_spec _ _) eq_refl), andb_true_r.
        pose proof (TR (e, m) (or_introl eq_refl)) as (TM & _). cbn [snd] in TM.
        destruct TN as (_ & _ & TN). unfold w64, two64. change (2 ^ 64) with 18446744073709551616 in *.
        rewrite B1, (N.mod_small (v_start m)) by exact TM. rewrite N.eqb_refl. rewrite B3.
        symmetry. apply N.mod_small. lia.
      - unfold w64. change two64 with (2 ^ 64).
        destruct B as [B|B].
        + now rewrite (proj2 (N.eqb_neq _ _) B).
        + destruct (list_eqb (v_file (snd x)) (v_file n)) eqn:Z; [apply list_eqb_spec in Z; contradiction|].
          now rewrite andb_false_r. }
    rewrite BL in E.
    destruct (update_range_spec e m r n (en, n) CH) as (orr & U & F).
    - intros e0 m0 H. apply TL. apply INR. exact H.
    - apply TN.
    - apply TN.
    - cbn zeta in E. rewrite U in E. cbn [obind] in E. destruct (deduce_loop (Some n) [] b) as [ob| | | |]; try discriminate E.
      cbn [obind] in E. injection E as <-. eauto. }
  unfold l in D. destruct (rev a) as [|x ra] eqn:RA.
  - assert (a = []) by (rewrite <- (rev_involutive a), RA; reflexivity). subst a.
    destruct (CORE None eq_refl out D) as (orr & ob & -> & F). now exists [], orr, ob.
  - assert (A : a = rev ra ++ [x]) by (rewrite <- (rev_involutive a), RA; reflexivity).
    rewrite A in D. rewrite <- app_assoc in D. cbn [app] in D. destruct x as [ex px].
    assert (XH : is_huge px = false).
    { destruct (is_huge px) eqn:Z; [|reflexivity]. exfalso. apply (LB _ _ A). now apply huge_iff. }
    destruct (deduce_loop_head (rev ra) None [] ex px _ out XH D) as (o1 & o2 & -> & D2 & L1).
    destruct (CORE (Some px) eq_refl o2 D2) as (orr & ob & -> & F). exists o1, orr, ob. split; [reflexivity|]. split; [|exact F].
    rewrite A, app_length. cbn in *. lia.
Qed.
