(** C63: deducing huge pages and combining mappings keep mappings sound. *)
From Coq Require Import String.
From Verif Require Import Base BytesModel TextModel Assoc HugePageModel HugePageSpec HugePageCombineProofs HugePageProofs
  HugePageProps PipelineHugeProofs.
Local Open Scope N_scope.
Local Open Scope list_scope.

Definition text_id (b : option (list N)) : Prop := forall t, b = Some t -> ~ In 0 t.
Definition sound (m : vmap) : Prop :=
  0 < v_len m /\ v_start m + v_len m < 2 ^ 64 /\ (v_start m + v_len m <= 2 ^ 63 \/ 2 ^ 63 < v_start m) /\
  v_start m mod 4096 = 0 /\ v_len m mod 4096 = 0 /\ v_pgoff m mod 4096 = 0 /\ v_pgoff m < 2 ^ 64 /\
  text_id (v_build m).
Definition sound_ev (e : pevent) : Prop := forall m, e_map e = Some m -> sound m.

Definition map_len (e : pevent) : N := match e_map e with Some m => v_len m | None => 0 end.
Definition is_mapping (e : pevent) : bool := match e_map e with Some _ => true | None => false end.
Definition size_of (evs : list pevent) : N := fold_right (fun e a => map_len e + a) 0 evs.

Lemma mod_pages a b : a mod 4096 = 0 -> (a + b) mod 4096 = 0 -> b mod 4096 = 0.
Proof.
  intros A B. apply N.mod_divide in A; [|discriminate]. apply N.mod_divide in B; [|discriminate]. apply N.mod_divide; [discriminate|].
  destruct A as (p & ->), B as (q & E). exists (q - p). nia.
Qed.
Lemma pages_w64 x : (x mod 2 ^ 64) mod 4096 = x mod 4096.
Proof.
  rewrite (N.div_mod x (2 ^ 64)) at 2 by discriminate. change (2 ^ 64) with (4096 * 4503599627370496) at 2.
  rewrite <- N.mul_assoc, N.add_comm, (N.mul_comm 4096), N.mod_add by discriminate. reflexivity.
Qed.
Lemma pages_add a b : a mod 4096 = 0 -> b mod 4096 = 0 -> (a + b) mod 4096 = 0.
Proof. intros A B. rewrite N.add_mod, A, B by discriminate. reflexivity. Qed.

Lemma size_app a b : size_of (a ++ b) = size_of a + size_of b.
Proof. unfold size_of. induction a as [|x a IH]; cbn [app fold_right]; [lia|]. rewrite IH. lia. Qed.

(** ** Deducing *)
Lemma given_text a b : text_id a -> text_id b -> text_id (given a b).
Proof. destruct a; auto. Qed.
Lemma renamed_sound e m next e' : sound m -> sound next -> renamed e m next e' ->
  exists m', e_map e' = Some m' /\ sound m' /\ v_len m' = v_len m /\ v_pid m' = v_pid m.
Proof.
  intros (S1 & S2 & S3 & S4 & S5 & S6 & S7 & S8) (T1 & T2 & T3 & T4 & T5 & T6 & T7 & T8)
    (m' & E & _ & _ & _ & P & St & Le & _ & _ & _ & _ & Bu & _ & _ & _ & _ & O1 & O2).
  exists m'. split; [exact E|]. split; [|auto]. unfold sound. rewrite St, Le, Bu.
  assert (O : v_pgoff m' mod 4096 = 0 /\ v_pgoff m' < 2 ^ 64).
  { destruct (N.eq_dec (v_pgoff m) 0) as [Z|Z]; [|rewrite (O2 Z); auto]. destruct (O1 Z) as (B & Q). split; [|exact B].
    assert (R : (v_start next + 2 ^ 64 - v_start m + v_pgoff m') mod 4096 = 0) by (rewrite N.add_comm, <- pages_w64, Q; exact T6).
    assert (R' : (v_start next + 2 ^ 64 - v_start m) mod 4096 = 0).
    { apply (mod_pages (v_start m)); [exact S4|]. replace (v_start m + _) with (v_start next + 2 ^ 64) by lia.
      apply pages_add; [exact T4|reflexivity]. }
    exact (mod_pages _ _ R' R). }
  destruct O as (O & O'). repeat (split; [assumption|]). now apply given_text.
Qed.

Lemma forall2_nth {A B} (P : A -> B -> Prop) a : forall b,
  List.length b = List.length a -> (forall i x, nth_error a i = Some x -> exists y, nth_error b i = Some y /\ P x y) -> Forall2 P a b.
Proof.
  induction a as [|x a IH]; intros [|y b] L H; try discriminate L; [constructor|]. constructor.
  - destruct (H O x eq_refl) as (z & E & Q). now injection E as ->.
  - apply IH; [now injection L|]. intros i u E. exact (H (S i) u E).
Qed.
Definition like (e e' : pevent) : Prop :=
  sound_ev e' /\ map_len e' = map_len e /\ is_mapping e' = is_mapping e /\
  forall m, e_map e' = Some m -> exists m0, e_map e = Some m0 /\ v_pid m = v_pid m0.
Lemma deduce_sound order evs : NoDup order -> Forall sound_ev evs ->
  exists evs', deduce order evs = Ok evs' /\ Forall2 like evs evs'.
Proof.
  intros ND F. assert (T : Forall typed evs).
  { rewrite Forall_forall in *. intros e I. specialize (F e I). unfold typed, sound_ev, sound in *. destruct (e_map e) as [m|]; auto.
    specialize (F m eq_refl). lia. }
  destruct (C31_only_huge_pages_renamed order evs ND T) as (evs' & E & L & H). exists evs'. split; [exact E|].
  apply forall2_nth; [exact L|]. intros i e Ei. destruct (H i e Ei) as (e' & Ei' & D). exists e'. split; [exact Ei'|].
  rewrite Forall_forall in F. destruct D as [->|(m & j & en & next & M & _ & _ & J & _ & Mn & _ & _ & R)].
  - split; [exact (F e (nth_error_In _ _ Ei))|]. repeat split; auto. eauto.
  - destruct (renamed_sound _ _ _ _ (F e (nth_error_In _ _ Ei) m M) (F en (nth_error_In _ _ J) next Mn) R) as (m' & M' & S' & L' & P').
    split; [intros q Q; congruence|]. unfold map_len, is_mapping. rewrite M, M'. split; [exact L'|]. split; [reflexivity|].
    intros q Q. exists m. split; [reflexivity|congruence].
Qed.
Lemma like_size a b : Forall2 like a b -> size_of b = size_of a.
Proof. unfold size_of. induction 1 as [|x y l l' (_ & L & _) H IH]; [reflexivity|]. cbn [fold_right]. now rewrite L, IH. Qed.
Lemma like_count a b : Forall2 like a b -> List.length (filter is_mapping b) = List.length (filter is_mapping a).
Proof.
  induction 1 as [|x y l l' (_ & _ & L & _) H IH]; [reflexivity|]. cbn [filter]. rewrite L.
  destruct (is_mapping x); cbn [List.length]; now rewrite IH.
Qed.
Lemma like_sound a b : Forall2 like a b -> Forall sound_ev b.
Proof. induction 1 as [|x y l l' (S & _) H IH]; constructor; auto. Qed.

(** ** Combining *)
Lemma or_else_text a b : text_id a -> text_id b -> text_id (or_else a b).
Proof. destruct a; auto. Qed.
Lemma merge_sound ea a b : sound a -> sound b -> mergeable a b = true ->
  exists m, e_map (merge_into ea a b) = Some m /\ sound m /\ v_len m = v_len a + v_len b /\ v_pid m = v_pid a.
Proof.
  intros (S1 & S2 & S3 & S4 & S5 & S6 & S7 & S8) (T1 & T2 & T3 & T4 & T5 & T6 & T7 & T8) M.
  unfold mergeable in M. apply andb_true_iff in M as (_ & V). unfold vma_contiguous in V. apply andb_true_iff in V as (_ & V).
  apply N.eqb_eq in V. unfold w64, two64 in V. change 18446744073709551616 with (2 ^ 64) in V. rewrite N.mod_small in V by exact S2.
  assert (L : w64 (v_len a + v_len b) = v_len a + v_len b).
  { unfold w64, two64. change 18446744073709551616 with (2 ^ 64). apply N.mod_small. lia. }
  unfold merge_into. destruct (is_huge a && negb (is_huge b)).
  - eexists. split; [reflexivity|]. cbn. rewrite L. split; [|auto]. unfold sound. cbn [set_len set_build set_file set_pgoff v_start v_len v_pgoff v_build].
    assert (P : sub64 (v_pgoff b) (v_len a) mod 4096 = 0 /\ sub64 (v_pgoff b) (v_len a) < 2 ^ 64).
    { unfold sub64, w64, two64. change 18446744073709551616 with (2 ^ 64). split; [|apply N.mod_lt; discriminate].
      rewrite pages_w64. apply (mod_pages (v_len a)); [exact S5|].
      assert (v_len a < 2 ^ 64) by lia. rewrite ?(N.mod_small (v_len a)) by assumption.
      replace (v_len a + _) with (v_pgoff b + 2 ^ 64) by lia. apply pages_add; [exact T6|reflexivity]. }
    destruct P. repeat split; try assumption; try lia; try (apply pages_add; assumption). now apply or_else_text.
  - eexists. split; [reflexivity|]. cbn. rewrite L. split; [|auto]. unfold sound. cbn [set_len v_start v_len v_pgoff v_build].
    repeat split; try assumption; try lia; try (apply pages_add; assumption).
Qed.

Lemma replace_forall {A} (P : A -> Prop) i x : forall l, Forall P l -> P x -> Forall P (replace_nth i x l).
Proof.
  induction i as [|i IH]; intros [|y l] F X; try constructor; inversion F; subst; auto.
Qed.
Lemma replace_size i x y : forall l, nth_error l i = Some y -> size_of (replace_nth i x l) + map_len y = size_of l + map_len x.
Proof.
  unfold size_of. induction i as [|i IH]; intros [|z l] E; try discriminate E.
  - injection E as ->. cbn [replace_nth fold_right]. lia.
  - cbn [replace_nth fold_right]. specialize (IH l E). lia.
Qed.
Lemma replace_count i x y : forall l, nth_error l i = Some y -> is_mapping x = is_mapping y ->
  List.length (filter is_mapping (replace_nth i x l)) = List.length (filter is_mapping l).
Proof.
  induction i as [|i IH]; intros [|z l] E X; try discriminate E.
  - injection E as ->. cbn [replace_nth filter]. rewrite X. now destruct (is_mapping y).
  - cbn [replace_nth filter]. destruct (is_mapping z); cbn [List.length]; now rewrite (IH l E X).
Qed.

Lemma combine_sound evs : forall out prev res,
  Forall sound_ev out -> Forall sound_ev evs -> combine_loop evs out prev = Ok res ->
  Forall sound_ev res /\ size_of res = size_of out + size_of evs /\
  (List.length (filter is_mapping res) <= List.length (filter is_mapping out) + List.length (filter is_mapping evs))%nat /\
  forall e m, In e res -> e_map e = Some m -> exists e0 m0, In e0 (out ++ evs) /\ e_map e0 = Some m0 /\ v_pid m = v_pid m0.
Proof.
  induction evs as [|e evs IH]; intros out prev res Fo Fe E; cbn [combine_loop] in E.
  - injection E as <-. split; [exact Fo|]. split; [unfold size_of at 3; cbn; lia|]. split; [cbn; lia|].
    intros e m I M. exists e, m. rewrite app_nil_r. auto.
  - inversion Fe as [|? ? Se Fe']; subst.
    assert (APP : forall pr, combine_loop evs (out ++ [e]) pr = Ok res ->
      Forall sound_ev res /\ size_of res = size_of out + size_of (e :: evs) /\
      (List.length (filter is_mapping res) <= List.length (filter is_mapping out) + List.length (filter is_mapping (e :: evs)))%nat /\
      forall e1 m, In e1 res -> e_map e1 = Some m -> exists e0 m0, In e0 (out ++ e :: evs) /\ e_map e0 = Some m0 /\ v_pid m = v_pid m0).
    { intros pr H. destruct (IH (out ++ [e]) pr res) as (A & B & C & D); auto; [apply Forall_app; auto|].
      split; [exact A|]. split; [rewrite B, size_app; unfold size_of; cbn [fold_right]; lia|].
      split; [rewrite filter_app, app_length in C; cbn [filter] in *; destruct (is_mapping e); cbn [List.length] in *; lia|].
      intros e1 m I M. destruct (D e1 m I M) as (e0 & m0 & I0 & Q). exists e0, m0. rewrite <- app_assoc in I0. auto. }
    destruct (e_map e) as [m|] eqn:EM; [|now apply APP in E]. cbn zeta in E.
    destruct (aget N.eqb (key_of m) prev) as [i|]; [|now apply APP in E].
    destruct (nth_error out i) as [ea|] eqn:NE; [|discriminate E]. destruct (e_map ea) as [a|] eqn:EA; [|discriminate E].
    destruct (mergeable a m) eqn:MG; [|now apply APP in E].
    assert (Sa : sound a) by (rewrite Forall_forall in Fo; exact (Fo ea (nth_error_In _ _ NE) a EA)).
    destruct (merge_sound ea a m Sa (Se m EM) MG) as (m' & M' & S' & L' & P').
    destruct (IH (replace_nth i (merge_into ea a m) out) prev res) as (A & B & C & D); auto.
    { apply replace_forall; auto. intros q Q. congruence. }
    split; [exact A|]. split; [|split].
    + pose proof (replace_size i (merge_into ea a m) ea out NE) as Z. unfold map_len in Z. rewrite M', EA, L' in Z.
      rewrite B. unfold size_of at 4. cbn [fold_right]. unfold map_len at 1. rewrite EM. fold (size_of evs). lia.
    + rewrite (replace_count _ _ ea) in C; auto; [|unfold is_mapping; now rewrite M', EA].
      cbn [filter]. unfold is_mapping at 3. rewrite EM. cbn [List.length]. lia.
    + intros e1 q I Q. destruct (D e1 q I Q) as (e0 & m0 & I0 & M0 & P0). apply in_app_or in I0 as [I0|I0].
      * apply replace_in in I0 as [->|I0]; [|exists e0, m0; split; [apply in_or_app; now left|auto]].
        exists ea, a. split; [apply in_or_app; left; exact (nth_error_In _ _ NE)|]. split; [exact EA|]. congruence.
      * exists e0, m0. split; [apply in_or_app; right; now right|auto].
Qed.

Lemma size_le e evs m : In e evs -> e_map e = Some m -> v_len m <= size_of evs.
Proof.
  intros I M. unfold size_of. induction evs as [|x evs IH]; [contradiction|]. cbn [fold_right]. destruct I as [->|I].
  - unfold map_len. rewrite M. lia.
  - specialize (IH I). lia.
Qed.

(** Both steps. *)
Lemma both_sound order evs : NoDup order -> Forall sound_ev evs ->
  exists mid res, deduce order evs = Ok mid /\ combine_mappings mid = Ok res /\ Forall sound_ev res /\
    (List.length (filter is_mapping res) <= List.length (filter is_mapping evs))%nat /\
    (forall e m, In e res -> e_map e = Some m -> v_len m <= size_of evs) /\
    (forall e m, In e res -> e_map e = Some m -> exists e0 m0, In e0 evs /\ e_map e0 = Some m0 /\ v_pid m = v_pid m0).
Proof.
  intros ND F. destruct (deduce_sound order evs ND F) as (mid & E & K). exists mid.
  assert (Em : Forall ends_in_memory mid).
  { pose proof (like_sound _ _ K) as S. rewrite Forall_forall in *. intros e I. specialize (S e I). unfold ends_in_memory.
    destruct (e_map e) as [m|] eqn:M; auto. specialize (S m M). unfold sound in S. lia. }
  destruct (C30_translation_preserved mid Em) as (res & C & _). exists res. split; [exact E|]. split; [exact C|].
  destruct (combine_sound mid [] [] res (Forall_nil _) (like_sound _ _ K) C) as (A & B & D & G).
  split; [exact A|]. cbn [filter List.length Nat.add] in D. rewrite (like_count _ _ K) in D. split; [exact D|].
  change (size_of []) with 0 in B. rewrite (like_size _ _ K), N.add_0_l in B. split.
  - intros e m Ie M. rewrite <- B. now apply size_le with e.
  - intros e m Ie M. destruct (G e m Ie M) as (e1 & m1 & I1 & M1 & P1). cbn [app] in I1.
    clear - K I1 M1 P1. induction K as [|x y l l' (_ & _ & _ & Q) K IH]; [contradiction|]. destruct I1 as [->|I1].
    + destruct (Q m1 M1) as (m0 & M0 & P0). exists x, m0. split; [now left|]. split; [exact M0|]. congruence.
    + destruct (IH I1) as (e0 & m0 & I0 & R). exists e0, m0. split; [now right|exact R].
Qed.
