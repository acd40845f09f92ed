From Coq Require Import String.
From Verif Require Import Base BytesModel TextModel TextProofs Assoc IntervalMapModel IntervalMapSpec IntervalMapProofs
  SpeModel SpeProofs PerfProto NormalizerModel NormalizerSpec BuilderProofs NormalizerProofs.
Local Open Scope N_scope.
Local Open Scope list_scope.

(** * Build ids and paths *)

Lemma starts_with_app p s : starts_with p (p ++ s) = true.
Proof. induction p as [|x p IH]; cbn; auto. now rewrite N.eqb_refl. Qed.

Lemma starts_with_iff p s : starts_with p s = true <-> exists t, s = p ++ t.
Proof.
  split.
  - revert s; induction p as [|x p IH]; intros s H; [now exists s|].
    destruct s as [|y s]; [easy|]. cbn in H. apply andb_prop in H as (H1 & H2).
    apply N.eqb_eq in H1. subst. destruct (IH s H2) as (t & ->). now exists t.
  - intros (t & ->). apply starts_with_app.
Qed.

Lemma find_sub_prefix p s : starts_with p s = true -> find_sub p s = Some O.
Proof. intros H. destruct s; cbn [find_sub]; now rewrite H. Qed.

Lemma find_sub_some p s n : find_sub p s = Some n ->
  exists u v, s = u ++ p ++ v /\ List.length u = n.
Proof.
  revert n; induction s as [|c s IH]; intros n; cbn [find_sub].
  - destruct (starts_with p []) eqn:E; [|easy]. intros [= <-]. apply starts_with_iff in E as (t & E).
    exists [], t. auto.
  - destruct (starts_with p (c :: s)) eqn:E.
    + intros [= <-]. apply starts_with_iff in E as (t & E). exists [], t. auto.
    + destruct (find_sub p s) as [k|]; [|easy]. cbn. intros [= <-].
      destruct (IH k eq_refl) as (u & v & -> & <-). exists (c :: u), v. auto.
Qed.

Lemma find_sub_none p s : find_sub p s = None -> forall u v, s <> u ++ p ++ v.
Proof.
  induction s as [|c s IH]; cbn [find_sub].
  - destruct (starts_with p []) eqn:E; [easy|]. intros _ u v H.
    destruct u; [|easy]. cbn in H. rewrite H in E. now rewrite starts_with_app in E.
  - destruct (starts_with p (c :: s)) eqn:E; [easy|].
    destruct (find_sub p s); [easy|]. intros _ u v H. destruct u as [|d u].
    + cbn in H. rewrite H in E. now rewrite starts_with_app in E.
    + injection H as -> H. exact (IH eq_refl u v H).
Qed.

Lemma c_str_id s : ~ In 0 s -> c_str s = s.
Proof.
  induction s as [|c s IH]; cbn; auto. intros H. destruct (N.eqb_spec c 0) as [->|].
  - exfalso. auto.
  - f_equal. auto.
Qed.

Lemma c_str_no_nul s : ~ In 0 (c_str s).
Proof.
  induction s as [|c s IH]; cbn; auto. destruct (N.eqb_spec c 0); cbn; [tauto|].
  intros [H|H]; auto.
Qed.

Lemma is_same_half_text a b : ~ In 0 b ->
  is_same_half a b = Ok (if starts_with b a then forallb (fun c => c =? 48) (skipn (List.length b) a) else false).
Proof.
  intros H. unfold is_same_half. rewrite c_str_id by auto. destruct (starts_with b a) eqn:E; auto.
  rewrite (find_sub_prefix b a E). apply starts_with_iff in E as (t & ->).
  replace (len (b ++ t) <? N.of_nat 0 + len b) with false by (unfold len; rewrite app_length; lia).
  f_equal. f_equal. f_equal. unfold len. lia.
Qed.

Lemma raw_to_hex_no_nul l : ~ In 0 (raw_to_hex l).
Proof.
  unfold raw_to_hex. intros H. apply in_flat_map in H as (b & _ & H).
  unfold hex_digit in H. destruct H as [H|[H|[]]]; destruct (_ <? 10) in H; lia.
Qed.

(** Every build id the environment knows is hexadecimal text. *)
Definition env_text (e : nenv) : Prop :=
  forall f b, aget list_eqb f (ne_build e) = Some b -> ~ In 0 (fst b).

Lemma env_build_text p e : normalizer_env p = Ok e -> env_text e.
Proof.
  unfold normalizer_env. destruct (fold_left add_build_id (pp_build_ids p) ([], [])) as (m, k) eqn:F.
  intros H. ok_inv H. injection H0 as <-. unfold env_text. cbn [ne_build].
  assert (G : forall bs m0 k0, (forall f b, aget list_eqb f m0 = Some b -> ~ In 0 (fst b)) ->
     forall f b, aget list_eqb f (fst (fold_left add_build_id bs (m0, k0))) = Some b -> ~ In 0 (fst b)).
  { induction bs as [|b0 bs IH]; intros m0 k0 H0; cbn [fold_left]; auto.
    destruct (add_build_id (m0, k0) b0) as (m1, k1) eqn:Eb. apply IH. intros f b.
    unfold add_build_id in Eb. injection Eb as <- _. rewrite aget_aset.
    destruct (list_eqb f _); [|apply H0]. intros [= <-]. cbn. apply raw_to_hex_no_nul. }
  intros f b. change m with (fst (m, k)). rewrite <- F. apply G. cbn. easy.
Qed.

Lemma get_build_id_ok e m : env_text e ->
  (forall b, mm_build m = Some b -> ~ In 0 b) -> exists b, get_build_id e m = Ok b.
Proof.
  intros Ht Hb. unfold get_build_id.
  set (ff := match aget list_eqb _ _ with Some b => b | None => _ end).
  assert (Hf : ~ In 0 (fst ff)).
  { unfold ff. destruct (aget list_eqb _ (ne_build e)) eqn:E; [eapply Ht; eauto|cbn; auto]. }
  destruct (mm_build m) as [b|]; cbn [is_empty negb].
  - destruct (negb (is_empty b)).
    + unfold is_same_build_id. rewrite is_same_half_text by auto. cbn [obind].
      destruct (if starts_with b (fst ff) then _ else _); cbn [obind]; eauto.
      rewrite is_same_half_text by auto. cbn [obind]. eauto.
    + destruct (negb _); eauto. destruct (has_prefix _ _); eauto.
  - destruct (negb _); eauto. destruct (has_prefix _ _); eauto.
Qed.

(** ** IsDeletedSharedObject *)

Lemma find_after_some hay needle cursor c :
  find_after hay needle cursor = Some c ->
  exists u v, hay = u ++ needle ++ v /\ c = (List.length u + List.length needle)%nat /\
    (cursor <= List.length u)%nat.
Proof.
  unfold find_after, find_from. destruct (Nat.ltb_spec (List.length hay) cursor); [easy|].
  destruct (find_sub needle (skipn cursor hay)) as [d|] eqn:E; [|easy]. cbn. intros [= <-].
  apply find_sub_some in E as (u & v & E & <-).
  exists (firstn cursor hay ++ u), v. rewrite <- app_assoc, <- E, firstn_skipn.
  rewrite app_length, firstn_length. repeat split; lia.
Qed.

Lemma has_suffix_iff s p : has_suffix s p = true <-> exists t, s = t ++ p.
Proof.
  unfold has_suffix. rewrite starts_with_iff. split; intros (t & E).
  - exists (rev t). rewrite <- (rev_involutive s), E, rev_app_distr, rev_involutive. auto.
  - exists (rev t). now rewrite E, rev_app_distr.
Qed.

Lemma is_deleted_go_ok path : has_suffix path (str ".so") = false ->
  forall fuel cursor, (0 < fuel)%nat -> (List.length path < fuel + cursor)%nat ->
  exists b, is_deleted_go fuel path cursor = Ok b.
Proof.
  intros Hs. induction fuel as [|fuel IH]; intros cursor H0 Hf; [lia|]. cbn [is_deleted_go].
  destruct (find_after path (str ".so") cursor) as [c|] eqn:E; [|eauto].
  apply find_after_some in E as (u & v & Ep & Ec & Hu).
  change (List.length (str ".so")) with 3%nat in Ec.
  destruct (nth_error path c) as [ch|] eqn:En.
  - destruct (_ || _ || _); [eauto|]. apply IH.
    + assert (c < List.length path)%nat by (apply nth_error_Some; congruence). lia.
    + lia.
  - apply nth_error_None in En. exfalso.
    assert (L : List.length path = (c + List.length v)%nat).
    { rewrite Ep, !app_length. change (List.length (str ".so")) with 3%nat. lia. }
    destruct v; [|cbn in L; lia]. rewrite app_nil_r in Ep.
    assert (has_suffix path (str ".so") = true) by (apply has_suffix_iff; eauto). congruence.
Qed.

Lemma is_deleted_so_ok path : has_suffix path (str ".so") = false ->
  exists b, is_deleted_so path = Ok b.
Proof. intros H. apply is_deleted_go_ok; auto; lia. Qed.

(** * Mmap events *)

Lemma rename_length h p f : List.length (rename h p f) = List.length h.
Proof. revert p; induction h as [|m h IH]; intros [|p]; cbn; auto. Qed.

Lemma rename_nth h p f q m : nth_error (rename h p f) q = Some m ->
  exists m0, nth_error h q = Some m0 /\
    (m = m0 \/ (q = p /\ m = {| hm_file := f; hm_build := hm_build m0; hm_start := hm_start m0;
                    hm_limit := hm_limit m0; hm_off := hm_off m0; hm_md5 := hm_md5 m0 |})).
Proof.
  revert p q; induction h as [|x h IH]; intros [|p] [|q]; cbn; try easy.
  - intros [= <-]. eauto 6.
  - eauto.
  - intros [= <-]. eauto.
  - intros H. destruct (IH p q H) as (m0 & E & [->|(-> & ->)]); eauto 6.
Qed.

Lemma rename_nth_same h p f q m0 : nth_error h q = Some m0 ->
  exists m, nth_error (rename h p f) q = Some m /\
    (m = m0 \/ (q = p /\ m = {| hm_file := f; hm_build := hm_build m0; hm_start := hm_start m0;
                    hm_limit := hm_limit m0; hm_off := hm_off m0; hm_md5 := hm_md5 m0 |})).
Proof.
  intros H. destruct (nth_error (rename h p f) q) as [m|] eqn:E.
  - destruct (rename_nth h p f q m E) as (m1 & E1 & H1). rewrite H in E1. injection E1 as <-. eauto.
  - apply nth_error_None in E. rewrite rename_length in E.
    assert (q < List.length h)%nat by (apply nth_error_Some; congruence). lia.
Qed.

(** Naming an unnamed mapping at 0x400000. *)
Lemma inv_rename e h s o om f :
  Inv e h s -> nth_error (ns_heap s) o = Some om -> hm_start om = 0x400000 -> hm_file om = [] ->
  Inv e h (set_heap (rename (ns_heap s) o f) s).
Proof.
  intros I Eo Es Ef. split; cbn [ns_mmaps ns_heap ns_exec ns_fake set_heap]; try apply I.
  - intros pid k. change (try_lookup (set_heap (rename (ns_heap s) o f) s) pid k) with (try_lookup s pid k).
    pose proof (iv_owner e h s I pid k) as H.
    destruct (try_lookup s pid k) as [p|]; auto. destruct (owner h pid k) as [ev|]; auto.
    destruct H as (m & E & D & C).
    destruct (rename_nth_same _ o f _ _ E) as (m' & E' & [->|(-> & ->)]); [eauto|].
    exists {| hm_file := f; hm_build := hm_build m; hm_start := hm_start m;
              hm_limit := hm_limit m; hm_off := hm_off m; hm_md5 := hm_md5 m |}.
    split; auto. split; auto.
    rewrite Eo in E. injection E as <-.
    destruct D as (D1 & D2 & D3 & D4 & D5 & D6). unfold describes. cbn.
    do 5 (split; [assumption|]). right. split; [|congruence].
    destruct D6 as [D6|(D6 & _)]; congruence.
  - intros. rewrite rename_length. eapply iv_exec; eauto.
  - intros. rewrite rename_length. eapply iv_fake; eauto.
Qed.

Lemma inv_set_exec e h s x :
  Inv e h s -> (forall pid p, aget N.eqb pid x = Some p -> (p < List.length (ns_heap s))%nat) ->
  Inv e h (set_exec x s).
Proof.
  intros I H. apply (inv_grow e h s _ []); auto; cbn.
  - now rewrite app_nil_r.
  - apply I.
Qed.

(** Other parts of the state that steps keep. *)
Definition keeps (s s' : nstate) : Prop :=
  ns_cgroup s' = ns_cgroup s /\ ns_had s' = ns_had s /\ ns_comm s' = ns_comm s /\
  ns_stat s' = ns_stat s /\ ns_mmaps s' = ns_mmaps s /\ ns_fake s' = ns_fake s.

Lemma keeps_refl s : keeps s s.
Proof. repeat split. Qed.

Lemma guess_main_spec e h s m start p :
  Inv e h s -> (p < List.length (ns_heap s))%nat ->
  exists s', guess_main s m start p = Ok s' /\ Inv e h s' /\ keeps s s' /\
    (ns_heap s' = ns_heap s \/
     exists o om, aget N.eqb (mm_pid m) (ns_exec s) = Some o /\ nth_error (ns_heap s) o = Some om /\
       hm_start om = 0x400000 /\ hm_file om = [] /\ ns_heap s' = rename (ns_heap s) o (mm_file m)).
Proof.
  intros I Hp. unfold guess_main.
  assert (Hset : forall s0, Inv e h s0 -> (p < List.length (ns_heap s0))%nat ->
            Inv e h (set_exec (aset (mm_pid m) p (ns_exec s0)) s0)).
  { intros s0 I0 L0. apply inv_set_exec; auto. intros pid q. rewrite aget_aset.
    destruct (pid =? mm_pid m); [intros [= <-]; auto|apply I0]. }
  destruct ((start =? 0x8048000) || (start =? 0x400000)).
  { eexists. split; [reflexivity|]. split; auto. split; [repeat split|]. auto. }
  set (tail := fun s0 => obind _ _).
  assert (Htail : forall s0, Inv e h s0 -> (p < List.length (ns_heap s0))%nat ->
            aget N.eqb (mm_pid m) (ns_exec s0) = aget N.eqb (mm_pid m) (ns_exec s) ->
            exists s', tail s0 = Ok s' /\ Inv e h s' /\ keeps s0 s' /\ ns_heap s' = ns_heap s0).
  { intros s0 I0 L0 E0. subst tail. cbv beta.
    assert (Hx : exists b, match aget N.eqb (mm_pid m) (ns_exec s) with
        | Some _ => Ok true
        | None => if has_suffix (mm_file m) (str ".ko") || has_suffix (mm_file m) (str ".so") then Ok true
            else let! d := is_deleted_so (mm_file m) in
               Ok (d || is_versioned_so (mm_file m) || is_virtual (mm_file m)
                   || has_suffix (mm_file m) (str "/classes.jsa") || has_prefix (mm_file m) kernel_prefix)
        end = Ok b).
    { destruct (aget N.eqb (mm_pid m) (ns_exec s)); [eauto|].
      destruct (has_suffix (mm_file m) (str ".ko")); [now exists true|]. cbn [orb].
      destruct (has_suffix (mm_file m) (str ".so")) eqn:Es; [now exists true|].
      destruct (is_deleted_so_ok (mm_file m) Es) as (d & ->). cbn. eauto. }
    destruct Hx as (b & ->). cbn [obind].
    destruct (negb b); [eexists; split; [reflexivity|]; split; auto; split; [repeat split|auto]|].
    destruct (_ && _); eexists; (split; [reflexivity|]; split; auto; split; [repeat split|auto]). }
  destruct (aget N.eqb (mm_pid m) (ns_exec s)) as [o|] eqn:Eo.
  - pose proof (iv_exec e h s I _ _ Eo) as Lo.
    destruct (deref_lt s o Lo) as (om & Ed). rewrite Ed. cbn [obind].
    unfold deref in Ed. destruct (nth_error (ns_heap s) o) as [om'|] eqn:En; [|easy].
    injection Ed as ->.
    destruct ((hm_start om =? 0x400000) && is_empty (hm_file om)
              && (sub64 start (mm_pgoff m) =? 0x400000)) eqn:Ec; cbn [obind].
    + apply andb_prop in Ec as (Ec & _). apply andb_prop in Ec as (Ec1 & Ec2).
      apply N.eqb_eq in Ec1. destruct (hm_file om) as [|] eqn:Ef; [|easy].
      destruct (Htail (set_heap (rename (ns_heap s) o (mm_file m)) s)) as (s' & E & I' & K & Hh).
      * eapply inv_rename; eauto.
      * cbn. now rewrite rename_length.
      * cbn. exact Eo.
      * exists s'. rewrite E. split; auto. split; auto. split.
        -- destruct K as (K1 & K2 & K3 & K4 & K5 & K6). repeat split; assumption.
        -- right. exists o, om. repeat split; auto.
    + destruct (Htail s I Hp) as (s' & E & I' & K & Hh); auto. eauto 8.
  - cbn [obind]. destruct (Htail s I Hp) as (s' & E & I' & K & Hh); auto. eauto 8.
Qed.

(** The address spaces after an mmap event. *)
Lemma on_mmap_spec e h s m :
  Inv e h s -> forall s' cs, on_mmap e s m = Ok (s', cs) ->
  (mm_len m = 0 /\ s' = s /\ cs = []) \/
  (mm_len m <> 0 /\ start_of m < limit_of m /\
   exists p hm, cs = [HMMap (mm_pid m) (p, hm)] /\ describes e hm m /\
    ns_cgroup s' = ns_cgroup s /\ ns_had s' = ns_had s /\ ns_comm s' = ns_comm s /\
    ns_stat s' = ns_stat s /\ ns_fake s' = ns_fake s /\
    forall ev, announced ev = Some m -> Inv e (ev :: h) s').
Proof.
  intros I s' cs H. unfold on_mmap in H. destruct (N.eqb_spec (mm_len m) 0) as [E0|E0].
  { injection H as <- <-. auto. }
  right. split; auto. ok_inv H. rename a into b.
  rewrite start_of_eq, limit_of_eq in H0.
  set (im0 := match aget N.eqb (mm_pid m) (ns_mmaps s) with Some i => i | None => [] end) in *.
  assert (W0 : wf 0 im0).
  { subst im0. destruct (aget N.eqb (mm_pid m) (ns_mmaps s)) eqn:Em; [|easy]. eapply iv_wf; eauto. }
  assert (C0 : forall k, content im0 k = try_lookup s (mm_pid m) k).
  { intros k. unfold try_lookup. subst im0. destruct (aget N.eqb (mm_pid m) (ns_mmaps s)) eqn:Em; auto.
    symmetry. apply (im_lookup_content 0). eapply iv_wf; eauto. }
  ok_inv H0. rename a into im1. ok_inv H. rename a into s2. injection H0 as <- <-.
  destruct (N.ltb_spec (start_of m) (limit_of m)) as [Lt|Ge].
  2: { exfalso. unfold im_set in E1. destruct (N.ltb_spec (start_of m) (limit_of m)); [lia|easy]. }
  split; auto.
  destruct (im_set_spec im0 (start_of m) (limit_of m) (List.length (ns_heap s)) W0 Lt) as (im1' & E1' & W1 & C1).
  rewrite E1 in E1'. injection E1' as <-.
  set (hm := {| hm_file := mm_file m; hm_build := b; hm_start := start_of m; hm_limit := limit_of m;
                hm_off := mm_pgoff m; hm_md5 := mm_md5 m |}) in *.
  assert (D : describes e hm m) by (repeat split; auto).
  set (s1 := set_mmaps (aset (mm_pid m) im1 (ns_mmaps s)) (set_heap (ns_heap s ++ [hm]) s)) in *.
  assert (I1 : forall ev, announced ev = Some m -> Inv e (ev :: h) s1).
  { intros ev Ea. split; cbn [s1 ns_mmaps set_mmaps set_heap ns_heap ns_exec ns_fake].
    - intros pid im. rewrite aget_aset. destruct (pid =? mm_pid m); [intros [= <-]; auto|apply I].
    - intros pid. cbn [known]. rewrite Ea, aget_aset. rewrite (N.eqb_sym (mm_pid m) pid).
      destruct (N.eqb_spec pid (mm_pid m)); cbn [andb orb].
      + replace (mm_len m =? 0) with false by (symmetry; now apply N.eqb_neq). reflexivity.
      + apply I.
    - intros pid k. cbn [owner]. rewrite Ea. unfold try_lookup, s1.
      cbn [ns_mmaps set_mmaps]. rewrite aget_aset. rewrite (N.eqb_sym (mm_pid m) pid).
      assert (Ht : forall p ev0, try_lookup s pid k = Some p -> owner h pid k = Some ev0 ->
        exists m0, nth_error (ns_heap s ++ [hm]) p = Some m0 /\ describes e m0 ev0 /\ covers ev0 k = true).
      { intros p ev0 Ep Eo. pose proof (iv_owner e h s I pid k) as Ho. rewrite Ep, Eo in Ho.
        destruct Ho as (m0 & Em & D0). exists m0. split; auto.
        rewrite nth_error_app1; auto. apply nth_error_Some. congruence. }
      destruct (N.eqb_spec pid (mm_pid m)) as [->|Hn]; cbn [andb].
      + rewrite (im_lookup_content 0 im1 k W1), C1.
        assert (Ecv : covers m k = (start_of m <=? k) && (k <? limit_of m)).
        { unfold covers. replace (mm_len m =? 0) with false by (symmetry; now apply N.eqb_neq).
          reflexivity. }
        rewrite Ecv. destruct ((start_of m <=? k) && (k <? limit_of m)) eqn:Ec.
        * exists hm. split.
          -- rewrite nth_error_app2, Nat.sub_diag; auto.
          -- auto.
        * rewrite C0. pose proof (iv_owner e h s I (mm_pid m) k) as Ho.
          destruct (try_lookup s (mm_pid m) k) as [p|] eqn:Ep;
            destruct (owner h (mm_pid m) k) as [ev0|] eqn:Eo; try easy. now apply Ht.
      + fold (try_lookup s pid k). pose proof (iv_owner e h s I pid k) as Ho.
        destruct (try_lookup s pid k) as [p|] eqn:Ep;
          destruct (owner h pid k) as [ev0|] eqn:Eo; try easy. now apply Ht.
    - intros pid p Hp. apply (iv_exec e h s I) in Hp. rewrite app_length. cbn. lia.
    - intros k p Hp. apply (iv_fake e h s I) in Hp. rewrite app_length. cbn. lia. }
  exists (List.length (ns_heap s)), hm. split; auto. split; auto.
  assert (Lp : (List.length (ns_heap s) < List.length (ns_heap s1))%nat).
  { cbn. rewrite app_length. cbn. lia. }
  assert (G : forall ev, announced ev = Some m ->
             Inv e (ev :: h) s2 /\ keeps s1 s2).
  { intros ev Ea. destruct (guess_main_spec e (ev :: h) s1 m (start_of m) _ (I1 ev Ea) Lp)
      as (s2' & E2' & I2 & K & _). rewrite E2 in E2'. injection E2' as <-. auto. }
  pose proof (G {| ev_misc := None; ev_what := EvMMap m |} eq_refl) as (_ & K1 & K2 & K3 & K4 & K5 & K6).
  split; [exact K1|]. split; [exact K2|]. split; [exact K3|]. split; [exact K4|].
  split; [exact K6|]. intros ev Ea. now apply G.
Qed.

(** A proper mapping with a text build id is accepted. *)
Lemma on_mmap_ok e h s m :
  Inv e h s -> env_text e -> (mm_len m <> 0 -> start_of m < limit_of m) ->
  (forall b, mm_build m = Some b -> ~ In 0 b) ->
  exists s' cs, on_mmap e s m = Ok (s', cs).
Proof.
  intros I Ht Hp Hb. unfold on_mmap. destruct (N.eqb_spec (mm_len m) 0) as [E0|E0]; [eauto|].
  destruct (get_build_id_ok e m Ht Hb) as (b & Eb). rewrite Eb. cbn [obind].
  rewrite start_of_eq, limit_of_eq.
  set (im0 := match aget N.eqb (mm_pid m) (ns_mmaps s) with Some i => i | None => [] end).
  assert (W0 : wf 0 im0).
  { subst im0. destruct (aget N.eqb (mm_pid m) (ns_mmaps s)) eqn:Em; [|easy]. eapply iv_wf; eauto. }
  destruct (im_set_spec im0 (start_of m) (limit_of m) (List.length (ns_heap s)) W0 (Hp E0)) as (im1 & E1 & W1 & C1).
  rewrite E1. cbn [obind].
  set (hm := {| hm_file := mm_file m; hm_build := b; hm_start := start_of m; hm_limit := limit_of m;
                hm_off := mm_pgoff m; hm_md5 := mm_md5 m |}).
  set (s1 := set_mmaps (aset (mm_pid m) im1 (ns_mmaps s)) (set_heap (ns_heap s ++ [hm]) s)).
  assert (Hg : exists s2, guess_main s1 m (start_of m) (List.length (ns_heap s)) = Ok s2).
  { (* only the validity of the executable pointers matters *)
    assert (I1 : Inv e h (set_mmaps (ns_mmaps s) s1)).
    { apply (inv_grow e h s _ [hm]); auto.
      - intros pid p Hx. apply (iv_exec e h s I) in Hx. cbn. rewrite app_length. cbn. lia.
      - intros k p Hx. apply (iv_fake e h s I) in Hx. cbn. rewrite app_length. cbn. lia. }
    destruct (guess_main_spec e h (set_mmaps (ns_mmaps s) s1) m (start_of m) (List.length (ns_heap s)) I1)
      as (s2 & E2 & _).
    { cbn. rewrite app_length. cbn. lia. }
    revert E2. unfold guess_main. cbn [ns_exec set_mmaps].
    destruct (_ || _); [eauto|].
    destruct (aget N.eqb (mm_pid m) (ns_exec s1)) as [o|]; cbn [obind].
    - unfold deref. cbn [ns_heap set_mmaps]. destruct (nth_error (ns_heap s1) o); [|easy]. cbn [obind].
      destruct (_ && _ && _); cbn [obind negb]; destruct (_ && _); eauto.
    - destruct (_ || _).
      + cbn [obind negb]. destruct (_ && _); eauto.
      + destruct (is_deleted_so (mm_file m)); try discriminate. cbn [obind].
        destruct (negb _); eauto. destruct (_ && _); eauto. }
  destruct Hg as (s2 & ->). cbn. eauto.
Qed.

(** * Forks *)

Lemma on_fork_spec e h s f ev :
  Inv e h s -> announced ev = None -> ev_what ev = EvFork f -> Inv e (ev :: h) (on_fork s f).
Proof.
  intros I Ea Ew. unfold on_fork. destruct (N.eqb_spec (fk_pid f) (fk_ppid f)) as [Es|Es].
  - split; try apply I.
    + intros pid. cbn [known]. rewrite Ea, Ew, Es. destruct (N.eqb_spec (fk_ppid f) pid) as [->|]; cbn [andb orb].
      * rewrite orb_diag. apply I.
      * apply I.
    + intros pid k. cbn [owner]. rewrite Ea, Ew, Es.
      destruct (N.eqb_spec (fk_ppid f) pid) as [->|]; cbn [andb]; [|apply I].
      destruct (known h pid); apply I.
  - split; cbn [set_exec set_comm set_mmaps ns_mmaps ns_exec ns_heap ns_fake]; try apply I.
    + intros pid im. rewrite aget_inherit. destruct (aget N.eqb (fk_ppid f) (ns_mmaps s)) eqn:E; [|apply I].
      destruct (pid =? fk_pid f); [intros [= <-]; eapply iv_wf; eauto|apply I].
    + intros pid. cbn [known]. rewrite Ea, Ew, aget_inherit.
      rewrite (iv_known e h s I (fk_ppid f)), (iv_known e h s I pid), (N.eqb_sym (fk_pid f) pid).
      destruct (aget N.eqb (fk_ppid f) (ns_mmaps s)); [|now rewrite andb_false_r].
      now destruct (pid =? fk_pid f).
    + intros pid k. cbn [owner]. rewrite Ea, Ew. unfold try_lookup.
      cbn [set_exec set_comm set_mmaps ns_mmaps ns_heap]. rewrite aget_inherit.
      rewrite (iv_known e h s I (fk_ppid f)), (N.eqb_sym (fk_pid f) pid).
      pose proof (iv_owner e h s I pid k) as H1. pose proof (iv_owner e h s I (fk_ppid f) k) as H2.
      unfold try_lookup in H1, H2.
      destruct (aget N.eqb (fk_ppid f) (ns_mmaps s)) as [im|]; [|now rewrite andb_false_r].
      destruct (pid =? fk_pid f); auto.
    + intros pid p. rewrite aget_inherit. destruct (aget N.eqb (fk_ppid f) (ns_exec s)) eqn:E; [|apply I].
      destruct (pid =? fk_pid f); [intros [= <-]; eapply iv_exec; eauto|apply I].
Qed.

(** * All events *)

Lemma on_comm_inv e h s misc c ev :
  Inv e h s -> neutral ev -> Inv e (ev :: h) (fst (on_comm e s misc c)).
Proof.
  intros I N. apply inv_neutral; auto. unfold on_comm. destruct (cm_pid c =? cm_tid c); auto.
  cbn [fst]. match goal with |- context [if ?c then ?a else s] => set (s1 := if c then a else s) end.
  assert (I1 : Inv e h s1).
  { subst s1. destruct (_ || _ || _); auto. apply inv_set_exec; auto. intros pid p.
    rewrite aget_aerase. destruct (pid =? cm_pid c); [easy|apply I]. }
  now apply (inv_same e h s1).
Qed.

Lemma deliver_lost_spec e h s l :
  Inv e h s ->
  exists s' cs, deliver_lost e s l = Ok (s', cs) /\ Inv e h s' /\ ns_cgroup s' = ns_cgroup s.
Proof.
  intros I. unfold deliver_lost.
  set (s1 := add_stat _ _ 0 0 s). assert (I1 : Inv e h s1) by now apply (inv_same e h s).
  destruct (_ =? -1)%Z.
  { eexists _, _. split; [reflexivity|]. split; [now apply (inv_same e h s1)|reflexivity]. }
  destruct (fake_mapping s1 lost_name ([], SrcMissing) lost_md5 lost_ip) as (s2, p) eqn:F.
  destruct (fake_spec e h _ _ _ _ _ _ _ F I1) as (I2 & L & _).
  destruct (deref_lt s2 p L) as (m & ->). cbn [obind]. eexists _, _. split; [reflexivity|]. split; auto.
  unfold fake_mapping in F. destruct (aget fake_key_eqb _ _); injection F as <- <-; reflexivity.
Qed.

Lemma spe_records_spec e h : forall rs s,
  Inv e h s -> exists s' cs, on_spe_records e s rs = Ok (s', cs) /\ Inv e h s' /\
    ns_cgroup s' = ns_cgroup s /\ Forall addresses_ok cs.
Proof.
  induction rs as [|r rs IH]; intros s I; cbn [on_spe_records]; [eauto 6|].
  unfold on_spe_record.
  set (x := if w32 (sc_id (sr_ctx r)) =? 0 then (0, 0%Z) else _). destruct x as (pid, miss).
  assert (I1 : Inv e h (add_stat 0 0 0 miss s)) by now apply (inv_same e h s).
  match goal with |- context [on_sample e ?s1 None ?sm ?sp] =>
    destruct (on_sample_spec e h s1 None sm sp I1) as (s2 & c1 & -> & I2 & Cg & Hc) end.
  cbn [obind]. destruct (IH s2 I2) as (s3 & c2 & -> & I3 & Cg3 & F). cbn [obind].
  eexists _, _. split; [reflexivity|]. split; auto. split; [rewrite Cg3, Cg; reflexivity|].
  cbn in Hc. destruct Hc as (c & -> & D). cbn. constructor; auto. apply D.
Qed.

Lemma neutral_of ev : announced ev = None -> (forall f, ev_what ev <> EvFork f) -> neutral ev.
Proof. intros H1 H2. split; auto. destruct (ev_what ev); auto. exact (H2 _ eq_refl). Qed.

(** Every step keeps the invariant; every delivered sample that is not a lost
    sample has its addresses inside its mappings. *)
Definition not_lost (c : hcall) : Prop := match c with HSample c => cx_lost c = false | _ => True end.

Lemma on_event_inv e h s ev s' cs :
  Inv e h s -> on_event e s ev = Ok (s', cs) ->
  Inv e (ev :: h) s' /\ Forall (fun c => not_lost c -> addresses_ok c) cs.
Proof.
  intros I. unfold on_event. destruct (ev_what ev) eqn:Ew; intros H.
  - ok_inv H. destruct a as (s1, c1). injection H0 as <- <-.
    assert (Ea : announced ev = Some m) by (unfold announced; now rewrite Ew).
    destruct (on_mmap_spec e h s m I s1 c1 E) as [(E0 & -> & ->)|(E0 & Lt & p & hm & -> & D & _ & _ & _ & _ & _ & H)].
    + split; auto. apply (inv_same e (ev :: h) s); auto. split; try apply I.
      * intros pid. cbn [known]. rewrite Ea, E0. cbn [N.eqb negb]. rewrite andb_false_r. apply I.
      * intros pid k. cbn [owner]. rewrite Ea. unfold covers. rewrite E0. cbn [N.eqb negb andb].
        rewrite andb_false_r. apply I.
    + split; [|constructor; [easy|auto]]. apply (inv_same e (ev :: h) s1); auto.
  - injection H as H. assert (N : neutral ev).
    { apply neutral_of; [unfold announced; now rewrite Ew|congruence]. }
    pose proof (on_comm_inv e h s (ev_misc ev) c ev I N) as H1. rewrite H in H1.
    split; auto. unfold on_comm in H.
    destruct (cm_pid c =? cm_tid c); injection H as <- <-; constructor; easy.
  - injection H as <- <-. split; auto. eapply on_fork_spec; eauto. unfold announced; now rewrite Ew.
  - injection H as <- <-. split; auto. apply inv_neutral.
    { apply neutral_of; [unfold announced; now rewrite Ew|congruence]. }
    now apply (inv_same e h s).
  - assert (N : neutral ev).
    { apply neutral_of; [unfold announced; now rewrite Ew|congruence]. }
    destruct (ne_lost_samples e).
    + destruct (deliver_lost_spec e h s l I) as (s1 & c1 & E & I1 & _).
      rewrite E in H. injection H as <- <-. split; [now apply inv_neutral|].
      unfold deliver_lost in E. destruct (_ =? -1)%Z; [injection E as <- <-; auto|].
      destruct (fake_mapping _ _ _ _ _). ok_inv E. injection H as <- <-.
      apply Forall_forall. intros x Hx. apply repeat_spec in Hx. subst. easy.
    + injection H as <- <-. split; auto. now apply inv_neutral.
  - assert (N : neutral ev).
    { apply neutral_of; [unfold announced; now rewrite Ew|congruence]. }
    destruct (ne_lost_samples e).
    + injection H as <- <-. split; auto. now apply inv_neutral.
    + destruct (deliver_lost_spec e h s l I) as (s1 & c1 & E & I1 & _).
      rewrite E in H. injection H as <- <-. split; [now apply inv_neutral|].
      unfold deliver_lost in E. destruct (_ =? -1)%Z; [injection E as <- <-; auto|].
      destruct (fake_mapping _ _ _ _ _). ok_inv E. injection H as <- <-.
      apply Forall_forall. intros x Hx. apply repeat_spec in Hx. subst. easy.
  - assert (N : neutral ev).
    { apply neutral_of; [unfold announced; now rewrite Ew|congruence]. }
    destruct (on_sample_spec e h s (ev_misc ev) s0 None I) as (s1 & c1 & E & I1 & _ & Hc).
    rewrite E in H. injection H as <- <-. split; [now apply inv_neutral|].
    cbn in Hc. destruct (event_index e s0 =? -1)%Z.
    + destruct Hc as (-> & _). auto.
    + destruct Hc as (c & -> & D). constructor; auto. intros _. apply D.
  - injection H as <- <-. split; auto. apply inv_neutral; auto.
    apply neutral_of; [unfold announced; now rewrite Ew|congruence].
  - assert (N : neutral ev).
    { apply neutral_of; [unfold announced; now rewrite Ew|congruence]. }
    destruct trace as [buf|]; [|injection H as <- <-; split; auto; now apply inv_neutral].
    destruct (ne_spe e); [|injection H as <- <-; split; auto; now apply inv_neutral].
    ok_inv H. destruct (spe_records_spec e h a s I) as (s1 & c1 & E1 & I1 & _ & F).
    rewrite E1 in H0. injection H0 as <- <-. split; [now apply inv_neutral|].
    eapply Forall_impl; [|exact F]. auto.
  - destruct ((ks_type k =? 1) && (ks_flags k =? 0)) eqn:Ek.
    + assert (Ea : announced ev = Some (ksym_mmap k)) by (unfold announced; now rewrite Ew, Ek).
      destruct (on_mmap_spec e h s _ I s' cs H) as [(E0 & -> & ->)|(E0 & Lt & p & hm & -> & D & _ & _ & _ & _ & _ & H0)].
      * split; auto. split; try apply I.
        -- intros pid. cbn [known]. rewrite Ea, E0. cbn [N.eqb negb]. rewrite andb_false_r. apply I.
        -- intros pid k0. cbn [owner]. rewrite Ea. unfold covers. rewrite E0. cbn [N.eqb negb andb].
           rewrite andb_false_r. apply I.
      * split; [|constructor; [easy|auto]]. auto.
    + injection H as <- <-. split; auto. apply inv_neutral; auto.
      apply neutral_of; [unfold announced; now rewrite Ew, Ek|congruence].
  - injection H as <- <-. split; auto. apply inv_neutral; auto.
    apply neutral_of; [unfold announced; now rewrite Ew|congruence].
Qed.

Lemma run_events_app e : forall a s b,
  run_events e s (a ++ b) =
  let! (s1, c1) := run_events e s a in
  let! (s2, c2) := run_events e s1 b in Ok (s2, c1 ++ c2).
Proof.
  induction a as [|ev a IH]; intros s b; cbn [app run_events obind].
  - destruct (run_events e s b) as [(?, ?)| | | |]; reflexivity.
  - destruct (on_event e s ev) as [(s1, c1)| | | |]; cbn [obind]; auto.
    rewrite IH. destruct (run_events e s1 a) as [(s2, c2)| | | |]; cbn [obind]; auto.
    destruct (run_events e s2 b) as [(s3, c3)| | | |]; cbn [obind]; auto.
    now rewrite app_assoc.
Qed.

Theorem run_inv e : forall evs s h s' cs,
  Inv e h s -> run_events e s evs = Ok (s', cs) ->
  Inv e (rev evs ++ h) s' /\ Forall (fun c => not_lost c -> addresses_ok c) cs.
Proof.
  induction evs as [|ev evs IH]; intros s h s' cs I H; cbn [run_events] in H.
  - injection H as <- <-. auto.
  - ok_inv H. destruct a as (s1, c1). ok_inv H0. destruct a as (s2, c2). injection H as <- <-.
    destruct (on_event_inv e h s ev s1 c1 I E) as (I1 & F1).
    destruct (IH s1 (ev :: h) s2 c2 I1 E0) as (I2 & F2).
    cbn [rev]. rewrite <- app_assoc. split; auto. apply Forall_app. auto.
Qed.

Theorem run_inv0 e evs s' cs :
  run_events e nstate0 evs = Ok (s', cs) -> Inv e (rev evs) s'.
Proof.
  intros H. destruct (run_inv e evs nstate0 [] s' cs (inv0 e) H) as (I & _).
  now rewrite app_nil_r in I.
Qed.

(** * Progress *)

Lemma on_event_ok e h s ev :
  Inv e h s -> env_text e -> proper ev -> text_build_id ev ->
  exists s' cs, on_event e s ev = Ok (s', cs).
Proof.
  intros I Ht Hp Hb. unfold on_event, proper, text_build_id, announced in *.
  destruct (ev_what ev) eqn:Ew; eauto.
  - destruct (on_mmap_ok e h s m I Ht) as (s1 & c1 & ->); cbn [obind]; eauto.
  - destruct (on_comm e s (ev_misc ev) c); eauto.
  - destruct (ne_lost_samples e); eauto.
    destruct (deliver_lost_spec e h s l I) as (s1 & c1 & E & _); eauto.
  - destruct (ne_lost_samples e); eauto.
    destruct (deliver_lost_spec e h s l I) as (s1 & c1 & E & _); eauto.
  - destruct (on_sample_spec e h s (ev_misc ev) s0 None I) as (s1 & c1 & E & _); eauto.
  - destruct trace as [buf|]; eauto. destruct (ne_spe e); eauto.
    destruct (all_records_safe (S (List.length buf)) {| st_buf := buf; st_base := base; st_swap := false |} 0)
      as (rs & E & _).
    + apply N.le_0_l.
    + unfold len. cbn. lia.
    + unfold decode_trace. cbn [st_buf]. rewrite E. cbn [obind].
      destruct (spe_records_spec e h rs s I) as (s1 & c1 & E1 & _); eauto.
  - destruct ((ks_type k =? 1) && (ks_flags k =? 0)); eauto.
    apply (on_mmap_ok e h s (ksym_mmap k) I Ht); [apply Hp; reflexivity|easy].
Qed.

Theorem run_ok e : env_text e -> forall evs s h, Inv e h s ->
  Forall proper evs -> Forall text_build_id evs -> exists s' cs, run_events e s evs = Ok (s', cs).
Proof.
  intros Ht. induction evs as [|ev evs IH]; intros s h I Hp Hb; cbn [run_events]; [eauto|].
  inversion Hp; subst. inversion Hb; subst.
  destruct (on_event_ok e h s ev I Ht) as (s1 & c1 & E); auto. rewrite E. cbn [obind].
  destruct (on_event_inv e h s ev s1 c1 I E) as (I1 & _).
  destruct (IH s1 (ev :: h) I1) as (s2 & c2 & ->); auto. cbn. eauto.
Qed.
