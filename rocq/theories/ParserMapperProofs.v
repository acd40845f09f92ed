(** What holds of an AddressMapper after any calls at all, with or without room. *)
From Verif Require Import Base BytesModel TextModel Assoc MapperModel MapperSpec MapperProofs
  MapperStepProofs ParserModel ParserSpec.
Local Open Scope N_scope.

Section Weak.
Variable al k : N.
Hypothesis Hal : al = 2 ^ k.
Hypothesis Hk : k < 64.
Lemma al_pos : al <> 0.
Proof. rewrite Hal. apply N.pow_nonzero. lia. Qed.
Lemma al_two64 : two64 = al * 2 ^ (64 - k).
Proof. rewrite Hal, <- N.pow_add_r. replace (k + (64 - k)) with 64 by lia. reflexivity. Qed.

Lemma mod_two64 x : (x mod two64) mod al = x mod al.
Proof.
  rewrite al_two64. rewrite N.mod_mul_r by (try apply N.pow_nonzero; try apply al_pos; lia).
  rewrite N.mul_comm, N.mod_add by apply al_pos. apply N.mod_mod, al_pos.
Qed.
Lemma w64_mod x : w64 x mod al = x mod al.
Proof. apply mod_two64. Qed.

Lemma add_al x y : (x + y * al) mod al = x mod al.
Proof. apply N.mod_add, al_pos. Qed.

Lemma sub64_mod x y z : y <= x + two64 -> (z + y) mod al = x mod al -> sub64 x y mod al = z mod al.
Proof.
  intros H E. unfold sub64. rewrite mod_two64.
  assert (A : ((x + two64 - y) + y) mod al = (z + y) mod al).
  { rewrite E. replace (x + two64 - y + y) with (x + 2 ^ (64 - k) * al) by (rewrite al_two64 in *; lia).
    apply add_al. }
  clear - A al Hal Hk. pose proof al_pos as P.
  set (u := x + two64 - y) in *.
  (* cancel y *)
  assert (B : forall t, (t + y + (al - y mod al)) mod al = t mod al).
  { intros t. assert (y mod al < al) by (now apply N.mod_lt).
    rewrite (N.div_mod y al) at 1 by auto.
    replace (t + (al * (y / al) + y mod al) + (al - y mod al)) with (t + (y / al + 1) * al) by lia.
    apply add_al. }
  rewrite <- (B u), <- (B z).
  rewrite (N.add_mod (u + y)), (N.add_mod (z + y)) by auto. now rewrite A.
Qed.

Lemma offset_mod x : aligned_offset al x = x mod al.
Proof. now apply align_land with k. Qed.

Lemma add_mod_l x y z : x mod al = y mod al -> (x + z) mod al = (y + z) mod al.
Proof. intros E. now rewrite (N.add_mod x), (N.add_mod y), E by apply al_pos. Qed.
Lemma add_mod_r x y z : x mod al = y mod al -> (z + x) mod al = (z + y) mod al.
Proof. intros E. rewrite !(N.add_comm z). now apply add_mod_l. Qed.

Lemma boundary_mod e_end :
  (if negb (aligned_offset al e_end =? 0) then w64 (sub64 e_end (aligned_offset al e_end) + al) else e_end)
    mod al = 0.
Proof.
  pose proof al_pos as P. rewrite offset_mod. destruct (e_end mod al =? 0) eqn:E; cbn [negb].
  - now apply N.eqb_eq in E.
  - rewrite w64_mod. replace al with (1 * al) at 2 by lia. rewrite add_al.
    assert (e_end mod al < al) by now apply N.mod_lt.
    rewrite (sub64_mod _ _ 0); [apply N.mod_0_l; auto| |].
    + assert (al <= two64) by (rewrite al_two64; assert (2 ^ (64 - k) <> 0) by (apply N.pow_nonzero; lia); nia). lia.
    + cbn. now apply N.mod_mod.
Qed.

Variable Q : N -> Prop.

Definition weak (e : range) : Prop := r_mapped e mod al = r_real e mod al /\ Q (r_id e).
Definition weakm (m : mapper) : Prop := m_align m = al /\ Forall weak (m_ranges m).

Lemma try_after_weak e real size id off e' n :
  weak e -> Q id -> try_after al e real size id off = Some (e', n) -> weak e' /\ weak n.
Proof.
  intros (W1 & W2) Hid. unfold try_after. pose proof al_pos as P.
  destruct (al =? 0) eqn:Z; [apply N.eqb_eq in Z; easy|]. cbn [negb].
  pose proof (boundary_mod (w64 (r_mapped e + r_size e))) as B.
  set (bd := if negb (_ =? 0) then _ else _) in *.
  destruct (_ <? _); [easy|]. intros E. injection E as <- <-. unfold weak. cbn. split; [auto|].
  split; auto. rewrite w64_mod, offset_mod.
  rewrite (add_mod_l bd 0) by (rewrite B; symmetry; now apply N.mod_0_l).
  cbn. now apply N.mod_mod.
Qed.

Lemma try_all_weak real size id off : Q id -> forall l l',
  Forall weak l -> try_all al l real size id off = Some l' -> Forall weak l'.
Proof.
  intros Hid. induction l as [|e l IH]; intros l' F E; [easy|]. inversion F; subst. cbn in E.
  destruct (try_after al e real size id off) as [(e', n)|] eqn:T.
  - injection E as <-. destruct (try_after_weak _ _ _ _ _ _ _ H1 Hid T). auto.
  - destruct (try_all _ _ _ _ _ _) as [r|] eqn:R; [|easy]. injection E as <-. constructor; auto.
Qed.

Lemma try_last_weak real size id off : Q id -> forall l l',
  Forall weak l -> try_last al l real size id off = Some l' -> Forall weak l'.
Proof.
  intros Hid. induction l as [|e l IH]; intros l' F E; [easy|]. inversion F; subst.
  destruct l as [|f l].
  - cbn in E. destruct (try_after al e real size id off) as [(e', n)|] eqn:T; [|easy].
    injection E as <-. destruct (try_after_weak _ _ _ _ _ _ _ H1 Hid T). auto.
  - change (try_last al (e :: f :: l) real size id off)
      with (option_map (cons e) (try_last al (f :: l) real size id off)) in E.
    destruct (try_last _ _ _ _ _ _) as [r|] eqn:R; [|easy]. injection E as <-. constructor; auto.
Qed.

Lemma insert_weak m real l b m' :
  m_align m = al -> Forall weak l -> insert_key m real l = Ok (b, m') -> weakm m'.
Proof.
  intros A F. unfold insert_key. destruct (existsb _ _); [easy|]. intros E. injection E as <- <-. now split.
Qed.

Lemma place_weak m real size id off b m' :
  weakm m -> Q id -> place m real size id off = Ok (b, m') -> weakm m'.
Proof.
  intros (A & F) Hid. unfold place. rewrite A. pose proof al_pos as P.
  destruct (al =? 0) eqn:Z; [apply N.eqb_eq in Z; easy|]. rewrite offset_mod.
  assert (Hn : forall un, weak (mkRange real (real mod al) size id off un)).
  { intros. split; cbn; auto. now apply N.mod_mod. }
  destruct (m_ranges m) as [|f r] eqn:R.
  - apply insert_weak; auto.
  - rewrite <- R. destruct (_ <=? _).
    + apply insert_weak; auto. constructor; auto; try rewrite R in *; auto.
    + destruct (10000 <=? _).
      * destruct (try_last _ _ _ _ _ _) as [l|] eqn:T.
        -- apply insert_weak; auto. eapply try_last_weak; try rewrite R in *; eauto.
        -- intros E. injection E as <- <-. split; auto; try rewrite R in *; auto.
      * destruct (try_all _ _ _ _ _ _) as [l|] eqn:T.
        -- apply insert_weak; auto. eapply try_all_weak; try rewrite R in *; eauto.
        -- intros E. injection E as <- <-. split; auto; try rewrite R in *; auto.
Qed.

Lemma unmap_weak key : forall l, Forall weak l -> Forall weak (unmap_list l key).
Proof.
  induction l as [|e l IH]; intros F; [constructor|]. inversion F; subst. cbn.
  destruct (_ =? _); auto. destruct l as [|f l]; auto.
  inversion H2; subst. destruct (r_real f =? key); [constructor; auto|]. constructor; auto.
Qed.

Lemma unmaps_weak dels : forall l, Forall weak l -> Forall weak (fold_left unmap_list dels l).
Proof. induction dels as [|d dels IH]; intros l F; cbn; auto. apply IH, unmap_weak, F. Qed.

Lemma map_fresh_weak m real size id off b m' :
  weakm m -> Q id -> map_fresh m real size id off = Ok (b, m') -> weakm m'.
Proof.
  intros W Hid. unfold map_fresh. destruct (bad_range _ _); [intros E; now injection E as <- <-|].
  destruct (candidates _ _ _) as [c| | | |]; cbn [obind]; try easy.
  destruct (existsb _ _); [intros E; now injection E as <- <-|]. now apply place_weak.
Qed.

Lemma and_then_weak x f b m' :
  (forall b m, x = Ok (b, m) -> weakm m) ->
  (forall m b m', x = Ok (true, m) -> weakm m -> f m = Ok (b, m') -> weakm m') ->
  and_then x f = Ok (b, m') -> weakm m'.
Proof.
  intros Hx Hf. unfold and_then. destruct x as [([|] & m)| | | |]; try easy.
  - intros E. eapply Hf; eauto.
  - intros E. injection E as <- <-. eauto.
Qed.

Lemma collect_in real size : forall c old dels o dels',
  collect c real size old dels = (Some o, dels') -> old = Some o \/ In o c.
Proof.
  induction c as [|e c IH]; intros old dels o dels' E; cbn in E; [left; congruence|].
  destruct (negb _); [destruct (IH _ _ _ _ E); [now left|right; now right]|].
  destruct old as [o'|].
  - destruct (IH _ _ _ _ E); [now left|right; now right].
  - destruct (_ && _).
    + destruct (IH _ _ _ _ E) as [H|H]; right; [left; congruence|now right].
    + destruct (IH _ _ _ _ E) as [H|H]; [easy|right; now right].
Qed.

Lemma ins_real_in e l x : In x (ins_real e l) -> x = e \/ In x l.
Proof.
  induction l as [|f l IH]; cbn; [intuition|]. destruct (_ <? _); cbn; intuition.
Qed.

Lemma by_real_in l x : In x (by_real l) -> In x l.
Proof.
  induction l as [|e l IH]; cbn; [easy|]. intros H. apply ins_real_in in H as [->|H]; auto.
Qed.

Lemma in_part {A} (x : A) n i l : In x (firstn n (skipn i l)) -> In x l.
Proof.
  intros H. rewrite <- (firstn_skipn i l). apply in_or_app. right.
  rewrite <- (firstn_skipn n (skipn i l)). apply in_or_app. now left.
Qed.

Lemma candidates_in m real size c x : candidates m real size = Ok c -> In x c -> In x (m_ranges m).
Proof.
  unfold candidates. destruct (_ <=? _)%nat; [|easy]. intros E Hx. injection E as <-.
  apply by_real_in. now apply in_part in Hx.
Qed.

Lemma split_weak m o real size id off u b m' :
  weakm m -> weak o -> Q id -> split_over m o real size id off u = Ok (b, m') -> weakm m'.
Proof.
  intros (A & F) (Wo & Qo) Hid. unfold split_over.
  set (m1 := mkMapper (unmap_list (m_ranges m) (r_real o)) (m_align m)).
  assert (W1 : weakm m1) by (split; [exact A|now apply unmap_weak]).
  destruct (_ && _); [intros E; now injection E as <- <-|].
  apply and_then_weak.
  - intros b0 m0. destruct (_ =? 0); [intros E; now injection E as <- <-|]. now apply map_fresh_weak.
  - intros m2 b2 m3 _ W2. apply and_then_weak.
    + intros b0 m0. now apply map_fresh_weak.
    + intros m4 b4 m5 _ W4. destruct (_ =? 0); [intros E; now injection E as <- <-|]. now apply map_fresh_weak.
Qed.

Lemma map_with_id_weak m real size id off u b m' :
  weakm m -> Q id -> map_with_id m real size id off u = Ok (b, m') -> weakm m'.
Proof.
  intros W Hid. unfold map_with_id. destruct (bad_range _ _); [intros E; now injection E as <- <-|].
  destruct (candidates _ _ _) as [c| | | |] eqn:C; cbn [obind]; try easy.
  destruct (collect c real size None []) as (old & dels) eqn:Co.
  assert (W1 : weakm (mkMapper (fold_left unmap_list dels (m_ranges m)) (m_align m))).
  { destruct W as (A & F). split; [exact A|]. now apply unmaps_weak. }
  destruct old as [o|].
  - apply split_weak; auto. destruct (collect_in _ _ _ _ _ _ _ Co) as [H|H]; [easy|].
    destruct W as (_ & F). rewrite Forall_forall in F. apply F. now apply (candidates_in _ _ _ _ _ C).
  - now apply place_weak.
Qed.

Lemma get_mapped_weak m a x i off :
  weakm m -> get_mapped m a = Some (x, i, off) -> x mod al = a mod al /\ Q i.
Proof.
  intros (A & F). unfold get_mapped, range_containing.
  destruct (upper_real _ _) as [|j]; [easy|].
  destruct (nth_error _ j) as [e|] eqn:E; [|easy].
  destruct (contains_address e a) eqn:C; [|easy]. intros H. injection H as <- <- <-.
  apply nth_error_In, by_real_in in E. rewrite Forall_forall in F. destruct (F e E) as (W1 & W2).
  split; auto. rewrite w64_mod. unfold contains_address in C. apply andb_prop in C as (C & _).
  apply N.leb_le in C. rewrite N.add_comm.
  rewrite (add_mod_l _ _ _ W1). 
  assert (S : sub64 a (r_real e) mod al = (a - r_real e) mod al).
  { apply sub64_mod; [clear -C; lia|]. f_equal. clear -C. lia. }
  rewrite (add_mod_r _ _ _ S). f_equal. clear -C. lia.
Qed.

Lemma weak_new : weakm (mkMapper [] al).
Proof. split; [reflexivity|constructor]. Qed.
End Weak.

(** The numbers found come from the mappings entered. *)
Lemma run_weak al k (Q : N -> Prop) : al = 2 ^ k -> k < 64 -> forall h m m',
  weakm al Q m -> Forall (fun c => Q (c_id c)) h -> run_calls m h = Some m' -> weakm al Q m'.
Proof.
  intros Ha Hk. induction h as [|c h IH]; intros m m' W F E; cbn in E; [injection E as <-; auto|].
  inversion F; subst. destruct (map_with_id _ _ _ _ _ _) as [([|] & m1)| | | |] eqn:M; try easy.
  eapply IH; [|eassumption..]. eapply map_with_id_weak; eauto.
Qed.

Lemma page_lt page : page_ok page -> exists k, page = 2 ^ k /\ k < 64.
Proof. intros (k & H & ->). exists k. split; auto. lia. Qed.

Lemma lookup_weak page h a x i off :
  page_ok page -> lookup page h a = Some (x, i, off) ->
  x mod page = a mod page /\ exists c, In c h /\ c_id c = i.
Proof.
  intros Hp. destruct (page_lt _ Hp) as (k & Ha & Hk). unfold lookup.
  destruct (run_calls _ h) as [m|] eqn:R; [|easy]. intros G.
  apply (get_mapped_weak page k Ha Hk (fun i => exists c, In c h /\ c_id c = i) m a x i off); auto.
  apply (run_weak page k _ Ha Hk h (mkMapper [] page)); auto.
  - apply weak_new.
  - apply Forall_forall. eauto.
Qed.

Lemma lookup_known page h m a : run_calls (mkMapper [] page) h = Some m -> lookup page h a = get_mapped m a.
Proof. unfold lookup. now intros ->. Qed.

Lemma run_snoc m h c : run_calls m (h ++ [c]) =
  match run_calls m h with
  | Some m1 => match map_with_id m1 (c_start c) (c_size c) (c_id c) (c_off c) true with
               | Ok (true, m') => Some m' | _ => None end
  | None => None
  end.
Proof.
  revert m. induction h as [|d h IH]; intros m; cbn.
  - destruct (map_with_id _ _ _ _ _ _) as [([|] & m1)| | | |]; auto.
  - destruct (map_with_id _ _ _ _ _ _) as [([|] & m1)| | | |]; auto.
Qed.

(** A marked address keeps its place in the page. *)
Lemma marked_mod page a : page_ok page -> marked a mod page = a mod page.
Proof.
  intros (k & H & ->). unfold marked.
  assert (P : 2 ^ 60 = 2 ^ k * 2 ^ (60 - k)) by (rewrite <- N.pow_add_r; f_equal; lia).
  assert (Z : 2 ^ k <> 0) by (apply N.pow_nonzero; lia).
  rewrite P at 2. replace (8 * (2 ^ k * 2 ^ (60 - k))) with (8 * 2 ^ (60 - k) * 2 ^ k) by lia.
  rewrite N.mod_add by auto. rewrite P, N.mod_mul_r by (auto; apply N.pow_nonzero; lia).
  rewrite N.mul_comm, N.mod_add by auto. now apply N.mod_mod.
Qed.

Lemma lor_low a b n : a < 2 ^ n -> N.lor a (b * 2 ^ n) = a + b * 2 ^ n.
Proof.
  intros H. rewrite <- N.shiftl_mul_pow2.
  assert (L : N.land a (N.shiftl b n) = 0).
  { apply N.bits_inj. intros i. rewrite N.land_spec, N.bits_0.
    destruct (N.lt_ge_cases i n) as [L|L].
    - rewrite N.shiftl_spec_low by auto. apply andb_false_r.
    - replace (N.testbit a i) with false; auto. symmetry.
      rewrite <- (N.mod_small a (2 ^ n) H). apply N.mod_pow2_bits_high. auto. }
  rewrite (N.add_nocarry_lxor a (N.shiftl b n)) by auto. symmetry. now apply N.lxor_lor.
Qed.

Lemma unmapped_marked a : unmapped_address a = marked a.
Proof.
  unfold unmapped_address, marked.
  replace (N.lxor max64 (N.shiftl 15 60)) with (N.ones 60) by reflexivity. rewrite N.land_ones.
  replace (N.shiftl 8 60) with (8 * 2 ^ 60) by reflexivity. apply lor_low.
  apply N.mod_lt. discriminate.
Qed.
