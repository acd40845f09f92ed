(** Events of the other byte order. *)
From Verif Require Import Base BytesModel BytesProofs BytesMoreProofs BufferModel BufferSpec BufferProofs TextModel Assoc
  EventSizeModel EventSizeSpec EventSizeProofs SampleModel ReaderOpsModel ReaderOpsProofs FileModel FileSpec FileProofs FileEventProofs.
Local Open Scope N_scope.

(** ** Members in ascending order *)
Fixpoint ascending (lo : N) (fs : list (N * nat)) : Prop :=
  match fs with
  | [] => True
  | f :: t => lo <= fst f /\ ascending (fst f + N.of_nat (snd f)) t
  end.
Lemma ascending_ge fs : forall lo, ascending lo fs -> Forall (fun f => lo <= fst f) fs.
Proof.
  induction fs as [|f fs IH]; intros lo H; constructor; destruct H as [H1 H2]; [exact H1|].
  eapply Forall_impl; [|exact (IH _ H2)]. cbv beta. intros. lia.
Qed.
Lemma ascending_weaken fs lo lo' : lo' <= lo -> ascending lo fs -> ascending lo' fs.
Proof. destruct fs; [auto|]. cbn [ascending]. intros H [? ?]. split; [lia|auto]. Qed.
Lemma ascending_apart fs : forall lo, ascending lo fs -> all_apart fs.
Proof.
  induction fs as [|f fs IH]; intros lo H; [exact I|]. destruct H as [H1 H2]. split; [|eauto].
  eapply Forall_impl; [|exact (ascending_ge _ _ H2)]. cbv beta. intros. left. auto.
Qed.
Lemma ascending_app fs gs : forall lo hi,
  lo <= hi -> ascending lo fs -> Forall (fun f => fst f + N.of_nat (snd f) <= hi) fs ->
  ascending hi gs -> ascending lo (fs ++ gs).
Proof.
  induction fs as [|f fs IH]; intros lo hi L H F G; cbn [app]; [eapply ascending_weaken; eauto|].
  destruct H as [H1 H2]. inversion_clear F. split; [exact H1|]. eapply IH; eauto.
Qed.
Lemma ascending_array base size n fs :
  ascending 0 fs -> Forall (fun f => fst f + N.of_nat (snd f) <= size) fs ->
  ascending base (array_members base size n fs).
Proof.
  intros A F. unfold array_members.
  assert (H : forall m s, ascending (base + size * N.of_nat s)
     (flat_map (fun i => map (fun f => (base + size * N.of_nat i + fst f, snd f)) fs) (List.seq s m))).
  { induction m as [|m IH]; intros s; [exact I|]. cbn [List.seq flat_map].
    apply ascending_app with (hi := base + size * N.of_nat (S s)).
    - nia.
    - clear - A. set (k := base + size * N.of_nat s). clearbody k.
      replace k with (k + 0) at 1 by lia. revert A. generalize 0.
      induction fs as [|f fs IH]; intros lo A; [exact I|]. destruct A as [A1 A2]. cbn [map ascending fst snd].
      split; [lia|]. replace (k + fst f + N.of_nat (snd f)) with (k + (fst f + N.of_nat (snd f))) by lia.
      now apply IH.
    - apply Forall_map. eapply Forall_impl; [|exact F]. intros [o k]. cbn [fst snd]. intros. nia.
    - apply IH. }
  specialize (H (N.to_nat n) 0%nat). eapply ascending_weaken; [|exact H]. lia.
Qed.

(** ** Order of the changes *)
Lemma flips_app fs gs e : flips (fs ++ gs) e = flips gs (flips fs e).
Proof. apply fold_left_app. Qed.
Lemma in_len_flips fs g : forall e, Forall (in_len e) fs -> in_len e g -> in_len (flips fs e) g.
Proof. intros e F H. unfold in_len in *. rewrite len_flips; auto. Qed.
Lemma flips_comm fs : forall gs e, Forall (in_len e) fs -> Forall (in_len e) gs ->
  Forall (fun f => Forall (apart f) gs) fs -> flips fs (flips gs e) = flips gs (flips fs e).
Proof.
  induction fs as [|f fs IH]; intros gs e F G A; [reflexivity|].
  inversion_clear F as [|? ? F1 F2]. inversion_clear A as [|? ? A1 A2].
  change (flips fs (flip (fst f) (snd f) (flips gs e)) = flips gs (flips fs (flip (fst f) (snd f) e))).
  rewrite flip_flips by auto. apply IH; auto.
  - eapply Forall_impl; [|exact F2]. intros x Hx. now apply in_len_flip.
  - eapply Forall_impl; [|exact G]. intros x Hx. now apply in_len_flip.
Qed.

Lemma in_block_len e lo f : in_block lo (len e) f -> in_len e f.
Proof. intros (_ & _ & H). exact H. Qed.

(** ** The members that are swapped *)
Lemma fixed_members_swapped ty misc f fs :
  fixed_payload ty = Some f -> fixed_swaps ty misc = Some fs -> ty <> R_KSYMBOL ->
  ty <> R_CGROUP /\ ascending 8 (fixed_members ty misc) /\ Forall (in_block 8 f) (fixed_members ty misc) /\
  forall e, f <= len e -> flips fs e = flips (fixed_members ty misc) e.
Proof.
  intros Hf Hs NK. apply known_types in Hf. cbn in Hf.
  assert (B : forall o n f, swap_size n -> 8 <= o -> o + N.of_nat n <= f -> in_block 8 f (o, n)) by (now repeat split).
  assert (S4 : swap_size 4) by (cbn; auto). assert (S8 : swap_size 8) by (cbn; auto).
  assert (S2 : swap_size 2) by (cbn; auto).
  assert (Fork : forall e, 32 <= len e ->
    flips [(8, 4%nat); (16, 4%nat); (12, 4%nat); (20, 4%nat); (24, 8%nat)] e =
    flips [(8, 4%nat); (12, 4%nat); (16, 4%nat); (20, 4%nat); (24, 8%nat)] e).
  { intros e L. change (flips [(20, 4%nat); (24, 8%nat)] (flip 12 4 (flip 16 4 (flip 8 4 e))) =
                        flips [(20, 4%nat); (24, 8%nat)] (flip 16 4 (flip 12 4 (flip 8 4 e)))).
    f_equal. apply (flip_comm (12, 4%nat) (16, 4%nat)); unfold in_len, apart; cbn [fst snd];
      rewrite ?len_flip; cbn [N.of_nat]; lia. }
  repeat (destruct Hf as [E|Hf];
    [injection E as <- <-; unfold fixed_swaps in Hs; revert Hs; pick_type; cbn [app];
     try discriminate; try (exfalso; now apply NK);
     cbn [fixed_members R_MMAP R_LOST R_COMM R_EXIT R_THROTTLE R_UNTHROTTLE R_FORK R_SAMPLE R_MMAP2 R_AUX R_ITRACE_START
          R_LOST_SAMPLES R_SWITCH R_SWITCH_CPU_WIDE R_NAMESPACES R_FINISHED_ROUND R_AUXTRACE_INFO R_AUXTRACE
          R_AUXTRACE_ERROR R_ID_INDEX R_THREAD_MAP R_STAT_CONFIG R_STAT R_STAT_ROUND R_TIME_CONV R_BPF_METADATA];
     try destruct (N.testbit misc 14); cbn [app];
     intros Hs; injection Hs as <-; (split; [discriminate|]); (split; [cbn; lia|]); (split;
       [repeat (apply Forall_cons; [apply B; [assumption|lia|cbn; lia]|]); apply Forall_nil
       |first [exact (fun _ _ => eq_refl)|exact Fork]])
    |]). contradiction.
Qed.

Lemma variable_members_swapped e f fs :
  whole_event e -> fixed_payload (ev_type e) = Some f -> f <= ev_size e -> ev_type e <> R_CGROUP ->
  variable_swaps e = Ok fs -> fs = variable_members e /\ ascending f fs.
Proof.
  intros W Hf Hs NC. assert (Hsz := ev_size_bound e (proj1 W)). unfold two16 in Hsz.
  assert (HT : h_type (header_at false e 0) = ev_type e) by reflexivity.
  assert (HS : h_size (header_at false e 0) = ev_size e) by reflexivity.
  assert (U : forall o, o + 8 <= len e -> ev_u64 e o = Ok (int_at false e o 8)) by (intros; now apply ev_u64_ok).
  assert (HL : len e = ev_size e) by (destruct W as (_ & _ & W); auto).
  unfold variable_swaps, variable_members. rewrite HT, HS. cbv zeta.
  destruct (N.eqb_spec (ev_type e) R_NAMESPACES) as [T|_].
  { rewrite T in Hf |- *. injection Hf as <-. rewrite U by lia. cbn [obind]. intros E. apply Ok_inj in E as <-.
    split; [reflexivity|]. apply ascending_array; [cbn; lia|repeat constructor; cbn; lia]. }
  destruct (N.eqb_spec (ev_type e) R_AUXTRACE_INFO) as [T|_].
  { rewrite T in Hf |- *. injection Hf as <-. intros E. apply Ok_inj in E as <-.
    split; [|apply ascending_array; [cbn; lia|repeat constructor; cbn; lia]].
    unfold sub64, two64. replace (ev_size e + 18446744073709551616 - 16)
        with (ev_size e - 16 + 1 * 18446744073709551616) by lia.
    rewrite N.mod_add by lia. rewrite N.mod_small by lia. reflexivity. }
  destruct (N.eqb_spec (ev_type e) R_ID_INDEX) as [T|_].
  { rewrite T in Hf |- *. injection Hf as <-. rewrite U by lia. cbn [obind]. intros E. apply Ok_inj in E as <-.
    split; [reflexivity|]. apply ascending_array; [cbn; lia|repeat constructor; cbn; lia]. }
  destruct (N.eqb_spec (ev_type e) R_THREAD_MAP) as [T|_].
  { rewrite T in Hf |- *. injection Hf as <-. rewrite U by lia. cbn [obind]. intros E. apply Ok_inj in E as <-.
    split; [reflexivity|]. apply ascending_array; [cbn; lia|repeat constructor; cbn; lia]. }
  destruct (N.eqb_spec (ev_type e) R_STAT_CONFIG) as [T|_].
  { rewrite T in Hf |- *. injection Hf as <-. rewrite U by lia. cbn [obind]. intros E. apply Ok_inj in E as <-.
    split; [reflexivity|]. apply ascending_array; [cbn; lia|repeat constructor; cbn; lia]. }
  destruct (N.eqb_spec (ev_type e) R_CGROUP) as [T|_]; [contradiction|].
  destruct (N.eqb_spec (ev_type e) R_TIME_CONV) as [T|_].
  { rewrite T in Hf |- *. injection Hf as <-. cbn [R_TIME_CONV]. destruct (ev_size e =? 56);
      intros E; apply Ok_inj in E as <-; (split; [reflexivity|]); cbn; lia. }
  destruct (existsb _ _) eqn:X; [|discriminate]. intros E. apply Ok_inj in E as <-. split; [|exact I].
  apply existsb_exists in X. destruct X as (t & I0 & X). apply N.eqb_eq in X. rewrite X. clear - I0.
  cbn in I0. repeat (destruct I0 as [<-|I0]; [reflexivity|]). contradiction.
Qed.

Lemma variable_members_kept e e' f :
  whole_event e -> fixed_payload (ev_type e) = Some f -> f <= len e ->
  (forall o k, o + k <= f -> slice e' o k = slice e o k) ->
  variable_members e' = variable_members e.
Proof.
  intros W Hf L H. assert (H8 := fixed_ge_8 _ _ Hf).
  assert (HH : header_at false e' 0 = header_at false e 0).
  { unfold header_at, int_at. cbv zeta. rewrite !H by (cbn; lia). reflexivity. }
  assert (U : forall o, o + 8 <= f -> int_at false e' o 8 = int_at false e o 8).
  { intros o Ho. unfold int_at. cbv zeta. change (N.of_nat 8) with 8. now rewrite H. }
  unfold variable_members. rewrite HH. change (h_type (header_at false e 0)) with (ev_type e).
  apply known_types in Hf. cbn in Hf.
  repeat (destruct Hf as [E|Hf]; [injection E as <- <-; rewrite ?U by lia; reflexivity|]). contradiction.
Qed.

(** ** What was read of an event of the other byte order *)
Lemma localise_other f e e' v :
  whole_event e -> fixed_payload (ev_type e) = Some f -> f <= ev_size e ->
  localise_event true f e = Ok (e', v) -> ev_type e <> R_KSYMBOL ->
  let ms := fixed_members (ev_type e) (ev_misc e) ++ variable_members e' in
  flips ms e' = e /\ Forall (in_block 8 (len e')) ms /\ all_apart ms.
Proof.
  intros W Hf Hs HL NK. assert (Hb := proj1 W). assert (HW : len e = ev_size e) by (destruct W as (_ & _ & W); auto).
  unfold localise_event in HL.
  destruct (fixed_swaps (ev_type e) (ev_misc e)) as [fs|] eqn:Efs; [|discriminate].
  destruct (fixed_members_swapped _ _ _ _ Hf Efs NK) as (NC & A & B & C).
  assert (F := fixed_swaps_block _ _ _ _ Hf Efs).
  assert (Wd : forall x, in_block 8 f x -> in_block 8 (len e) x).
  { intros [o n] (X1 & X2 & X3). split; [auto|]. cbn [fst snd] in *. lia. }
  destruct (flips_ok fs e 8 Hb) as (A1 & A2 & A3 & A4).
  { eapply Forall_impl; [|exact F]. exact Wd. }
  rewrite A1 in HL. cbn [obind] in HL. set (e1 := flips fs e) in *.
  destruct (header_kept e e1 A4) as (K1 & K2 & K3).
  assert (W1 : whole_event e1) by (split; [exact A3|]; destruct W as (_ & ? & ?); split; lia).
  assert (V := var_size e1 f (whole_raw _ W1)). rewrite K1, K3 in V. specialize (V Hf Hs).
  rewrite K3 in HL. destruct (variable_payload e1 (ev_size e - f)) as [v'| | | |]; try discriminate.
  cbn [obind] in HL. destruct V as [V1 V2].
  assert (D := variable_swaps_block e1 f v' f (N.le_refl _)). rewrite K1, K3 in D.
  specialize (D (fun X => False_ind _ (NC X)) W1 Hf Hs V1).
  destruct (variable_swaps e1) as [fs'| | | |] eqn:Efs'; try discriminate. cbn [obind] in HL.
  assert (M := variable_members_swapped e1 f fs' W1). rewrite K1, K3 in M.
  destruct (M Hf Hs NC Efs') as [M1 M2]. clear M.
  destruct (flips_ok fs' e1 f A3 D) as (C1 & C2 & C3 & C4). rewrite C1 in HL. cbn [obind] in HL.
  apply Ok_inj in HL. injection HL as <- <-.
  assert (VM : variable_members (flips fs' e1) = fs').
  { rewrite M1 at 2. apply (variable_members_kept e1 _ f W1); [congruence|lia|exact C4]. }
  rewrite VM. set (ms := fixed_members (ev_type e) (ev_misc e)) in *. cbv zeta.
  assert (AA : all_apart (ms ++ fs')).
  { apply (ascending_apart _ 8). apply (ascending_app _ _ 8 f); auto.
    - apply (fixed_ge_8 _ _ Hf).
    - eapply Forall_impl; [|exact B]. intros x (_ & _ & X). exact X. }
  assert (E1 : flips fs' e1 = flips (ms ++ fs') e).
  { rewrite flips_app. unfold e1. rewrite C by lia. reflexivity. }
  assert (FB : Forall (in_block 8 (len e)) (ms ++ fs')).
  { apply Forall_app. split; [eapply Forall_impl; [exact Wd|exact B]|].
    eapply Forall_impl; [|exact D]. intros x (X1 & X2 & X3). split; [auto|].
    assert (X4 := fixed_ge_8 _ _ Hf). split; lia. }
  assert (LL : len (flips fs' e1) = len e) by lia.
  split; [|split; [rewrite LL; exact FB|exact AA]].
  rewrite E1. apply flips_flips; [|exact AA].
  eapply Forall_impl; [|exact FB]. apply in_block_len.
Qed.

Lemma slice_split {A} (b : list A) o n m : slice b o (n + m) = slice b o n ++ slice b (o + n) m.
Proof.
  unfold slice. rewrite N2Nat.inj_add, firstn_add'. f_equal. f_equal. rewrite skipn_skipn'. f_equal. lia.
Qed.

Lemma flip_cons_app (a b c : list N) : flip (len a) (length b) (a ++ b ++ c) = a ++ rev b ++ c.
Proof.
  unfold flip. rewrite slice_app by auto. replace (N.to_nat (len a)) with (length a) by (unfold len; lia).
  rewrite firstn_app, Nat.sub_diag, firstn_O, app_nil_r, firstn_all. f_equal. f_equal.
  replace (N.to_nat (len a + N.of_nat (length b))) with (length (a ++ b)) by (unfold len; rewrite app_length; lia).
  rewrite app_assoc, skipn_app, Nat.sub_diag, skipn_all. reflexivity.
Qed.

(** The record in the data is the block read with its header reversed. *)
Lemma block_other b o (h := header_at true b o) :
  bytes_ok b = true -> 8 <= h_size h -> o + h_size h <= len b ->
  slice b o (h_size h) = flips header_members (new_block h (slice b (o + 8) (h_size h - 8))).
Proof.
  intros Hb H8 Hl. set (p := slice b (o + 8) (h_size h - 8)).
  assert (R : forall p n, p + N.of_nat n <= len b ->
    le_bytes n (int_at true b p n) = rev (slice b p (N.of_nat n))).
  { intros q n Hq. unfold int_at. cbv zeta.
    rewrite <- (le_bytes_of_le (rev (slice b q (N.of_nat n)))) at 2; [|rewrite bytes_ok_rev; now apply bytes_ok_slice].
    f_equal. assert (X := len_slice b q (N.of_nat n) Hq). rewrite rev_length. unfold len in X. lia. }
  unfold new_block.
  change (h_type h) with (int_at true b o 4). change (h_misc h) with (int_at true b (o + 4) 2).
  replace (le_bytes 2 (h_size h)) with (le_bytes 2 (int_at true b (o + 6) 2)) by reflexivity.
  rewrite !R by (change (N.of_nat 4) with 4; change (N.of_nat 2) with 2; lia).
  set (x := slice b o 4). set (y := slice b (o + 4) 2). set (z := slice b (o + 6) 2).
  assert (Lx : length x = 4%nat) by (unfold x; assert (X := len_slice b o 4 ltac:(lia)); unfold len in X; lia).
  assert (Ly : length y = 2%nat) by (unfold y; assert (X := len_slice b (o + 4) 2 ltac:(lia)); unfold len in X; lia).
  assert (Lz : length z = 2%nat) by (unfold z; assert (X := len_slice b (o + 6) 2 ltac:(lia)); unfold len in X; lia).
  assert (P : slice b o (h_size h) = x ++ y ++ z ++ p).
  { replace (h_size h) with (4 + (2 + (2 + (h_size h - 8)))) by lia. rewrite !slice_split.
    replace (o + 4 + 2) with (o + 6) by lia. replace (o + 6 + 2) with (o + 8) by lia. reflexivity. }
  rewrite P. unfold header_members, flips. cbn [fold_left fst snd].
  assert (Q1 := flip_cons_app [] (rev x) (rev y ++ rev z ++ p)). rewrite rev_involutive, rev_length, Lx in Q1.
  cbn [app] in Q1. change (len []) with 0 in Q1.
  change (N.of_nat 4) with 4. change (N.of_nat 2) with 2. fold x y z. rewrite Q1.
  assert (Q2 := flip_cons_app x (rev y) (rev z ++ p)). rewrite rev_involutive, rev_length, Ly in Q2.
  replace (len x) with 4 in Q2 by (unfold len; lia). rewrite Q2.
  assert (Q3 := flip_cons_app (x ++ y) (rev z) p). rewrite rev_involutive, rev_length, Lz in Q3.
  rewrite <- !app_assoc in Q3. replace (len (x ++ y)) with 6 in Q3 by (unfold len; rewrite app_length; lia).
  now rewrite Q3.
Qed.

Lemma event_other b o f e v (h := header_at true b o) :
  bytes_ok b = true -> 8 <= h_size h -> o + h_size h <= len b ->
  fixed_payload (h_type h) = Some f -> f <= h_size h -> h_type h <> 17 ->
  localise_event true f (new_block h (slice b (o + 8) (h_size h - 8))) = Ok (e, v) ->
  Forall (fun m => fst m + N.of_nat (snd m) <= len e) (all_members e) /\
  slice b o (h_size h) = other_order e.
Proof.
  intros Hb H8 Hl Hf Hs NK HL.
  destruct (block_is_record true b o Hb H8 Hl) as (W & T1 & T2 & T3 & _). fold h in W, T1, T2, T3.
  assert (BO := block_other b o Hb H8 Hl). fold h in BO. cbv zeta in W, T1, T2, T3, BO.
  set (e0 := new_block h (slice b (o + 8) (h_size h - 8))) in *.
  assert (F0 : fixed_payload (ev_type e0) = Some f) by congruence.
  assert (F1 : f <= ev_size e0) by lia.
  assert (X := localise_ok true f e0 W F0 F1). rewrite HL in X. destruct X as (W' & L' & K1 & K2 & _).
  destruct (localise_other f e0 e v W F0 F1 HL) as (Y1 & Y2 & Y3); [rewrite T1; exact NK|].
  rewrite BO. unfold other_order, all_members. cbv zeta.
  change (h_type (header_at false e 0)) with (ev_type e). change (h_misc (header_at false e 0)) with (ev_misc e).
  rewrite K1, K2. set (ms := fixed_members (ev_type e0) (ev_misc e0) ++ variable_members e) in *.
  assert (HH : Forall (in_len e) header_members).
  { assert (8 <= len e) by (destruct W' as (_ & ? & _); auto).
    repeat constructor; unfold in_len; cbn [fst snd N.of_nat]; lia. }
  split.
  { apply Forall_app. split; [exact HH|]. eapply Forall_impl; [|exact Y2]. apply in_block_len. }
  rewrite flips_app. rewrite <- flips_comm; [now rewrite Y1|exact HH| |].
  - eapply Forall_impl; [|exact Y2]. apply in_block_len.
  - repeat constructor; (eapply Forall_impl; [|exact Y2]); intros x (_ & X & _); left; cbn [fst snd N.of_nat]; lia.
Qed.

Lemma event_other_sw sw b o f e v (h := header_at sw b o) :
  sw = true -> bytes_ok b = true -> 8 <= h_size h -> o + h_size h <= len b ->
  fixed_payload (h_type h) = Some f -> f <= h_size h -> h_type h <> 17 ->
  localise_event sw f (new_block h (slice b (o + 8) (h_size h - 8))) = Ok (e, v) ->
  Forall (fun m => fst m + N.of_nat (snd m) <= len e) (all_members e) /\
  slice b o (h_size h) = other_order e.
Proof. intros ->. exact (event_other b o f e v). Qed.

(** ** Members one by one *)
Lemma fixed_members_ascending ty misc : ascending 8 (fixed_members ty misc).
Proof.
  unfold fixed_members. destruct ty as [|p]; [exact I|].
  do 7 (try destruct p as [p|p|]); cbn; try destruct (N.testbit misc 14); cbn; lia.
Qed.
Definition fixed_end (ty : N) : N :=
  match ty with 16 => 24 | 69 | 70 | 73 | 75 => 16 | 79 => 32 | _ => 8 end.
Lemma all_members_apart e : all_apart (all_members e).
Proof.
  unfold all_members. cbv zeta. set (ty := h_type (header_at false e 0)).
  assert (V : variable_members e = [] \/
    (ascending (fixed_end ty) (variable_members e) /\ 8 <= fixed_end ty /\
     Forall (fun f => fst f + N.of_nat (snd f) <= fixed_end ty) (fixed_members ty (h_misc (header_at false e 0))))).
  { unfold variable_members. fold ty.
    destruct (N.eq_dec ty 16) as [->|]; [|destruct (N.eq_dec ty 69) as [->|]; [|destruct (N.eq_dec ty 70) as [->|];
      [|destruct (N.eq_dec ty 73) as [->|]; [|destruct (N.eq_dec ty 75) as [->|]; [|destruct (N.eq_dec ty 79) as [->|]]]]]].
    all: try (right; cbn [fixed_end fixed_members]; split;
      [apply ascending_array; [cbn; lia|repeat constructor; cbn; lia]|split; [lia|repeat constructor; cbn; lia]]).
    - right. cbn [fixed_end fixed_members]. split; [|split; [lia|repeat constructor; cbn; lia]].
      destruct (_ =? 56); cbn; lia.
    - left. destruct ty as [|p]; [reflexivity|].
      do 7 (try destruct p as [p|p|]); try reflexivity; congruence. }
  apply (ascending_apart _ 0). apply (ascending_app _ _ 0 8); [lia|cbn; lia|repeat constructor; cbn; lia|].
  destruct V as [->|(V1 & V2 & V3)].
  - rewrite app_nil_r. apply fixed_members_ascending.
  - apply (ascending_app _ _ 8 (fixed_end ty)); auto. apply fixed_members_ascending.
Qed.

Lemma other_number b o e p n :
  Forall (fun m => fst m + N.of_nat (snd m) <= len e) (all_members e) ->
  slice b o (len e) = other_order e -> In (p, n) (all_members e) ->
  int_at true b (o + p) n = int_at false e p n.
Proof.
  intros F H I0. assert (A := all_members_apart e).
  assert (S := slice_flips_in (all_members e) e (p, n) F A I0). cbn [fst snd] in S.
  fold (other_order e) in S. rewrite <- H in S.
  assert (L : p + N.of_nat n <= len e) by (rewrite Forall_forall in F; exact (F _ I0)).
  rewrite slice_slice in S by lia.
  unfold int_at. cbv zeta. rewrite S, rev_involutive. reflexivity.
Qed.
Lemma other_rest b o e p n :
  Forall (fun m => fst m + N.of_nat (snd m) <= len e) (all_members e) ->
  slice b o (len e) = other_order e -> p + n <= len e ->
  Forall (fun m => fst m + N.of_nat (snd m) <= p \/ p + n <= fst m) (all_members e) ->
  slice b (o + p) n = slice e p n.
Proof.
  intros F H L A.
  rewrite <- (slice_flips_apart (all_members e) e p n F L).
  - fold (other_order e). rewrite <- H. rewrite slice_slice by lia. reflexivity.
  - eapply Forall_impl; [|exact A]. intros x [X|X]; [left|right]; cbn [fst snd]; lia.
Qed.
