(** Proofs about files and notes. *)
From Coq Require Import String Lia.
From Verif Require Import Base BytesModel BytesProofs BytesMoreProofs TextModel Assoc BufferModel BufferSpec
  BufferProofs HugePageProofs ParserModel DsoModel DsoSpec.
Local Open Scope N_scope.
Local Open Scope list_scope.
Local Notation length := List.length.

(** ** Files and memory *)
Definition alike (b : list N) (r : reader) (f : file_reader) : Prop :=
  rbuf r = b /\ roff r <= len b /\
  fr_bytes f = b /\ fr_seekable f = true /\ fr_pos f = roff r /\ fr_size f = len b.

Lemma len_slice (b : list N) o n : o + n <= len b -> len (slice b o n) = n.
Proof.
  intros H. unfold slice, len in *. rewrite firstn_length, skipn_length. lia.
Qed.

Lemma data_alike b r f n :
  len b < two63 -> n < two64 -> alike b r f ->
  (fst (read_data n r) = fst (fr_read_data n f) /\
   (exists d, fst (read_data n r) = Ok d) /\ alike b (snd (read_data n r)) (snd (fr_read_data n f))) \/
  (read_data n r = (Fail, r) /\ fr_read_data n f = (Fail, f)).
Proof.
  intros L Hn (E1 & E2 & E3 & E4 & E5 & E6). unfold read_data, fr_read_data, read_rejected.
  rewrite E4, E5, E6, E1, E3. cbn [negb].
  destruct ((max64 - n <? roff r) || (len b <? w64 (roff r + n))) eqn:C; [right; split; reflexivity|].
  apply Bool.orb_false_iff in C as [C1 C2]. apply N.ltb_ge in C1, C2.
  assert (W : w64 (roff r + n) = roff r + n).
  { apply w64_small. unfold max64, two64 in *. lia. }
  rewrite W in *. unfold mem_read. replace (roff r + n <=? len b) with true by lia.
  rewrite len_slice by exact C2. rewrite N.ltb_irrefl. left. cbn [fst snd].
  split; [reflexivity|]. split; [eauto|].
  unfold alike, set_off, fr_set_pos. cbn. rewrite E1, E3, E4, E6.
  repeat split; lia.
Qed.

Lemma data_string_alike b r f n :
  len b < two63 -> n < two64 -> alike b r f ->
  (fst (read_data_string n r) = fst (fr_read_data_string n f) /\
   (exists d, fst (read_data_string n r) = Ok d) /\
   alike b (snd (read_data_string n r)) (snd (fr_read_data_string n f))) \/
  (read_data_string n r = (Fail, r) /\ fr_read_data_string n f = (Fail, f)).
Proof.
  intros L Hn A. unfold read_data_string, fr_read_data_string.
  destruct (n =? 0); [left; cbn; eauto|].
  destruct (two63 - 1 <? n); [right; split; reflexivity|]. now apply data_alike.
Qed.

Lemma string_alike b r f n :
  len b < two63 -> n < two64 -> alike b r f ->
  (fst (read_string n r) = fst (fr_read_string n f) /\
   (exists d, fst (read_string n r) = Ok d) /\
   alike b (snd (read_string n r)) (snd (fr_read_string n f))) \/
  (read_string n r = (Fail, r) /\ fr_read_string n f = (Fail, f)).
Proof.
  intros L Hn A. pose proof A as (E1 & E2 & E3 & E4 & E5 & E6).
  assert (S : read_string n r =
              match read_data n r with
              | (Ok d, r') => (Ok (firstn (N.to_nat (strnlen d)) d), r')
              | x => x end).
  { unfold read_string, read_data. destruct (read_rejected r n); [reflexivity|].
    now destruct (mem_read (rbuf r) (roff r) n). }
  rewrite S. unfold fr_read_string, fr_read_data_string.
  destruct (n =? 0) eqn:Z.
  - apply N.eqb_eq in Z. subst n.
    destruct (data_alike b r f 0 L Hn A) as [(F1 & (d & D) & F2)|[F1 F2]].
    + left. destruct (read_data 0 r) as [x r'] eqn:E. cbn [fst] in D. subst x.
      assert (X := read_data_ok r 0). rewrite E in X.
      assert (W : reader_words r = true).
      { unfold reader_words. rewrite E1. unfold two63, two64 in *. apply andb_true_intro. split; lia. }
      destruct (X W Hn) as (pre & post & X1 & X2 & X3 & X4 & X5 & X6).
      assert (d = []) as -> by (destruct d; [reflexivity|exfalso; clear - X3; unfold len in X3; cbn in X3; lia]).
      cbn. split; [reflexivity|]. split; [eauto|]. unfold alike. rewrite X4, X5.
      replace (roff r + 0) with (roff r) by lia. easy.
    + exfalso. unfold read_data in F1. destruct (read_rejected r 0) eqn:Q.
      * unfold read_rejected in Q. rewrite E1 in Q. replace (roff r + 0) with (roff r) in Q by lia.
        rewrite w64_small in Q by (unfold two63, two64 in *; lia).
        unfold max64, two63, two64 in *. lia.
      * unfold mem_read in F1. rewrite E1 in F1. replace (roff r + 0 <=? len b) with true in F1 by lia.
        discriminate.
  - destruct (two63 - 1 <? n) eqn:B.
    + right. split; [|reflexivity].
      unfold read_data. replace (read_rejected r n) with true; [reflexivity|].
      unfold read_rejected. rewrite E1. symmetry.
      destruct (max64 - n <? roff r) eqn:Q; [reflexivity|]. cbn [orb].
      apply N.ltb_ge in Q. rewrite w64_small by (unfold max64, two63, two64 in *; lia).
      unfold two63 in *. lia.
    + destruct (data_alike b r f n L Hn A) as [(F1 & (d & D) & F2)|[F1 F2]].
      * left. destruct (read_data n r) as [x r']. destruct (fr_read_data n f) as [y f'].
        cbn [fst snd] in *. subst x. subst y. cbn [fst snd]. eauto.
      * right. rewrite F1, F2. split; reflexivity.
Qed.

Lemma run_alike {A} (c : client A) b : len b < two63 -> words c -> forall r f, alike b r f ->
  run seek_set tell (fun r => len (rbuf r)) read_data read_string read_data_string c r =
  run fr_seek fr_tell fr_size fr_read_data fr_read_string fr_read_data_string c f
  /\ exists a, run_on_file c f = Some a.
Proof.
  intros L. unfold run_on_file. induction c as [a|o k IH|k IH|k IH|n k IH|n k IH|n k IH]; intros W r f H;
    cbn [run words] in *.
  - eauto.
  - destruct W as [_ W]. pose proof H as (E1 & E2 & E3 & E4 & E5 & E6).
    unfold seek_set, fr_seek. rewrite E1, E4, E6.
    destruct (len b <? o) eqn:C; cbn [answer]; [now apply IH|].
    apply IH; [apply W|]. unfold alike, set_off, fr_set_pos. cbn. rewrite E1, E3, E4, E6. repeat split; lia.
  - pose proof H as (E1 & E2 & E3 & E4 & E5 & E6). unfold fr_tell, tell. rewrite E4, E5. now apply IH.
  - pose proof H as (E1 & E2 & E3 & E4 & E5 & E6). rewrite E6, E1. now apply IH.
  - destruct W as [Wn W]. destruct (data_alike b r f n L Wn H) as [(F1 & (d & D) & F2)|[F1 F2]].
    + destruct (read_data n r) as [x r']. destruct (fr_read_data n f) as [y f'].
      cbn [fst snd] in *. subst x. subst y. cbn [answer]. now apply IH.
    + rewrite F1, F2. cbn [answer]. now apply IH.
  - destruct W as [Wn W]. destruct (string_alike b r f n L Wn H) as [(F1 & (d & D) & F2)|[F1 F2]].
    + destruct (read_string n r) as [x r']. destruct (fr_read_string n f) as [y f'].
      cbn [fst snd] in *. subst x. subst y. cbn [answer]. now apply IH.
    + rewrite F1, F2. cbn [answer]. now apply IH.
  - destruct W as [Wn W]. destruct (data_string_alike b r f n L Wn H) as [(F1 & (d & D) & F2)|[F1 F2]].
    + destruct (read_data_string n r) as [x r']. destruct (fr_read_data_string n f) as [y f'].
      cbn [fst snd] in *. subst x. subst y. cbn [answer]. now apply IH.
    + rewrite F1, F2. cbn [answer]. now apply IH.
Qed.

Lemma open_alike b : alike b (mkReader b 0 false) (fr_open b true).
Proof. unfold alike, fr_open. cbn. repeat split; lia. Qed.

(** ** Notes *)
Lemma align4_value v : v + 3 < two64 -> align 4 v = 4 * ((v + 3) / 4).
Proof.
  intros H. change 4 with (2 ^ 2) at 1. rewrite align_value by lia.
  rewrite w64_small by (change (2 ^ 2 - 1) with 3; auto). reflexivity.
Qed.

Lemma align4_lt v : align 4 v < two64.
Proof.
  change 4 with (2 ^ 2). rewrite align_value by lia. change (2 ^ 2) with 4.
  set (x := w64 _). assert (x < two64) by (unfold x, w64; apply N.mod_lt; discriminate).
  clearbody x. pose proof (N.mul_div_le x 4 ltac:(discriminate)). lia.
Qed.

Lemma note_alike fuel b : len b < two63 -> bytes_ok b = true -> forall r f, alike b r f ->
  read_build_id_note read_data read_string read_data_string fuel r =
  read_build_id_note fr_read_data fr_read_string fr_read_data_string fuel f.
Proof.
  intros L B. induction fuel as [|fuel IH]; intros r f H; [reflexivity|]. cbn [read_build_id_note].
  destruct (data_alike b r f 12 L ltac:(reflexivity) H) as [(F1 & (d & D) & F2)|[F1 F2]];
    [|now rewrite F1, F2].
  destruct (read_data 12 r) as [x r1]. destruct (fr_read_data 12 f) as [y f1].
  cbn [fst snd] in *. subst x. subst y.
  assert (A := align4_lt).
  destruct (string_alike b r1 f1 _ L (A (note_word 0 d)) F2) as [(G1 & (n & Dn) & G2)|[G1 G2]];
    [|now rewrite G1, G2].
  destruct (read_string _ r1) as [x r2]. destruct (fr_read_string _ f1) as [y f2].
  cbn [fst snd] in *. subst x. subst y.
  destruct (data_string_alike b r2 f2 _ L (A (note_word 1 d)) G2) as [(K1 & (e & De) & K2)|[K1 K2]];
    [|now rewrite K1, K2].
  destruct (read_data_string _ r2) as [x r3]. destruct (fr_read_data_string _ f2) as [y f3].
  cbn [fst snd] in *. subst x. subst y.
  destruct (is_build_id_note _ _); [reflexivity|]. now apply IH.
Qed.

Lemma len_padded4 l : len (l ++ padding l) = 4 * ((len l + 3) / 4).
Proof.
  unfold padding. rewrite len_app. unfold len at 2. rewrite repeat_length, N2Nat.id.
  pose proof (N.div_mod (len l) 4 ltac:(discriminate)) as D.
  pose proof (N.mod_lt (len l) 4 ltac:(discriminate)) as M.
  set (q := len l / 4) in *. set (m := len l mod 4) in *. clearbody q m.
  assert (E : (len l + 3) / 4 = if m =? 0 then q else q + 1).
  { destruct (m =? 0) eqn:Z; symmetry.
    - apply (N.div_unique _ 4 _ 3); [lia|]. lia.
    - apply (N.div_unique _ 4 _ (m - 1)); lia. }
  rewrite E. destruct (m =? 0) eqn:Z.
  - replace m with 0 by lia. change ((4 - 0) mod 4) with 0. lia.
  - rewrite N.mod_small by lia. lia.
Qed.

Lemma until_nul_padding l s : until_nul l s -> until_nul (l ++ padding l) s.
Proof.
  intros [H (rest & -> & R)]. split; [exact H|]. rewrite <- app_assoc.
  eexists. split; [reflexivity|].
  destruct R as [->|[t ->]]; [|right; eexists; reflexivity].
  cbn [app]. unfold padding. destruct (N.to_nat _); [now left|right; eexists; reflexivity].
Qed.

Lemma until_nul_unpadding l s : until_nul (l ++ padding l) s -> until_nul l s.
Proof.
  intros H.
  assert (U := until_nul_strnlen l).
  now rewrite (until_nul_unique _ _ _ H (until_nul_padding _ _ U)).
Qed.

Lemma is_build_id_iff ty l :
  is_build_id_note ty (firstn (N.to_nat (strnlen l)) l) = true <->
  ty = 3 /\ until_nul l (str "GNU").
Proof.
  unfold is_build_id_note. rewrite Bool.andb_true_iff, N.eqb_eq, leqb_eq.
  assert (U := until_nul_strnlen l). split; intros [-> H]; split; try reflexivity.
  - now rewrite <- H.
  - exact (until_nul_unique _ _ _ U H).
Qed.

Lemma le4 v : v < two32 -> of_le (le_bytes 4 v) = v.
Proof. intros H. apply of_le_le_bytes. exact H. Qed.

Lemma length_le4 v : length (le_bytes 4 v) = 4%nat.
Proof. pose proof (len_le_bytes 4 v) as H. unfold len in H. lia. Qed.

Lemma note_words a b c : a < two32 -> b < two32 -> c < two32 ->
  let h := le_bytes 4 a ++ le_bytes 4 b ++ le_bytes 4 c in
  len h = 12 /\ note_word 0 h = a /\ note_word 1 h = b /\ note_word 2 h = c.
Proof.
  intros Ha Hb Hc h. unfold note_word, h.
  pose proof (length_le4 a) as La. pose proof (length_le4 b) as Lb. pose proof (length_le4 c) as Lc.
  split; [rewrite !len_app, !len_le_bytes; reflexivity|].
  rewrite <- (le4 a Ha) at 2. rewrite <- (le4 b Hb) at 3. rewrite <- (le4 c Hc) at 4.
  set (x := le_bytes 4 a) in *. set (y := le_bytes 4 b) in *. set (z := le_bytes 4 c) in *. clearbody x y z.
  do 5 (destruct x as [|? x]; try discriminate). do 5 (destruct y as [|? y]; try discriminate).
  do 5 (destruct z as [|? z]; try discriminate). repeat split.
Qed.

Lemma stored_note_shape n : note_ok n ->
  exists h, stored_note n = h ++ (n_name n ++ padding (n_name n)) ++ (n_desc n ++ padding (n_desc n)) /\
    len h = 12 /\ note_word 0 h = len (n_name n) /\ note_word 1 h = len (n_desc n) /\ note_word 2 h = n_type n.
Proof.
  intros (H1 & H2 & H3).
  exists (le_bytes 4 (len (n_name n)) ++ le_bytes 4 (len (n_desc n)) ++ le_bytes 4 (n_type n)). split.
  - unfold stored_note. rewrite <- !app_assoc. reflexivity.
  - apply note_words; assumption.
Qed.

Lemma words_in r pre d post : rbuf r = pre ++ d ++ post -> roff r = len pre -> len (rbuf r) < two63 ->
  reader_words r = true.
Proof.
  intros E O L. unfold reader_words. assert (len pre <= len (rbuf r)) by (rewrite E, len_app; lia).
  unfold two63, two64 in *. apply andb_true_intro. split; lia.
Qed.

Lemma read_data_string_app r pre d post :
  rbuf r = pre ++ d ++ post -> roff r = len pre -> len (rbuf r) < two63 ->
  read_data_string (len d) r = (Ok d, set_off r (roff r + len d)).
Proof.
  intros E O L. unfold read_data_string. destruct (len d =? 0) eqn:Z.
  - apply N.eqb_eq in Z. destruct d; [|unfold len in Z; cbn in Z; lia].
    change (len []) with 0. rewrite N.add_0_r. destruct r; reflexivity.
  - replace (two63 - 1 <? len d) with false.
    + eapply read_data_app; eauto using words_in.
    + symmetry. apply N.ltb_ge. assert (len d <= len (rbuf r)) by (rewrite E, !len_app; lia). lia.
Qed.

Lemma note_step fuel n pre post r : note_ok n ->
  rbuf r = pre ++ stored_note n ++ post -> roff r = len pre -> len (rbuf r) < two63 ->
  let r' := set_off r (len pre + len (stored_note n)) in
  (gnu_build_id n ->
   read_build_id_note read_data read_string read_data_string (S fuel) r = Ok (n_desc n ++ padding (n_desc n))) /\
  (~ gnu_build_id n ->
   read_build_id_note read_data read_string read_data_string (S fuel) r =
   read_build_id_note read_data read_string read_data_string fuel r').
Proof.
  intros K E O L r'. destruct (stored_note_shape n K) as (h & Eh & Lh & W0 & W1 & W2).
  destruct K as (K1 & K2 & K3).
  set (nm := n_name n ++ padding (n_name n)) in *. set (de := n_desc n ++ padding (n_desc n)) in *.
  assert (A0 : align 4 (note_word 0 h) = len nm).
  { rewrite W0. unfold nm. rewrite len_padded4. apply align4_value. unfold two32, two64 in *. lia. }
  assert (A1 : align 4 (note_word 1 h) = len de).
  { rewrite W1. unfold de. rewrite len_padded4. apply align4_value. unfold two32, two64 in *. lia. }
  rewrite Eh in E. rewrite <- !app_assoc in E.
  cbn [read_build_id_note].
  assert (D : read_data 12 r = (Ok h, set_off r (roff r + len h))).
  { rewrite <- Lh at 1. apply (read_data_app r pre h (nm ++ de ++ post)); eauto using words_in. }
  rewrite D. clear D.
  rewrite A0, A1.
  set (r1 := set_off r (roff r + len h)).
  assert (E1 : rbuf r1 = (pre ++ h) ++ nm ++ de ++ post) by (unfold r1; cbn [rbuf set_off]; rewrite E, <- app_assoc; reflexivity).
  assert (O1 : roff r1 = len (pre ++ h)) by (unfold r1; cbn [roff set_off]; rewrite O, len_app; reflexivity).
  assert (L1 : len (rbuf r1) < two63) by exact L.
  rewrite (read_string_app r1 (pre ++ h) nm (de ++ post)) by eauto using words_in.
  set (r2 := set_off r1 (roff r1 + len nm)).
  assert (E2 : rbuf r2 = ((pre ++ h) ++ nm) ++ de ++ post) by (unfold r2; cbn [rbuf set_off]; rewrite E1, <- !app_assoc; reflexivity).
  assert (O2 : roff r2 = len ((pre ++ h) ++ nm)) by (unfold r2; cbn [roff set_off]; rewrite O1, (len_app (pre ++ h)); reflexivity).
  assert (L2 : len (rbuf r2) < two63) by exact L.
  rewrite (read_data_string_app r2 _ de post E2 O2 L2).
  assert (G : is_build_id_note (note_word 2 h) (firstn (N.to_nat (strnlen nm)) nm) = true <-> gnu_build_id n).
  { rewrite is_build_id_iff, W2. unfold gnu_build_id, nm. split; intros [? ?]; split; auto using until_nul_padding, until_nul_unpadding. }
  split; intros H.
  - apply G in H. now rewrite H.
  - destruct (is_build_id_note _ _) eqn:B; [exfalso; apply H, G; reflexivity|].
    f_equal. unfold r', r2, r1, set_off. cbn [rbuf roff rswap]. f_equal.
    rewrite Eh, !len_app. lia.
Qed.

Lemma stored_note_len n : 12 <= len (stored_note n).
Proof. unfold stored_note. rewrite !len_app, !len_le_bytes. lia. Qed.

Lemma notes_buffer ns : Forall note_ok ns -> forall fuel pre post r,
  rbuf r = pre ++ flat_map stored_note ns ++ post -> roff r = len pre -> len (rbuf r) < two63 ->
  (length (flat_map stored_note ns) < fuel)%nat ->
  (forall n, first_build_id ns n ->
     read_build_id_note read_data read_string read_data_string fuel r = Ok (n_desc n ++ padding (n_desc n))) /\
  (Forall (fun n => ~ gnu_build_id n) ns -> len post < 12 ->
     read_build_id_note read_data read_string read_data_string fuel r = Fail).
Proof.
  induction 1 as [|n ns K _ IH]; intros fuel pre post r E O L F.
  - split; [intros n (l1 & l2 & C & _); destruct l1; discriminate|].
    intros _ P. destruct fuel; [lia|]. cbn [read_build_id_note].
    assert (W : reader_words r = true) by (eapply words_in; eauto).
    rewrite read_data_eq by (auto; reflexivity).
    replace (roff r + 12 <=? len (rbuf r)) with false; [reflexivity|].
    symmetry. apply N.leb_gt. rewrite E, O. cbn [flat_map app]. rewrite len_app. lia.
  - cbn [flat_map] in *. rewrite <- app_assoc in E. rewrite app_length in F.
    destruct fuel as [|fuel]; [lia|].
    destruct (note_step fuel n pre (flat_map stored_note ns ++ post) r K E O L) as [S1 S2].
    set (r' := set_off r (len pre + len (stored_note n))) in *.
    assert (Ln := stored_note_len n).
    destruct (IH fuel (pre ++ stored_note n) post r') as [I1 I2].
    + unfold r'. cbn [rbuf set_off]. rewrite E, <- app_assoc. reflexivity.
    + unfold r'. cbn [roff set_off]. now rewrite len_app.
    + exact L.
    + unfold len in Ln. lia.
    + split.
      * intros m (l1 & l2 & C & G & A). destruct l1 as [|x l1]; injection C as -> C; [now apply S1|].
        inversion A; subst. rewrite S2 by assumption. apply I1. exists l1, l2. auto.
      * intros A P. inversion A; subst. rewrite S2 by assumption. now apply I2.
Qed.

Lemma note_unfold {R} (rd rs rds : N -> R -> outcome (list N) * R) fuel r :
  read_build_id_note rd rs rds (S fuel) r =
  match rd 12 r with
  | (Ok h, r) =>
      match rs (align 4 (note_word 0 h)) r with
      | (Ok name, r) =>
          match rds (align 4 (note_word 1 h)) r with
          | (Ok desc, r) =>
              if is_build_id_note (note_word 2 h) name then Ok desc
              else read_build_id_note rd rs rds fuel r
          | (o, _) => o
          end
      | (o, _) => o
      end
  | (o, _) => o
  end.
Proof. reflexivity. Qed.

(** Whatever the bytes are. *)
Definition cut_of (b : list N) (x : outcome (list N)) : Prop :=
  match x with
  | Ok d => exists l1 l2, b = l1 ++ d ++ l2
  | Fail => True
  | _ => False
  end.

Lemma off_words r b o : len b < two63 -> rbuf r = b -> o <= len b -> reader_words (set_off r o) = true.
Proof.
  intros L E H. unfold reader_words. cbn [rbuf roff set_off]. rewrite E.
  unfold two63, two64 in *. apply andb_true_intro. split; lia.
Qed.

Lemma note_safe_tail b ty v w (go : reader -> outcome (list N)) r1 :
  len b < two63 -> v < two64 -> w < two64 -> rbuf r1 = b -> roff r1 <= len b ->
  (forall r, rbuf r = b -> roff r <= len b -> roff r1 <= roff r -> cut_of b (go r)) ->
  cut_of b (match read_string v r1 with
            | (Ok name, r) =>
                match read_data_string w r with
                | (Ok desc, r) => if is_build_id_note ty name then Ok desc else go r
                | (o, _) => o
                end
            | (o, _) => o
            end).
Proof.
  intros L Hv Hw E1 O1 G.
  assert (W1 : reader_words r1 = true) by (pose proof (off_words r1 b (roff r1) L E1 O1); destruct r1; assumption).
  rewrite read_string_eq by auto. cbv zeta. rewrite E1.
  destruct (N.leb_spec (roff r1 + v) (len b)) as [H1|H1]; [|exact Logic.I].
  assert (W2 := off_words r1 b (roff r1 + v) L E1 H1).
  remember (set_off r1 (roff r1 + v)) as r2 eqn:R2.
  assert (E2 : rbuf r2 = b) by (rewrite R2; exact E1).
  assert (O2 : roff r2 = roff r1 + v) by (rewrite R2; reflexivity). clear R2.
  assert (X := read_data_string_ok r2 w W2 Hw ltac:(rewrite E2; exact L) ltac:(rewrite E2, O2; exact H1)).
  destruct (read_data_string w r2) as [[d| | | |] r3]; try contradiction; [|exact Logic.I].
  destruct X as (pre & post & X1 & X2 & X3 & X4 & X5 & X6).
  destruct (is_build_id_note _ _).
  - rewrite E2 in X1. cbn [cut_of]. eauto.
  - assert (Q : len b = len pre + len d + len post) by (rewrite <- E2, X1, !len_app; lia).
    apply G; [congruence|rewrite X5; lia|rewrite X5; lia].
Qed.

Lemma note_safe b : len b < two63 -> forall fuel r, rbuf r = b -> roff r <= len b ->
  (N.to_nat (len b - roff r) < fuel)%nat ->
  cut_of b (read_build_id_note read_data read_string read_data_string fuel r).
Proof.
  intros L. induction fuel as [|fuel IH]; intros r E O F; [lia|]. rewrite note_unfold.
  assert (W : reader_words r = true) by (pose proof (off_words r b (roff r) L E O); destruct r; assumption).
  assert (B12 : 12 < two64) by reflexivity.
  assert (P : 0 < 12) by reflexivity.
  revert B12 P. generalize 12. intros k B12 P.
  rewrite read_data_eq by assumption. rewrite E.
  destruct (N.leb_spec (roff r + k) (len b)) as [H|H]; [|exact Logic.I].
  apply note_safe_tail; auto using align4_lt.
  intros r' E' O' G. apply IH; [assumption|assumption|]. cbn [roff set_off] in G. lia.
Qed.

(** ** Notes of a section *)
Lemma align4_add a v : a mod 4 = 0 -> a + v + 3 < two64 -> align 4 (a + v) = a + 4 * ((v + 3) / 4).
Proof.
  intros H B. rewrite align4_value by exact B.
  pose proof (N.div_mod a 4 ltac:(discriminate)) as D. rewrite H in D.
  set (q := a / 4) in *. replace (a + v + 3) with (v + 3 + q * 4) by lia.
  rewrite N.div_add by discriminate. lia.
Qed.

Lemma slice_mid (a d b : list N) : slice (a ++ d ++ b) (len a) (len d) = d.
Proof. now apply slice_app. Qed.

Lemma getnote n pre post : note_ok n -> len pre mod 4 = 0 ->
  len (pre ++ stored_note n ++ post) < two63 ->
  exists h, gelf_getnote (pre ++ stored_note n ++ post) (len pre) =
      Some (h, len pre + 12, len pre + 12 + len (n_name n ++ padding (n_name n)), len pre + len (stored_note n)) /\
    note_word 0 h = len (n_name n) /\ note_word 1 h = len (n_desc n) /\ note_word 2 h = n_type n.
Proof.
  intros K M L. destruct (stored_note_shape n K) as (h & Eh & Lh & W0 & W1 & W2).
  destruct K as (K1 & K2 & K3).
  set (nm := n_name n ++ padding (n_name n)) in *. set (de := n_desc n ++ padding (n_desc n)) in *.
  assert (Q0 : len nm = 4 * ((len (n_name n) + 3) / 4)) by apply len_padded4.
  assert (Q1 : len de = 4 * ((len (n_desc n) + 3) / 4)) by apply len_padded4.
  assert (P0 : len (n_name n) <= len nm) by (unfold nm; rewrite len_app; lia).
  assert (P1 : len (n_desc n) <= len de) by (unfold de; rewrite len_app; lia).
  set (d := pre ++ stored_note n ++ post) in *.
  assert (Ld : len d = len pre + 12 + len nm + len de + len post) by (unfold d; rewrite Eh, !len_app; lia).
  exists h. split; [|auto].
  assert (S : slice d (len pre) 12 = h).
  { unfold d. rewrite Eh, <- !app_assoc, <- Lh. apply slice_mid. }
  unfold gelf_getnote.
  replace ((len d <? len pre) || (len d - len pre <? 12)) with false
    by (symmetry; apply Bool.orb_false_iff; split; apply N.ltb_ge; lia).
  cbv zeta. rewrite S, W0, W1.
  replace ((len d <? len (n_name n)) || (len d - len (n_name n) <? len pre + 12)) with false
    by (symmetry; apply Bool.orb_false_iff; split; apply N.ltb_ge; lia).
  assert (M12 : (len pre + 12) mod 4 = 0) by (rewrite N.add_mod, M by discriminate; reflexivity).
  assert (A0 : align 4 (len pre + 12 + len (n_name n)) = len pre + 12 + len nm).
  { rewrite align4_add by (auto; unfold two63, two64 in *; lia). now rewrite Q0. }
  rewrite A0.
  replace ((len d <? len (n_desc n)) || (len d - len (n_desc n) <? len pre + 12 + len nm)) with false
    by (symmetry; apply Bool.orb_false_iff; split; apply N.ltb_ge; lia).
  do 2 f_equal.
  rewrite align4_add.
  - rewrite <- Q1. rewrite Eh, !len_app. lia.
  - rewrite N.add_mod, M12, Q0 by discriminate. rewrite (N.mul_comm 4), N.mod_mul by discriminate. reflexivity.
  - unfold two63, two64 in *. lia.
Qed.

Lemma stored_note_mod n : note_ok n -> len (stored_note n) mod 4 = 0.
Proof.
  intros K. destruct (stored_note_shape n K) as (h & -> & Lh & _).
  rewrite len_app, (len_app (_ ++ _)), Lh, !len_padded4.
  replace (12 + _) with ((3 + (len (n_name n) + 3) / 4 + (len (n_desc n) + 3) / 4) * 4) by lia.
  now apply N.mod_mul.
Qed.

Lemma notes_section ns : Forall note_ok ns -> forall fuel pre post,
  len pre mod 4 = 0 -> len (pre ++ flat_map stored_note ns ++ post) < two63 ->
  (length (flat_map stored_note ns) < fuel)%nat ->
  (forall n, first_build_id ns n ->
     section_build_id fuel (pre ++ flat_map stored_note ns ++ post) (len pre) = Ok (n_desc n)) /\
  (Forall (fun n => ~ gnu_build_id n) ns -> len post < 12 ->
     section_build_id fuel (pre ++ flat_map stored_note ns ++ post) (len pre) = Fail).
Proof.
  induction 1 as [|n ns K _ IH]; intros fuel pre post M L F.
  - split; [intros n (l1 & l2 & C & _); destruct l1; discriminate|].
    intros _ P. destruct fuel; [lia|]. cbn [section_build_id flat_map app].
    unfold gelf_getnote. rewrite len_app.
    replace ((len pre + len post <? len pre) || (len pre + len post - len pre <? 12)) with true; [reflexivity|].
    symmetry. apply Bool.orb_true_iff. right. apply N.ltb_lt. lia.
  - cbn [flat_map] in *. rewrite <- app_assoc in *. rewrite app_length in F.
    destruct fuel as [|fuel]; [lia|]. cbn [section_build_id].
    destruct (getnote n pre (flat_map stored_note ns ++ post) K M L) as (h & -> & W0 & W1 & W2).
    destruct (stored_note_shape n K) as (h' & Eh & Lh & _).
    set (d := pre ++ stored_note n ++ flat_map stored_note ns ++ post) in *.
    rewrite W0, W1.
    assert (R0 : mem_read d (len pre + 12) (len (n_name n)) = Ok (n_name n)).
    { unfold mem_read.
      assert (X : d = (pre ++ h') ++ n_name n ++ padding (n_name n) ++ (n_desc n ++ padding (n_desc n)) ++ flat_map stored_note ns ++ post)
        by (unfold d; rewrite Eh, <- !app_assoc; reflexivity).
      replace (len pre + 12) with (len (pre ++ h')) by (rewrite len_app; lia).
      replace (len (pre ++ h') + len (n_name n) <=? len d) with true
        by (symmetry; apply N.leb_le; rewrite X, (len_app (pre ++ h')), (len_app (n_name n)); lia).
      rewrite X at 1. now rewrite slice_mid. }
    assert (R1 : mem_read d (len pre + 12 + len (n_name n ++ padding (n_name n))) (len (n_desc n)) = Ok (n_desc n)).
    { unfold mem_read.
      assert (X : d = (pre ++ h' ++ n_name n ++ padding (n_name n)) ++ n_desc n ++ padding (n_desc n) ++ flat_map stored_note ns ++ post)
        by (unfold d; rewrite Eh, <- !app_assoc; reflexivity).
      replace (len pre + 12 + len (n_name n ++ padding (n_name n))) with (len (pre ++ h' ++ n_name n ++ padding (n_name n)))
        by (rewrite len_app, (len_app h'); lia).
      replace (_ <=? len d) with true
        by (symmetry; apply N.leb_le; rewrite X, (len_app (pre ++ _)), (len_app (n_desc n)); lia).
      rewrite X at 1. now rewrite slice_mid. }
    rewrite R0, R1. cbn [obind].
    assert (G : is_build_id_note (note_word 2 h) (firstn (N.to_nat (strnlen (n_name n))) (n_name n)) = true <-> gnu_build_id n)
      by (rewrite is_build_id_iff, W2; reflexivity).
    assert (Ln := stored_note_len n).
    assert (D : d = (pre ++ stored_note n) ++ flat_map stored_note ns ++ post) by (unfold d; now rewrite <- app_assoc).
    destruct (IH fuel (pre ++ stored_note n) post) as [I1 I2].
    + rewrite len_app, N.add_mod, M, (stored_note_mod n K) by discriminate. reflexivity.
    + rewrite <- D. exact L.
    + unfold len in Ln. lia.
    + rewrite <- D, len_app in I1, I2. split.
      * intros m (l1 & l2 & C & Gm & A). destruct l1 as [|x l1]; injection C as -> C.
        -- apply G in Gm. now rewrite Gm.
        -- inversion A; subst. destruct (is_build_id_note _ _) eqn:B; [exfalso; apply H1, G; reflexivity|].
           apply I1. exists l1, l2. auto.
      * intros A P. inversion A; subst. destruct (is_build_id_note _ _) eqn:B; [exfalso; apply H1, G; reflexivity|].
        now apply I2.
Qed.

Lemma section_safe d : len d < two63 -> forall fuel off, off mod 4 = 0 ->
  (N.to_nat (len d - off) < fuel)%nat ->
  match section_build_id fuel d off with
  | Ok b => exists l1 l2, d = l1 ++ b ++ l2
  | Fail => True
  | _ => False
  end.
Proof.
  intros L. induction fuel as [|fuel IH]; intros off M F; [lia|]. cbn [section_build_id].
  destruct (gelf_getnote d off) as [[[[h no] de] nx]|] eqn:G; [|exact Logic.I].
  unfold gelf_getnote in G.
  destruct (_ || _) eqn:C1 in G; [discriminate|]. apply Bool.orb_false_iff in C1 as [C1 C1'].
  cbv zeta in G. destruct (_ || _) eqn:C2 in G; [discriminate|]. apply Bool.orb_false_iff in C2 as [C2 C2'].
  destruct (_ || _) eqn:C3 in G; [discriminate|]. apply Bool.orb_false_iff in C3 as [C3 C3'].
  injection G as G1 G2 G3 G4. rewrite G1 in *.
  apply N.ltb_ge in C1, C1', C2, C2', C3, C3'. rewrite G2 in *. rewrite G3 in *.
  unfold mem_read at 1. replace (no + note_word 0 h <=? len d) with true by (symmetry; apply N.leb_le; lia).
  cbn [obind]. unfold mem_read. replace (de + note_word 1 h <=? len d) with true by (symmetry; apply N.leb_le; lia).
  cbn [obind]. destruct (is_build_id_note _ _).
  - exists (firstn (N.to_nat de) d), (skipn (N.to_nat (de + note_word 1 h)) d). apply BytesProofs.slice_split. lia.
  - assert (M1 : no mod 4 = 0) by (rewrite <- G2, N.add_mod, M by discriminate; reflexivity).
    rewrite align4_add in G3 by (auto; unfold two63, two64 in *; lia).
    assert (M2 : de mod 4 = 0).
    { rewrite <- G3, N.add_mod, M1 by discriminate. rewrite (N.mul_comm 4), N.mod_mul by discriminate. reflexivity. }
    rewrite align4_add in G4 by (auto; unfold two63, two64 in *; lia).
    apply IH; [|lia]. rewrite <- G4, N.add_mod, M2 by discriminate. rewrite (N.mul_comm 4), N.mod_mul by discriminate. reflexivity.
Qed.

(** ** Which section *)
Lemma list_eqb_sym a b : list_eqb a b = list_eqb b a.
Proof.
  destruct (list_eqb a b) eqn:E; symmetry.
  - apply leqb_eq in E. subst. now apply leqb_eq.
  - destruct (list_eqb b a) eqn:F; [|reflexivity]. apply leqb_eq in F. subst. rewrite <- E. symmetry. now apply leqb_eq.
Qed.

Definition orelse {A} (x y : option A) : option A := match x with Some _ => x | None => y end.

Lemma find_sections a b c l : Forall (fun s => fst s <> None) l -> forall found,
  find_elf_section [a; b; c] 1 found l = orelse (section_named a l) found /\
  find_elf_section [a; b; c] 2 found l = orelse (section_named a l) (orelse (section_named b l) found) /\
  find_elf_section [a; b; c] 3 found l =
    orelse (section_named a l) (orelse (section_named b l) (orelse (section_named c l) found)).
Proof.
  induction 1 as [|[[n|] d] l H _ IH]; intros found; [now repeat split| |cbn [fst] in H; congruence].
  cbn [find_elf_section section_named place]. rewrite (list_eqb_sym n a), (list_eqb_sym n b), (list_eqb_sym n c).
  destruct (list_eqb a n) eqn:A; cbn [Nat.ltb Nat.leb Nat.eqb orelse]; [now repeat split|].
  destruct (IH found) as (I1 & I2 & I3). destruct (IH (Some d)) as (J1 & J2 & J3).
  destruct (list_eqb b n) eqn:B; cbn [Nat.ltb Nat.leb Nat.eqb orelse].
  - rewrite I1, J1. repeat split; cbn [orelse]; destruct (section_named a l); reflexivity.
  - destruct (list_eqb c n) eqn:C; cbn [Nat.ltb Nat.leb Nat.eqb orelse]; rewrite ?I1, ?I2, ?I3, ?J2; auto.
Qed.
