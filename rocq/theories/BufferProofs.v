From Verif Require Import Base BytesModel BytesProofs BytesMoreProofs BufferModel BufferSpec.
Local Open Scope N_scope.
Arguments N.to_nat : simpl never.

Lemma reader_words_inv r : reader_words r = true -> len (rbuf r) < two64 /\ roff r < two64.
Proof. unfold reader_words. intros H. apply andb_prop in H as [H1 H2]. lia. Qed.

Lemma read_rejected_spec r size :
  reader_words r = true -> size < two64 ->
  read_rejected r size = (len (rbuf r) <? roff r + size).
Proof.
  intros Hr Hs. apply reader_words_inv in Hr as [H1 H2].
  unfold read_rejected. 
  destruct (N.ltb_spec (max64 - size) (roff r)) as [Hc|Hc]; cbn [orb].
  - symmetry. apply N.ltb_lt. unfold max64, two64 in *. lia.
  - rewrite w64_small; [reflexivity|]. unfold max64, two64 in *. lia.
Qed.

Lemma delivers_intro r size :
  roff r + size <= len (rbuf r) ->
  delivers r size (slice (rbuf r) (roff r) size) (set_off r (roff r + size)).
Proof.
  intros H. exists (firstn (N.to_nat (roff r)) (rbuf r)), (skipn (N.to_nat (roff r + size)) (rbuf r)).
  repeat split.
  - now apply slice_split.
  - apply len_firstn. lia.
  - now apply len_slice.
Qed.

Lemma read_data_eq r size :
  reader_words r = true -> size < two64 ->
  read_data size r =
    if roff r + size <=? len (rbuf r)
    then (Ok (slice (rbuf r) (roff r) size), set_off r (roff r + size))
    else (Fail, r).
Proof.
  intros Hr Hs. assert (Hw := reader_words_inv r Hr). destruct Hw as [H1 H2].
  unfold read_data. rewrite read_rejected_spec by auto.
  destruct (N.ltb_spec (len (rbuf r)) (roff r + size)) as [Hc|Hc];
    destruct (N.leb_spec (roff r + size) (len (rbuf r))); try lia; [reflexivity|].
  unfold mem_read. destruct (N.leb_spec (roff r + size) (len (rbuf r))); [|lia].
  now rewrite w64_small by lia.
Qed.

Lemma read_string_eq r size :
  reader_words r = true -> size < two64 ->
  read_string size r =
    if roff r + size <=? len (rbuf r)
    then (let d := slice (rbuf r) (roff r) size in
          (Ok (firstn (N.to_nat (strnlen d)) d), set_off r (roff r + size)))
    else (Fail, r).
Proof.
  intros Hr Hs. assert (Hw := reader_words_inv r Hr). destruct Hw as [H1 H2].
  unfold read_string. rewrite read_rejected_spec by auto.
  destruct (N.ltb_spec (len (rbuf r)) (roff r + size)) as [Hc|Hc];
    destruct (N.leb_spec (roff r + size) (len (rbuf r))); try lia; [reflexivity|].
  unfold mem_read. destruct (N.leb_spec (roff r + size) (len (rbuf r))); [|lia].
  now rewrite w64_small by lia.
Qed.

Lemma strnlen_le d : strnlen d <= len d.
Proof.
  induction d as [|b d IH]; cbn [strnlen]; [unfold len; cbn; lia|].
  rewrite len_cons. destruct (b =? 0); lia.
Qed.

Lemma until_nul_strnlen d : until_nul d (firstn (N.to_nat (strnlen d)) d).
Proof.
  unfold until_nul. induction d as [|b d [IH1 (rest & E & IH2)]].
  { split; [intros []|]. exists []. auto. }
  cbn [strnlen]. destruct (N.eqb_spec b 0) as [->|Hb].
  - split; [intros []|]. exists (0 :: d). split; [reflexivity|right; eauto].
  - replace (N.to_nat (1 + strnlen d)) with (S (N.to_nat (strnlen d))) by lia.
    cbn [firstn]. split.
    + intros [H|H]; [congruence|auto].
    + exists rest. split; [cbn [app]; now rewrite <- E|exact IH2].
Qed.

Lemma until_nul_unique d s s' : until_nul d s -> until_nul d s' -> s = s'.
Proof.
  intros [N1 (r1 & E1 & R1)] [N2 (r2 & E2 & R2)]. subst d.
  revert s' N2 E2; induction s as [|a s IH]; intros s' N2 E2.
  - destruct s' as [|b s']; [reflexivity|]. cbn [app] in E2.
    destruct R1 as [->|[t ->]]; [discriminate|]. inversion E2; subst.
    exfalso; apply N2; left; reflexivity.
  - destruct s' as [|b s'].
    + cbn [app] in E2. destruct R2 as [->|[t ->]]; [discriminate|]. inversion E2; subst.
      exfalso; apply N1; left; reflexivity.
    + cbn [app] in E2. inversion E2; subst. f_equal. apply IH; auto.
      * intros H; apply N1; right; exact H.
      * intros H; apply N2; right; exact H.
Qed.

Lemma read_data_ok r size :
  reader_words r = true -> size < two64 ->
  match read_data size r with
  | (Ok d, r') => delivers r size d r'
  | (Fail, r') => r' = r /\ len (rbuf r) < roff r + size
  | _ => False
  end.
Proof.
  intros Hr Hs. rewrite read_data_eq by auto.
  destruct (N.leb_spec (roff r + size) (len (rbuf r))); [|auto].
  now apply delivers_intro.
Qed.

Lemma read_string_ok r size :
  reader_words r = true -> size < two64 ->
  match read_string size r with
  | (Ok s, r') => exists d, delivers r size d r' /\ until_nul d s
  | (Fail, r') => r' = r /\ len (rbuf r) < roff r + size
  | _ => False
  end.
Proof.
  intros Hr Hs. rewrite read_string_eq by auto.
  destruct (N.leb_spec (roff r + size) (len (rbuf r))); [|auto].
  cbv zeta. exists (slice (rbuf r) (roff r) size). split.
  - now apply delivers_intro.
  - apply until_nul_strnlen.
Qed.

Lemma delivers_0 r : roff r <= len (rbuf r) -> delivers r 0 [] r.
Proof.
  intros H. exists (firstn (N.to_nat (roff r)) (rbuf r)), (skipn (N.to_nat (roff r)) (rbuf r)).
  repeat split; try lia.
  - cbn [app]. now rewrite firstn_skipn.
  - now apply len_firstn.
Qed.

Lemma read_data_string_ok r size :
  reader_words r = true -> size < two64 -> len (rbuf r) < two63 -> roff r <= len (rbuf r) ->
  match read_data_string size r with
  | (Ok d, r') => delivers r size d r'
  | (Fail, r') => r' = r /\ len (rbuf r) < roff r + size
  | _ => False
  end.
Proof.
  intros Hr Hs Hl Ho. unfold read_data_string.
  destruct (N.eqb_spec size 0) as [->|Hz]; [now apply delivers_0|].
  destruct (N.ltb_spec (two63 - 1) size).
  - split; [reflexivity|]. unfold two63 in *. lia.
  - now apply read_data_ok.
Qed.

Lemma seek_set_ok r o :
  match seek_set o r with
  | (Ok _, r') => o <= len (rbuf r) /\ rbuf r' = rbuf r /\ roff r' = o /\ rswap r' = rswap r
  | (Fail, r') => r' = r /\ len (rbuf r) < o
  | _ => False
  end.
Proof.
  unfold seek_set. destruct (N.ltb_spec (len (rbuf r)) o); cbn; auto.
Qed.

Lemma read_int_eq n r d r' :
  reader_words r = true -> bytes_ok (rbuf r) = true ->
  In n [1%nat; 2%nat; 4%nat; 8%nat] ->
  read_data (N.of_nat n) r = (Ok d, r') ->
  read_int n r = (Ok (of_le (if rswap r then rev d else d)), r').
Proof.
  intros Hr Hb Hn E. unfold read_int. rewrite E.
  assert (Hd : bytes_ok d = true /\ length d = n).
  { rewrite read_data_eq in E; auto.
    2:{ unfold two64. cbn in Hn. lia. }
    destruct (N.leb_spec (roff r + N.of_nat n) (len (rbuf r))); [|discriminate].
    injection E as <- <-. split; [now apply bytes_ok_slice|].
    assert (Hl := len_slice (rbuf r) (roff r) (N.of_nat n)). unfold len in *. lia. }
  destruct Hd as [Hd1 Hd2].
  unfold maybe_swap. destruct (rswap r); [|reflexivity].
  assert (H := bswap_of_le n d Hd1 Hd2).
  destruct (byte_swap n (of_le d)); [now subst| | | | ];
    exfalso; cbn in Hn; destruct H as (A & B & C & D);
    destruct Hn as [?|[?|[?|[?|[]]]]]; congruence.
Qed.

Lemma read_int_ok n r :
  reader_words r = true -> bytes_ok (rbuf r) = true ->
  In n [1%nat; 2%nat; 4%nat; 8%nat] ->
  match read_int n r with
  | (Ok v, r') => exists d, delivers r (N.of_nat n) d r' /\
                    v = of_le (if rswap r then rev d else d)
  | (Fail, r') => r' = r /\ len (rbuf r) < roff r + N.of_nat n
  | _ => False
  end.
Proof.
  intros Hr Hb Hn.
  assert (Hs : N.of_nat n < two64) by (unfold two64; cbn in Hn; lia).
  assert (H := read_data_ok r (N.of_nat n) Hr Hs).
  destruct (read_data (N.of_nat n) r) as [[d| | | |] r'] eqn:E; try contradiction.
  - rewrite (read_int_eq n r d r') by auto. exists d. auto.
  - unfold read_int. rewrite E. exact H.
Qed.

(** ** Writer *)
Lemma mem_write_spec buf off d :
  off + len d <= len buf ->
  mem_write buf off d =
    Ok (firstn (N.to_nat off) buf ++ d ++ skipn (N.to_nat (off + len d)) buf).
Proof. intros H. unfold mem_write. destruct (N.leb_spec (off + len d) (len buf)); [reflexivity|lia]. Qed.

Lemma writes_intro w d :
  woff w + len d <= len (wbuf w) ->
  writes w d (mkWriter (firstn (N.to_nat (woff w)) (wbuf w) ++ d ++
                        skipn (N.to_nat (woff w + len d)) (wbuf w)) (woff w + len d)).
Proof.
  intros H. exists (firstn (N.to_nat (woff w)) (wbuf w)), (slice (wbuf w) (woff w) (len d)),
    (skipn (N.to_nat (woff w + len d)) (wbuf w)).
  repeat split.
  - now apply slice_split.
  - apply len_firstn. lia.
  - now apply len_slice.
Qed.

Lemma writes_len w d w' : writes w d w' -> len (wbuf w') = len (wbuf w).
Proof.
  intros (pre & old & post & E & H1 & H2 & E' & H3). rewrite E, E', !len_app. lia.
Qed.

Lemma write_data_ok w d :
  len (wbuf w) < two63 -> woff w < two64 -> len d < two64 ->
  match write_data d w with
  | (Ok _, w') => writes w d w'
  | (Fail, w') => w' = w /\ (len (wbuf w) < woff w + len d \/ woff w = len (wbuf w))
  | _ => False
  end.
Proof.
  intros Hl Ho Hd. unfold write_data.
  destruct (N.leb_spec (len (wbuf w)) (woff w)) as [Hc|Hc].
  { rewrite orb_true_r. cbn [orb]. split; [reflexivity|]. lia. }
  destruct (N.ltb_spec (len (wbuf w)) (len d)) as [Hc2|Hc2].
  { rewrite orb_true_r. split; [reflexivity|]. lia. }
  rewrite !orb_false_r. rewrite w64_small by (unfold two63, two64 in *; lia).
  destruct (N.ltb_spec (len (wbuf w)) (woff w + len d)) as [Hc3|Hc3].
  { split; [reflexivity|]. lia. }
  rewrite mem_write_spec by lia. now apply writes_intro.
Qed.

Lemma write_data_fits w d :
  len (wbuf w) < two63 -> woff w < len (wbuf w) -> woff w + len d <= len (wbuf w) ->
  exists w', write_data d w = (Ok tt, w') /\ writes w d w'.
Proof.
  intros Hl Ho Hd. assert (H := write_data_ok w d Hl).
  destruct (write_data d w) as [[[]| | | |] w'];
    unfold two63, two64 in *; try (exfalso; lia).
  exists w'. split; [reflexivity|]. apply H; lia.
Qed.

Lemma writes_app w d1 w1 d2 w2 :
  writes w d1 w1 -> writes w1 d2 w2 -> writes w (d1 ++ d2) w2.
Proof.
  intros (pre & old & post & E & H1 & H2 & E' & H3)
         (pre2 & old2 & post2 & F & G1 & G2 & F' & G3).
  rewrite E' in F. rewrite app_assoc in F.
  assert (Hp : pre ++ d1 = pre2 /\ post = old2 ++ post2).
  { apply app_inj_length; [|exact F]. apply len_eq_length. rewrite len_app. lia. }
  destruct Hp as [<- ->].
  exists pre, (old ++ old2), post2. repeat split.
  - rewrite E. now rewrite !app_assoc.
  - exact H1.
  - rewrite !len_app. lia.
  - rewrite F'. now rewrite !app_assoc.
  - rewrite len_app. lia.
Qed.

Definition padded (str : list N) (size : N) : list N :=
  firstn (N.to_nat size) str ++ repeat 0 (N.to_nat (size - len str)).

Lemma len_padded str size : len (padded str size) = size.
Proof.
  unfold padded. rewrite len_app, len_repeat. unfold len. rewrite firstn_length. lia.
Qed.

Lemma firstn_min_len (str : list N) size :
  firstn (N.to_nat (N.min (len str) size)) str = firstn (N.to_nat size) str.
Proof.
  destruct (N.min_spec (len str) size) as [[H ->]|[H ->]]; [|reflexivity].
  rewrite to_nat_len, firstn_all. symmetry. apply firstn_all2. unfold len in H. lia.
Qed.

Lemma write_string_ok w str size :
  len (wbuf w) < two63 -> woff w < two64 -> woff w + size < two64 -> len str < two64 ->
  match write_string str size w with
  | (Ok _, w') => writes w (padded str size) w'
  | (Fail, w') => w' = w /\ (len (wbuf w) < woff w + size \/ woff w = len (wbuf w))
  | _ => False
  end.
Proof.
  intros Hl Ho Hs Hstr. unfold write_string, wbind.
  rewrite w64_small by lia.
  destruct (N.ltb_spec (len (wbuf w)) (woff w + size)) as [Hc|Hc].
  { split; [reflexivity|lia]. }
  rewrite firstn_min_len.
  assert (Hlen : len (firstn (N.to_nat size) str) = N.min (len str) size).
  { unfold len. rewrite firstn_length. lia. }
  assert (H := write_data_ok w (firstn (N.to_nat size) str) Hl Ho).
  destruct (write_data _ w) as [[[]| | | |] w1]; try (apply H; lia).
  2:{ destruct H as [-> H]; [lia|]. split; [reflexivity|]. rewrite Hlen in H. lia. }
  specialize (H ltac:(lia)). assert (HL := writes_len _ _ _ H).
  assert (Hw1 : woff w1 = woff w + N.min (len str) size).
  { destruct H as (? & ? & ? & ? & ? & ? & ? & ->). now rewrite Hlen. }
  unfold mem_zero. rewrite HL, Hw1.
  destruct (N.leb_spec (woff w + N.min (len str) size + (size - N.min (len str) size))
              (len (wbuf w))); [|lia].
  rewrite mem_write_spec by (rewrite len_repeat, HL; lia).
  rewrite w64_small by lia.
  unfold padded. eapply writes_app; [exact H|].
  replace (size - len str) with (size - N.min (len str) size) by lia.
  assert (W := writes_intro w1 (repeat 0 (N.to_nat (size - N.min (len str) size)))).
  rewrite len_repeat, Hw1, HL in *. apply W. lia.
Qed.

(** ** Length-prefixed strings *)
Lemma writes_bytes w d w' :
  writes w d w' -> slice (wbuf w') (woff w) (len d) = d.
Proof.
  intros (pre & old & post & E & H1 & H2 & E' & H3). rewrite E'.
  apply slice_app; auto.
Qed.

Definition stored_string (src : list N) : list N :=
  let l := 8 * (len src / 8 + 1) in le_bytes 4 l ++ padded src l.

Lemma len_stored_string src : len (stored_string src) = 4 + 8 * (len src / 8 + 1).
Proof. unfold stored_string. rewrite len_app, len_le_bytes, len_padded. reflexivity. Qed.

Lemma write_string_with_size_ok w src :
  len (wbuf w) < two63 -> woff w < two64 -> len src < two32 - 8 ->
  woff w + 4 + 8 * (len src / 8 + 1) < two64 ->
  match write_string_with_size src w with
  | (Ok _, w') => writes w (stored_string src) w'
  | (Fail, w') => w' = w /\ len (wbuf w) < woff w + 4 + 8 * (len src / 8 + 1)
  | _ => False
  end.
Proof.
  intros Hl Ho Hs Hfit. unfold write_string_with_size.
  rewrite aligned_string_length_value by (unfold two32, two64 in *; lia).
  assert (E32 : w32 (8 * (len src / 8 + 1)) = 8 * (len src / 8 + 1)).
  { unfold w32. apply N.mod_small. unfold two32 in *. lia. }
  rewrite E32. set (l := 8 * (len src / 8 + 1)) in *.
  unfold can_write_size. rewrite w64_small by lia.
  destruct (N.leb_spec (woff w + (l + 4)) (len (wbuf w))) as [Hc|Hc].
  2:{ split; [reflexivity|lia]. }
  unfold wbind.
  destruct (write_data_fits w (le_bytes 4 l)) as (w1 & E1 & W1); auto; try lia.
  { rewrite len_le_bytes. lia. }
  rewrite E1. assert (L1 := writes_len _ _ _ W1).
  assert (O1 : woff w1 = woff w + 4).
  { destruct W1 as (? & ? & ? & ? & ? & ? & ? & ->). now rewrite len_le_bytes. }
  assert (H := write_string_ok w1 src l).
  rewrite L1, O1 in H. specialize (H Hl). unfold two32, two64 in *.
  destruct (write_string src l w1) as [[[]| | | |] w2]; try (apply H; lia).
  - unfold stored_string. fold l. eapply writes_app; [exact W1|]. apply H; lia.
  - exfalso. destruct H as [_ H]; lia.
Qed.

Lemma padded_until_nul src l : ~ In 0 src -> len src < l -> until_nul (padded src l) src.
Proof.
  intros Hn Hl. split; [exact Hn|]. unfold padded.
  rewrite firstn_all2 by (unfold len in Hl; lia).
  exists (repeat 0 (N.to_nat (l - len src))). split; [reflexivity|].
  right. destruct (N.to_nat (l - len src)) as [|k] eqn:E; [lia|]. exists (repeat 0 k). reflexivity.
Qed.

Lemma read_data_app r pre d post :
  reader_words r = true -> rbuf r = pre ++ d ++ post -> roff r = len pre ->
  read_data (len d) r = (Ok d, set_off r (roff r + len d)).
Proof.
  intros Hr E Ho. assert (Hw := reader_words_inv r Hr).
  assert (Hl : len (rbuf r) = len pre + len d + len post) by (rewrite E, !len_app; lia).
  rewrite read_data_eq; auto; [|lia].
  destruct (N.leb_spec (roff r + len d) (len (rbuf r))); [|lia].
  rewrite E, slice_app by auto. reflexivity.
Qed.

Lemma read_string_app r pre d post :
  reader_words r = true -> rbuf r = pre ++ d ++ post -> roff r = len pre ->
  read_string (len d) r =
    (Ok (firstn (N.to_nat (strnlen d)) d), set_off r (roff r + len d)).
Proof.
  intros Hr E Ho. assert (Hw := reader_words_inv r Hr).
  assert (Hl : len (rbuf r) = len pre + len d + len post) by (rewrite E, !len_app; lia).
  rewrite read_string_eq; auto; [|lia].
  destruct (N.leb_spec (roff r + len d) (len (rbuf r))); [|lia].
  rewrite E, slice_app by auto. reflexivity.
Qed.

Lemma read_int_app n r pre d post :
  reader_words r = true -> rbuf r = pre ++ d ++ post -> roff r = len pre ->
  rswap r = false -> len d = N.of_nat n ->
  read_int n r = (Ok (of_le d), set_off r (roff r + len d)).
Proof.
  intros Hr E Ho Hs Hd. unfold read_int. rewrite <- Hd.
  rewrite (read_data_app r pre d post) by auto. rewrite Hs. reflexivity.
Qed.

Lemma read_stored_string r pre src post :
  reader_words r = true -> rbuf r = pre ++ stored_string src ++ post -> roff r = len pre ->
  rswap r = false -> len src < two32 - 8 -> ~ In 0 src ->
  read_string_with_size r = (Ok src, set_off r (roff r + len (stored_string src))).
Proof.
  intros Hr E Ho Hs Hl Hn. unfold read_string_with_size, rbind, read_u32.
  unfold stored_string in E. cbv zeta in E. set (l := 8 * (len src / 8 + 1)) in *.
  rewrite <- app_assoc in E.
  rewrite (read_int_app 4 r pre (le_bytes 4 l) (padded src l ++ post)) by
    (auto using len_le_bytes).
  assert (Hlt : l < two32) by (unfold l, two32 in *; lia).
  rewrite of_le_le_bytes by exact Hlt.
  set (r1 := set_off r _).
  assert (O1 : roff r1 = len (pre ++ le_bytes 4 l)).
  { unfold r1. cbn [roff set_off]. rewrite len_app. now rewrite Ho. }
  assert (Hw := reader_words_inv r Hr).
  assert (Hr1 : reader_words r1 = true).
  { unfold reader_words, r1. cbn [roff set_off rbuf]. apply andb_true_intro. split; [lia|].
    rewrite E in Hw. rewrite !len_app in Hw. rewrite len_le_bytes in *. lia. }
  rewrite <- (len_padded src l) at 1.
  rewrite (read_string_app r1 (pre ++ le_bytes 4 l) (padded src l) post) by
    (auto; unfold r1; cbn [rbuf set_off]; rewrite E, <- app_assoc; reflexivity).
  f_equal.
  - f_equal. eapply until_nul_unique; [apply until_nul_strnlen|].
    apply padded_until_nul; auto. unfold l. lia.
  - unfold set_off, r1. cbn [rbuf roff rswap set_off]. f_equal.
    rewrite len_padded, len_le_bytes, len_stored_string. fold l. lia.
Qed.

(** ** Sequences of reads *)
Definition rinv (b : list N) (r : reader) : Prop :=
  rbuf r = b /\ roff r <= len b.

Lemma delivers_rinv b r n d r' : rinv b r -> delivers r n d r' -> rinv b r'.
Proof.
  intros [E H] (pre & post & E1 & E2 & E3 & E4 & E5 & E6). split; [congruence|].
  rewrite E5. rewrite E in E1. rewrite E1, !len_app. lia.
Qed.

Lemma rinv_words b r : len b < two64 -> rinv b r -> reader_words r = true.
Proof.
  intros Hb [<- H]. unfold reader_words. apply andb_true_intro. split; lia.
Qed.

Lemma rstep_inv b r o :
  len b < two63 -> bytes_ok b = true -> rinv b r -> rop_words o = true ->
  (fst (rstep r o) = Ok tt \/ fst (rstep r o) = Fail) /\ rinv b (snd (rstep r o)).
Proof.
  intros Hb Hok Hr Ho.
  assert (Hb' : len b < two64) by (unfold two63, two64 in *; lia).
  assert (Hw := rinv_words b r Hb' Hr).
  assert (Hk : bytes_ok (rbuf r) = true) by (destruct Hr as [-> _]; exact Hok).
  destruct o as [o|n|n|n| | | |]; cbn [rop_words] in Ho; try apply N.ltb_lt in Ho;
    cbn [rstep].
  - assert (H := seek_set_ok r o). destruct (seek_set o r) as [[?| | | |] r'];
      cbn [fst snd obind]; try contradiction; [split; [auto|]|destruct H as [-> _]; auto].
    destruct H as (H1 & H2 & H3 & H4). destruct Hr as [E _]. split; [congruence|].
    rewrite H3. congruence.
  - assert (H := read_data_ok r n Hw Ho). destruct (read_data n r) as [[?| | | |] r'];
      cbn [fst snd obind]; try contradiction; [|destruct H as [-> _]; auto].
    split; [auto|eapply delivers_rinv; eauto].
  - assert (H := read_string_ok r n Hw Ho). destruct (read_string n r) as [[?| | | |] r'];
      cbn [fst snd obind]; try contradiction; [|destruct H as [-> _]; auto].
    destruct H as (d & H & _). split; [auto|eapply delivers_rinv; eauto].
  - assert (H : roff r <= len (rbuf r)) by (destruct Hr as [-> ?]; assumption).
    assert (Hl : len (rbuf r) < two63) by (destruct Hr as [-> ?]; assumption).
    assert (H' := read_data_string_ok r n Hw Ho Hl H).
    destruct (read_data_string n r) as [[?| | | |] r'];
      cbn [fst snd obind]; try contradiction; [|destruct H' as [-> _]; auto].
    split; [auto|eapply delivers_rinv; eauto].
  - assert (H := read_int_ok 2 r Hw Hk). unfold read_u16.
    destruct (read_int 2 r) as [[?| | | |] r']; cbn [fst snd obind];
      specialize (H ltac:(cbn; auto)); try contradiction; [|destruct H as [-> _]; auto].
    destruct H as (d & H & _). split; [auto|eapply delivers_rinv; eauto].
  - assert (H := read_int_ok 4 r Hw Hk). unfold read_u32.
    destruct (read_int 4 r) as [[?| | | |] r']; cbn [fst snd obind];
      specialize (H ltac:(cbn; auto)); try contradiction; [|destruct H as [-> _]; auto].
    destruct H as (d & H & _). split; [auto|eapply delivers_rinv; eauto].
  - assert (H := read_int_ok 8 r Hw Hk). unfold read_u64.
    destruct (read_int 8 r) as [[?| | | |] r']; cbn [fst snd obind];
      specialize (H ltac:(cbn; auto 6)); try contradiction; [|destruct H as [-> _]; auto].
    destruct H as (d & H & _). split; [auto|eapply delivers_rinv; eauto].
  - assert (H := read_int_ok 4 r Hw Hk). unfold read_string_with_size, rbind, read_u32.
    destruct (read_int 4 r) as [[v| | | |] r'];
      specialize (H ltac:(cbn; auto)); cbn [fst snd obind]; try contradiction;
      [|destruct H as [-> _]; auto].
    destruct H as (d & H & Hv). assert (Hr' := delivers_rinv b r _ _ _ Hr H).
    assert (Hw' := rinv_words b r' Hb' Hr').
    assert (Hvs : v < two64).
    { assert (B : bytes_ok d = true).
      { destruct H as (pre & post & E & _). rewrite E, !bytes_ok_app in Hk.
        apply andb_prop in Hk as [_ Hk]. apply andb_prop in Hk as [Hk _]. exact Hk. }
      assert (L : len d = 4) by (destruct H as (? & ? & ? & ? & ? & _); assumption).
      assert (B' : v < 256 ^ 4).
      { subst v. rewrite <- L. destruct (rswap r); [|now apply of_le_bound].
        replace (len d) with (len (rev d)) by (unfold len; now rewrite rev_length).
        apply of_le_bound. unfold bytes_ok in *. rewrite forallb_forall in *.
        intros x Hx. apply B. now apply in_rev. }
      change (256 ^ 4) with two32 in B'. unfold two32, two64 in *. lia. }
    assert (H' := read_string_ok r' v Hw' Hvs).
    destruct (read_string v r') as [[?| | | |] r2]; cbn [fst snd obind]; try contradiction;
      [|destruct H' as [-> _]; auto].
    destruct H' as (d' & H' & _). split; [auto|eapply delivers_rinv; eauto].
Qed.

Lemma rrun_inv b ops r :
  len b < two63 -> bytes_ok b = true -> rinv b r -> forallb rop_words ops = true ->
  Forall (fun x => x = Ok tt \/ x = Fail) (fst (rrun r ops)) /\ rinv b (snd (rrun r ops)).
Proof.
  intros Hb Hok. revert r; induction ops as [|o ops IH]; intros r Hr Ho.
  { cbn. auto. }
  cbn [forallb] in Ho. apply andb_prop in Ho as [Ho1 Ho2].
  destruct (rstep_inv b r o Hb Hok Hr Ho1) as [H1 H2].
  cbn [rrun]. destruct (rstep r o) as [x r']. cbn [fst snd] in *.
  destruct (IH r' H2 Ho2) as [H3 H4]. destruct (rrun r' ops) as [xs r'']. cbn [fst snd] in *.
  auto.
Qed.

(** ** Popcount *)
Lemma pos_popcount_bound p n : Npos p < 2 ^ n -> pos_popcount p <= n.
Proof.
  revert n; induction p as [p IH|p IH|]; intros n H; cbn [pos_popcount].
  - destruct (N.eq_dec n 0) as [->|Hn]; [cbn in H; lia|].
    replace n with (N.succ (n - 1)) in H by lia. rewrite N.pow_succ_r' in H.
    specialize (IH (n - 1) ltac:(lia)). lia.
  - destruct (N.eq_dec n 0) as [->|Hn]; [cbn in H; lia|].
    replace n with (N.succ (n - 1)) in H by lia. rewrite N.pow_succ_r' in H.
    specialize (IH (n - 1) ltac:(lia)). lia.
  - destruct (N.eq_dec n 0) as [->|Hn]; [cbn in H; lia|lia].
Qed.

Definition bits_upto (n : nat) (x : N) : N :=
  fold_right (fun i acc => acc + (if N.testbit x (N.of_nat i) then 1 else 0)) 0 (seq 0 n).

Lemma bits_upto_shift n x :
  bits_upto (S n) x = (if N.testbit x 0 then 1 else 0) + bits_upto n (N.div2 x).
Proof.
  unfold bits_upto. cbn [seq fold_right]. rewrite <- seq_shift.
  assert (E : forall l, fold_right (fun i acc => acc + (if N.testbit x (N.of_nat i) then 1 else 0)) 0 (map S l)
            = fold_right (fun i acc => acc + (if N.testbit (N.div2 x) (N.of_nat i) then 1 else 0)) 0 l).
  { induction l as [|i l IH]; [reflexivity|]. cbn [map fold_right]. rewrite IH.
    rewrite N.div2_spec, N.shiftr_spec'. replace (N.of_nat i + 1) with (N.of_nat (S i)) by lia.
    reflexivity. }
  rewrite E. change (N.of_nat 0) with 0. lia.
Qed.

Lemma get_num_bits_spec n x : x < 2 ^ N.of_nat n -> get_num_bits x = bits_upto n x.
Proof.
  revert x; induction n as [|n IH]; intros x H.
  { cbn in H. replace x with 0 by lia. reflexivity. }
  rewrite bits_upto_shift.
  rewrite Nat2N.inj_succ, N.pow_succ_r' in H.
  rewrite <- IH; [|rewrite N.div2_div; apply N.div_lt_upper_bound; lia].
  destruct x as [|[p|p|]]; reflexivity.
Qed.
