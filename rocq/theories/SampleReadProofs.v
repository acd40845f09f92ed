(** Reading back what was written. *)
From Verif Require Import Base BytesModel BytesProofs BytesMoreProofs BufferModel BufferSpec
  BufferProofs EventSizeModel EventSizeSpec EventSizeProofs SampleModel SampleSpec SampleProofs.
Local Open Scope N_scope.

(** ** The data size depends only on the data *)
Lemma same_slice (e e' : list N) n o m :
  firstn (N.to_nat n) e' = firstn (N.to_nat n) e -> o + m <= n -> slice e' o m = slice e o m.
Proof.
  intros H Hm.
  assert (G : forall l : list N, slice l o m = slice (firstn (N.to_nat n) l) o m).
  { intros l. unfold slice. rewrite skipn_firstn_comm, firstn_firstn. f_equal. lia. }
  rewrite (G e'), (G e), H. reflexivity.
Qed.

Lemma data_size_prefix e e' n :
  raw_event e -> bytes_ok e' = true -> len e' = len e ->
  event_data_size e = Ok n -> firstn (N.to_nat n) e' = firstn (N.to_nat n) e ->
  event_data_size e' = Ok n /\ raw_event e' /\ ev_type e' = ev_type e /\ ev_size e' = ev_size e.
Proof.
  intros He Hb' Hl Hd Hp.
  destruct (data_size_total e He) as [Hx|(n' & fixed & Hx & Hk & Hf & Hn & H8)]; [congruence|].
  assert (n' = n) by congruence. subst n'. clear Hx.
  assert (SL : forall o m, o + m <= n -> slice e' o m = slice e o m).
  { intros o m Hm. now apply (same_slice e e' n). }
  assert (Et : ev_type e' = ev_type e) by (unfold ev_type; rewrite SL by lia; reflexivity).
  assert (Es : ev_size e' = ev_size e) by (unfold ev_size; rewrite SL by lia; reflexivity).
  assert (He' : raw_event e').
  { destruct He as (H1 & H2 & H3). unfold raw_event. rewrite Es. repeat split; auto; lia. }
  split; [|repeat split; auto; apply He'].
  assert (TX : forall off room v, text_at e off room v -> off + v <= n -> text_at e' off room v).
  { intros off room v (s & A1 & A2 & A3 & A4) Hv. exists s. repeat split; auto. rewrite SL by lia. exact A2. }
  assert (NA : forall o, o + 8 <= n -> number_at e' o = number_at e o).
  { intros o Ho. unfold number_at. now rewrite SL. }
  unfold known_events in Hk. rewrite !in_app_iff in Hk. destruct Hk as [Hk|[Hk|[Hk|Hk]]].
  - apply in_map_iff in Hk as (((ty & fx) & max) & E & Hin). cbn [fst] in E. injection E as E1 E2. subst ty fx.
    apply (text_event_size e' _ _ _ _ He' Hin Et). rewrite Es.
    apply (text_event_size e _ _ _ _ He Hin eq_refl) in Hd. destruct Hd as (A & v & -> & T).
    split; [exact A|]. exists v. split; [reflexivity|]. apply TX; [exact T|lia].
  - rewrite (plain_event_size e' _ _ Hk Et), Es, <- (plain_event_size e _ _ Hk eq_refl). exact Hd.
  - rewrite (closed_event_size e' _ _ Hk Et), Es, <- (closed_event_size e _ _ Hk eq_refl). exact Hd.
  - assert (AR : forall ty at_ fx en, In (ty, at_, fx, en) array_events -> ev_type e = ty ->
               event_data_size e' = Ok n).
    { intros ty at_ fx en Hin Ht.
      apply (array_event_size e _ _ _ _ _ He Hin Ht) in Hd.
      assert (A8 : at_ = 8 /\ fx = 16).
      { cbn in Hin. destruct Hin as [X|[X|[X|[]]]]; injection X as _ <- <- _; auto. }
      destruct A8 as [-> ->]. destruct Hd as (D1 & D2 & D3).
      apply (array_event_size e' ty 8 16 en n He' Hin (eq_trans Et Ht)).
      rewrite Es, (NA 8) by lia. split; [exact D1|]. split; [exact D2|].
      intros T i Hi. rewrite NA in Hi by lia. rewrite SL; [now apply D3|].
      assert (en = 24); [|subst en; lia].
      rewrite T in Hin. cbn in Hin. unfold R_ID_INDEX, R_STAT_CONFIG, R_THREAD_MAP in Hin.
      destruct Hin as [X|[X|[X|[]]]]; [discriminate|discriminate|].
      injection X as <-. reflexivity. }
    cbn [In] in Hk.
    destruct Hk as [X|[X|[X|[X|[X|[X|[X|[X|[]]]]]]]]]; injection X as X1 X2; symmetry in X1.
    + eapply AR; [|exact X1]. cbn. auto.
    + eapply AR; [|exact X1]. cbn. auto.
    + eapply AR; [|exact X1]. cbn. auto.
    + apply (namespaces_size e' n He' (eq_trans Et X1)).
      apply (namespaces_size e n He X1) in Hd. rewrite Es, NA by lia. exact Hd.
    + rewrite (auxtrace_info_size e' He' (eq_trans Et X1)), Es, <- (auxtrace_info_size e He X1). exact Hd.
    + apply (auxtrace_error_size e' n He' (eq_trans Et X1)).
      apply (auxtrace_error_size e n He X1) in Hd. rewrite Es. destruct Hd as (D1 & D2 & D3).
      split; [exact D1|]. split; [exact D2|]. apply TX; [exact D3|lia].
    + rewrite (time_conv_size e' He' (eq_trans Et X1)), Es, <- (time_conv_size e He X1). exact Hd.
    + rewrite (bpf_size e' He' (eq_trans Et X1)), Es, NA, <- (bpf_size e He X1) by lia. exact Hd.
Qed.

(** ** Reading calls that consume given bytes *)
Definition gets {A} (f : rcall A) (d : list N) (x : A) : Prop :=
  forall r pre post, rbuf r = pre ++ d ++ post -> roff r = len pre -> rswap r = false ->
    len (rbuf r) < two64 -> f r = (Ok x, set_off r (roff r + len d)).

Lemma gets_ret {A} (x : A) : gets (rret x) [] x.
Proof.
  intros r pre post _ _ _ _. unfold rret, set_off. rewrite len_nil, N.add_0_r. now destruct r.
Qed.

Lemma gets_bind {A B} (f : rcall A) (g : A -> rcall B) d1 d2 x y :
  gets f d1 x -> gets (g x) d2 y -> gets (rbind f g) (d1 ++ d2) y.
Proof.
  intros Hf Hg r pre post E O S L. unfold rbind.
  rewrite (Hf r pre (d2 ++ post)); auto; [|now rewrite <- app_assoc in E].
  rewrite (Hg _ (pre ++ d1) post); cbn [rbuf roff rswap set_off]; auto.
  - unfold set_off. cbn [rbuf roff rswap]. f_equal. f_equal. rewrite len_app. lia.
  - now rewrite <- app_assoc in *.
  - rewrite len_app. lia.
Qed.

Lemma gets_bind' {A B} (f : rcall A) (g : A -> rcall B) d1 d2 d x y :
  gets f d1 x -> gets (g x) d2 y -> d = d1 ++ d2 -> gets (rbind f g) d y.
Proof. intros Hf Hg ->. now apply (gets_bind f g d1 d2 x y). Qed.

Lemma gets_int n d : len d = N.of_nat n -> gets (read_int n) d (of_le d).
Proof.
  intros Hd r pre post E O S L. apply (read_int_app n r pre d post); auto.
  unfold reader_words. apply andb_true_intro. split; [lia|]. rewrite O, E, !len_app in *. lia.
Qed.

Lemma gets_u64 v : v < two64 -> gets read_u64 (le_bytes 8 v) v.
Proof.
  intros H. assert (G := gets_int 8 (le_bytes 8 v) (len_le_bytes 8 v)).
  rewrite of_le_le_bytes in G by exact H. exact G.
Qed.
Lemma gets_one {A} (g : N -> A) v :
  v < two64 -> gets (rlet x := read_u64 in rret (g x)) (le_bytes 8 v) (g v).
Proof.
  intros H. rewrite <- (app_nil_r (le_bytes 8 v)).
  exact (gets_bind _ _ _ _ v _ (gets_u64 v H) (gets_ret (g v))).
Qed.
Lemma gets_u32 v : v < two32 -> gets read_u32 (le_bytes 4 v) v.
Proof.
  intros H. assert (G := gets_int 4 (le_bytes 4 v) (len_le_bytes 4 v)).
  rewrite of_le_le_bytes in G by exact H. exact G.
Qed.
Lemma gets_u16 v : v < two16 -> gets read_u16 (le_bytes 2 v) v.
Proof.
  intros H. assert (G := gets_int 2 (le_bytes 2 v) (len_le_bytes 2 v)).
  rewrite of_le_le_bytes in G by exact H. exact G.
Qed.
Lemma gets_data d : gets (read_data (len d)) d d.
Proof.
  intros r pre post E O S L. apply (read_data_app r pre d post); auto.
  unfold reader_words. apply andb_true_intro. split; [lia|]. rewrite O, E, !len_app in *. lia.
Qed.

Lemma sub64_small a b : b <= a -> a < two64 -> sub64 a b = a - b.
Proof.
  intros H1 H2. unfold sub64. replace (a + two64 - b) with (a - b + 1 * two64) by lia.
  rewrite N.mod_add by discriminate. apply N.mod_small. lia.
Qed.

Lemma remaining_at r pre d post :
  rbuf r = pre ++ d ++ post -> roff r = len pre -> len (rbuf r) < two64 ->
  remaining r = len d + len post.
Proof.
  intros E O L. unfold remaining. rewrite sub64_small; rewrite ?E, ?O, ?len_app in *; lia.
Qed.

(** The count of an array is checked against what remains. *)
Lemma gets_guard {A} (g : rcall A) k n d x :
  0 < k -> k * n <= len d -> gets g d x ->
  gets (fun r => if remaining r / k <? n then (Fail, r) else g r) d x.
Proof.
  intros Hk Hn Hg r pre post E O S L.
  rewrite (remaining_at r pre d post) by auto.
  destruct (N.ltb_spec ((len d + len post) / k) n) as [H|H].
  - exfalso. assert (n <= (len d + len post) / k); [|lia].
    apply N.div_le_lower_bound; lia.
  - apply (Hg r pre post); auto.
Qed.

Lemma gets_n {A} (f : rcall A) (l : list A) (ds : list (list N)) :
  Forall2 (fun d x => gets f d x) ds l -> gets (read_n (length l) f) (concat ds) l.
Proof.
  induction 1 as [|d x ds l H _ IH]; cbn [length read_n concat]; [apply gets_ret|].
  eapply gets_bind; [exact H|]. rewrite <- (app_nil_r (concat ds)).
  eapply gets_bind; [exact IH|]. apply gets_ret.
Qed.

(** ** Steps *)
Lemma gets_steps_nil s : gets (run_steps [] s) [] s.
Proof. apply gets_ret. Qed.

Lemma gets_steps_cons (f : step) l s s1 s2 d1 d2 :
  gets (f s) d1 s1 -> gets (run_steps l s1) d2 s2 -> gets (run_steps (f :: l) s) (d1 ++ d2) s2.
Proof. intros H1 H2. cbn [run_steps fold_right]. unfold seq. exact (gets_bind _ _ _ _ _ _ H1 H2). Qed.

Lemma gets_on (b : bool) (f : step) s s1 d :
  (b = true -> gets (f s) d s1) -> (b = false -> d = []) ->
  gets (on b f s) d (if b then s1 else s).
Proof. intros H1 H2. unfold on. destruct b; [auto|]. rewrite (H2 eq_refl). apply gets_ret. Qed.

Lemma gets_off f s : gets (on false f s) [] s.
Proof. apply gets_ret. Qed.

Lemma image_when b l d : image (when b l) d -> (b = true -> image l d) /\ (b = false -> d = []).
Proof.
  intros H. destruct b; cbn [when] in H; (split; [intros E|intros E]; try discriminate); auto.
  now inversion H.
Qed.

Lemma gets_field64 b set s v d :
  v < two64 -> image (when b [put64 v]) d -> gets (on b (rd64 set) s) d (if b then set v s else s).
Proof.
  intros Hv Hi. apply image_when in Hi as [H1 H2]. apply gets_on; [|exact H2].
  intros E. apply H1, image_one, image_put64 in E. subst d. unfold rd64.
  rewrite <- (app_nil_r (le_bytes 8 v)). eapply gets_bind; [now apply gets_u64|]. apply gets_ret.
Qed.

Lemma gets_tid b s p t d :
  p < two32 -> t < two32 -> image (when b [put32_32 p t]) d ->
  gets (on b (seq (rd32 set_pid) (rd32 set_tid)) s) d (if b then set_tid t (set_pid p s) else s).
Proof.
  intros Hp Ht Hi. apply image_when in Hi as [H1 H2]. apply gets_on; [|exact H2].
  intros E. apply H1, image_one, image_put32 in E. subst d. unfold seq, rd32.
  eapply gets_bind.
  - rewrite <- (app_nil_r (le_bytes 4 p)). eapply gets_bind; [now apply gets_u32|]. apply gets_ret.
  - rewrite <- (app_nil_r (le_bytes 4 t)). eapply gets_bind; [now apply gets_u32|]. apply gets_ret.
Qed.

Lemma gets_cpu b s c d :
  c < two32 -> image (when b [put32_32 c 0]) d -> gets (on b rd_cpu s) d (if b then set_cpu c s else s).
Proof.
  intros Hc Hi. apply image_when in Hi as [H1 H2]. apply gets_on; [|exact H2].
  intros E. apply H1, image_one, image_put32 in E. subst d. unfold rd_cpu.
  eapply gets_bind; [now apply gets_u32|].
  rewrite <- (app_nil_r (le_bytes 4 0)). eapply gets_bind; [now apply gets_u32|]. apply gets_ret.
Qed.

Lemma image_map64 l : forall d, image (map put64 l) d -> d = concat (map (le_bytes 8) l).
Proof.
  induction l as [|x l IH]; intros d H; cbn [map] in *; inversion H; subst; [reflexivity|].
  cbn [concat]. match goal with H : image1 _ _ |- _ => apply image_put64 in H; subst end.
  f_equal. auto.
Qed.

Lemma len_concat64 l : len (concat (map (le_bytes 8) l)) = 8 * len l.
Proof.
  induction l as [|x l IH]; [reflexivity|]. cbn [map concat]. rewrite len_app, len_le_bytes, IH, len_cons. lia.
Qed.

Lemma gets_callchain s c d :
  s_callchain s = None -> Forall (fun x => x < two64) c -> len c < two64 ->
  image (put64 (len c) :: map put64 c) d -> gets (read_callchain s) d (set_callchain (Some c) s).
Proof.
  intros Hs Hc Hl Hi. unfold read_callchain. rewrite Hs.
  inversion Hi as [|? ? d1 d2 H1 H2]; subst. apply image_put64 in H1. subst d1.
  apply image_map64 in H2. subst d2.
  eapply gets_bind; [now apply gets_u64|].
  apply gets_guard; [lia|rewrite len_concat64; lia|].
  rewrite <- (app_nil_r (concat _)). eapply gets_bind; [|apply gets_ret].
  rewrite to_nat_len. apply gets_n.
  clear - Hc. induction Hc as [|x l Hx _ IH]; cbn [map]; constructor; auto. now apply gets_u64.
Qed.

Lemma gets_raw s d0 d :
  len d0 < 2 ^ 30 -> image1 (put_sized d0) d -> gets (read_raw s) d (set_raw d0 s).
Proof.
  intros Hl (pad & E & L) r pre post Eb O S Lb. rewrite sized_move in L by exact Hl.
  cbn [put_sized ck_bytes] in E. subst d. rewrite <- app_assoc in *.
  unfold read_raw. cbv zeta. unfold rbind at 1.
  assert (Hw : reader_words r = true).
  { unfold reader_words. apply andb_true_intro. split; [lia|]. rewrite O, Eb, !len_app in *. lia. }
  unfold read_u32.
  rewrite (read_int_app 4 r pre (le_bytes 4 (len d0)) (d0 ++ pad ++ post)); auto using len_le_bytes.
  rewrite of_le_le_bytes by (change (256 ^ N.of_nat 4) with (2 ^ 32); lia).
  set (r1 := set_off r _).
  assert (E1 : rbuf r1 = (pre ++ le_bytes 4 (len d0)) ++ d0 ++ (pad ++ post)).
  { unfold r1. cbn [rbuf set_off]. rewrite Eb. now rewrite <- !app_assoc. }
  assert (O1 : roff r1 = len (pre ++ le_bytes 4 (len d0))).
  { unfold r1. cbn [roff set_off]. rewrite len_app, O. reflexivity. }
  assert (L1 : len (rbuf r1) < two64) by exact Lb.
  rewrite (remaining_at r1 _ d0 (pad ++ post) E1 O1 L1).
  destruct (N.ltb_spec (len d0 + len (pad ++ post)) (len d0)); [lia|].
  unfold rbind at 1. rewrite (gets_data d0 r1 _ _ E1 O1 S L1).
  unfold rbind, seek_set. cbn [rbuf roff set_off r1].
  rewrite align8_value by (unfold two64; lia).
  assert (Ht : roff r + 8 * ((4 + len d0 + 7) / 8) <= len (rbuf r)).
  { rewrite O, <- L, Eb, !len_app. lia. }
  rewrite w64_small by lia.
  destruct (N.ltb_spec (len (rbuf r)) (roff r + 8 * ((4 + len d0 + 7) / 8))); [lia|].
  unfold rret, set_off. cbn [rbuf roff rswap]. f_equal. f_equal. rewrite L. reflexivity.
Qed.

Lemma gets_branch_entry b :
  be_from b < two64 -> be_to b < two64 -> be_flags b < two64 ->
  gets read_branch_entry (le_bytes 8 (be_from b) ++ le_bytes 8 (be_to b) ++ le_bytes 8 (be_flags b)) b.
Proof.
  intros H1 H2 H3. unfold read_branch_entry.
  eapply gets_bind; [now apply gets_u64|]. eapply gets_bind; [now apply gets_u64|].
  eapply gets_bind' with (d2 := []); [| |now rewrite app_nil_r].
  - exact (gets_data (le_bytes 8 (be_flags b))).
  - intros r pre post E O S L. rewrite S. rewrite of_le_le_bytes by exact H3.
    rewrite len_nil, N.add_0_r. destruct b, r; reflexivity.
Qed.

Definition entry_bytes (b : branch_entry) : list N :=
  le_bytes 8 (be_from b) ++ le_bytes 8 (be_to b) ++ le_bytes 8 (be_flags b).

Lemma image_entries l : forall d,
  image (flat_map (fun b => [put64 (be_from b); put64 (be_to b); put64 (be_flags b)]) l) d ->
  d = concat (map entry_bytes l).
Proof.
  induction l as [|b l IH]; intros d H; cbn [flat_map map concat] in *; [now inversion H|].
  apply image_app in H as (d1 & d2 & -> & H1 & H2). rewrite (IH _ H2). f_equal.
  inversion H1 as [|? ? x1 y1 A1 B1]; subst. inversion B1 as [|? ? x2 y2 A2 B2]; subst.
  inversion B2 as [|? ? x3 y3 A3 B3]; subst. inversion B3; subst.
  apply image_put64 in A1, A2, A3. subst. unfold entry_bytes. now rewrite app_nil_r.
Qed.

Lemma len_entries l : len (concat (map entry_bytes l)) = 24 * len l.
Proof.
  induction l as [|b l IH]; [reflexivity|]. cbn [map concat]. unfold entry_bytes at 1.
  rewrite !len_app, !len_le_bytes, IH, len_cons. lia.
Qed.

Lemma gets_branch a s s0 d :
  s_branch s0 = None -> len (branches_of s) < two64 -> hw_idx_of s < two64 ->
  Forall (fun b => be_from b < two64 /\ be_to b < two64 /\ be_flags b < two64) (branches_of s) ->
  image (branch_chunks (N.testbit (at_branch_type a) BR_HW_INDEX) s) d ->
  gets (rd_branch a s0) d
    (set_branch (Some (mkBs (if N.testbit (at_branch_type a) BR_HW_INDEX then hw_idx_of s else 0)
                            (branches_of s)))
       (set_no_hw_idx (Some (negb (N.testbit (at_branch_type a) BR_HW_INDEX))) s0)).
Proof.
  intros Hs Hl Hh Hf Hi. unfold rd_branch. set (hw := N.testbit (at_branch_type a) BR_HW_INDEX) in *.
  set (s1 := set_no_hw_idx (Some (negb hw)) s0).
  assert (E1 : s_branch s1 = None) by (unfold s1; destruct s0; exact Hs).
  assert (E2 : s_no_hw_idx s1 = Some (negb hw)) by (unfold s1; destruct s0; reflexivity).
  unfold read_branch_stack. rewrite E1, E2.
  unfold branch_chunks in Hi. apply image_app in Hi as (d1 & d' & -> & H1 & Hi).
  apply image_app in Hi as (d2 & d3 & -> & H2 & H3).
  apply image_one, image_put64 in H1. subst d1. apply image_entries in H3. subst d3.
  eapply gets_bind; [now apply gets_u64|].
  eapply gets_bind with (x := if hw then hw_idx_of s else 0).
  { apply image_when in H2 as [A B]. destruct hw; cbn [negb].
    - specialize (A eq_refl). apply image_one, image_put64 in A. subst d2. now apply gets_u64.
    - rewrite (B eq_refl). apply gets_ret. }
  apply gets_guard; [lia|rewrite len_entries; lia|].
  rewrite <- (app_nil_r (concat _)). eapply gets_bind; [|apply gets_ret].
  rewrite to_nat_len. apply gets_n.
  clear - Hf. induction Hf as [|x l (Hx & Hy & Hz) _ IH]; cbn [map]; constructor; auto.
  now apply gets_branch_entry.
Qed.

Definition value_bytes (rf : N) (v : read_value) : list N :=
  le_bytes 8 (rv_value v) ++ (if N.testbit rf F_ID then le_bytes 8 (rv_id v) else [])
  ++ (if N.testbit rf F_LOST then le_bytes 8 (rv_lost v) else []).

Definition seen (rf : N) (v : read_value) : read_value :=
  mkRv (rv_value v) (if N.testbit rf F_ID then rv_id v else 0)
       (if N.testbit rf F_LOST then rv_lost v else 0).

Lemma gets_group_value rf v :
  rv_value v < two64 -> rv_id v < two64 -> rv_lost v < two64 ->
  gets (read_group_value rf) (value_bytes rf v) (seen rf v).
Proof.
  intros H1 H2 H3. unfold read_group_value, value_bytes, seen.
  eapply gets_bind; [now apply gets_u64|].
  eapply gets_bind with (x := if N.testbit rf F_ID then rv_id v else 0).
  { destruct (N.testbit rf F_ID); [now apply gets_u64|apply gets_ret]. }
  eapply gets_bind' with (x := if N.testbit rf F_LOST then rv_lost v else 0) (d2 := []);
    [|apply gets_ret|now rewrite app_nil_r].
  destruct (N.testbit rf F_LOST); [now apply gets_u64|apply gets_ret].
Qed.

Lemma image_values rf l : forall d,
  image (flat_map (fun v => [put64 (rv_value v)]
                          ++ when (N.testbit rf F_ID) [put64 (rv_id v)]
                          ++ when (N.testbit rf F_LOST) [put64 (rv_lost v)]) l) d ->
  d = concat (map (value_bytes rf) l).
Proof.
  induction l as [|v l IH]; intros d H; cbn [flat_map map concat] in *; [now inversion H|].
  apply image_app in H as (d1 & d2 & -> & H1 & H2). rewrite (IH _ H2). f_equal.
  apply image_app in H1 as (x1 & y1 & -> & A1 & B1). apply image_app in B1 as (x2 & x3 & -> & A2 & A3).
  apply image_one, image_put64 in A1. subst x1. unfold value_bytes. f_equal.
  apply image_when in A2 as [P2 Q2]. apply image_when in A3 as [P3 Q3]. f_equal.
  - destruct (N.testbit rf F_ID); [|auto]. specialize (P2 eq_refl). now apply image_one, image_put64 in P2.
  - destruct (N.testbit rf F_LOST); [|auto]. specialize (P3 eq_refl). now apply image_one, image_put64 in P3.
Qed.

Lemma len_values rf l : len (concat (map (value_bytes rf) l)) = group_entry_size rf * len l.
Proof.
  induction l as [|v l IH]; [change (len (@nil read_value)) with 0; rewrite N.mul_0_r; reflexivity|].
  cbn [map concat]. rewrite len_app, IH, len_cons. unfold value_bytes, group_entry_size.
  rewrite !len_app, len_le_bytes.
  destruct (N.testbit rf F_ID), (N.testbit rf F_LOST); rewrite ?len_le_bytes, ?len_nil;
    change (N.of_nat 8) with 8; change (len (@nil N)) with 0; lia.
Qed.

(** The members of the sample the READ field fills. *)
Definition after_read (a : attr) (s s0 : psample) : psample :=
  let rf := at_read_format a in
  let s1 := if N.testbit rf F_TIME_ENABLED then set_time_enabled (s_time_enabled s) s0 else s0 in
  let s2 := if N.testbit rf F_TIME_RUNNING then set_time_running (s_time_running s) s1 else s1 in
  if N.testbit rf F_GROUP then set_group (Some (map (seen rf) (group_of s))) s2
  else set_one (seen rf (s_one s)) s2.

Lemma gets_group a s s0 d :
  s_group s0 = None -> len (group_of s) < two64 -> s_time_enabled s < two64 -> s_time_running s < two64 ->
  Forall (fun v => rv_value v < two64 /\ rv_id v < two64 /\ rv_lost v < two64) (group_of s) ->
  N.testbit (at_read_format a) F_GROUP = true ->
  image (write_read a s) d -> gets (read_group_info (at_read_format a) s0) d (after_read a s s0).
Proof.
  intros Hs Hl He Hr Hf Hg Hi. unfold after_read. cbv zeta. rewrite Hg.
  unfold write_read in Hi. cbv zeta in Hi. rewrite Hg in Hi. fold (group_of s) in Hi.
  set (rf := at_read_format a) in *.
  apply image_app in Hi as (d1 & d' & -> & H1 & Hi). apply image_app in Hi as (d2 & d'' & -> & H2 & Hi).
  apply image_app in Hi as (d3 & d4 & -> & H3 & H4).
  apply image_one, image_put64 in H1. subst d1. apply image_values in H4. subst d4.
  unfold read_group_info. eapply gets_bind; [now apply gets_u64|].
  eapply gets_bind; [eapply gets_field64; [exact He|exact H2]|].
  eapply gets_bind; [eapply gets_field64; [exact Hr|exact H3]|].
  set (s2 := if N.testbit rf F_TIME_RUNNING then _ else _).
  assert (E : s_group s2 = None).
  { unfold s2. destruct (N.testbit rf F_TIME_RUNNING), (N.testbit rf F_TIME_ENABLED); destruct s0; exact Hs. }
  rewrite E. apply gets_guard.
  - unfold group_entry_size. destruct (N.testbit rf F_ID), (N.testbit rf F_LOST); lia.
  - rewrite len_values. lia.
  - rewrite <- (app_nil_r (concat _)). eapply gets_bind; [|apply gets_ret].
    rewrite to_nat_len, <- (map_length (seen rf)). apply gets_n.
    clear - Hf. induction Hf as [|v l (Hx & Hy & Hz) _ IH]; cbn [map]; constructor; auto.
    now apply gets_group_value.
Qed.

Lemma gets_read_info a s s0 d :
  s_one s0 = mkRv 0 0 0 -> s_time_enabled s < two64 -> s_time_running s < two64 ->
  rv_value (s_one s) < two64 /\ rv_id (s_one s) < two64 /\ rv_lost (s_one s) < two64 ->
  N.testbit (at_read_format a) F_GROUP = false ->
  image (write_read a s) d -> gets (read_read_info (at_read_format a) s0) d (after_read a s s0).
Proof.
  intros Hs He Hr (Hv & Hid & Hlo) Hg Hi. unfold after_read. cbv zeta. rewrite Hg.
  unfold write_read in Hi. cbv zeta in Hi. rewrite Hg in Hi.
  set (rf := at_read_format a) in *.
  apply image_app in Hi as (d1 & d' & -> & H1 & Hi). apply image_app in Hi as (d2 & d'' & -> & H2 & Hi).
  apply image_app in Hi as (d3 & d''' & -> & H3 & Hi). apply image_app in Hi as (d4 & d5 & -> & H4 & H5).
  apply image_one, image_put64 in H1. subst d1.
  unfold read_read_info.
  eapply gets_steps_cons.
  { exact (gets_one (fun v => set_one (mkRv v (rv_id (s_one s0)) (rv_lost (s_one s0))) s0) _ Hv). }
  rewrite Hs. cbn [rv_id rv_lost].
  eapply gets_steps_cons; [eapply gets_field64; [exact He|exact H2]|].
  eapply gets_steps_cons; [eapply gets_field64; [exact Hr|exact H3]|].
  set (sx := if N.testbit rf F_TIME_RUNNING then _ else _).
  assert (Ex : s_one sx = mkRv (rv_value (s_one s)) 0 0).
  { unfold sx. destruct (N.testbit rf F_TIME_RUNNING), (N.testbit rf F_TIME_ENABLED); destruct s0; reflexivity. }
  eapply gets_steps_cons.
  { apply image_when in H4 as [A B]. apply gets_on with (s1 := set_one (mkRv (rv_value (s_one s)) (rv_id (s_one s)) 0) sx).
    - intros T. apply A, image_one, image_put64 in T. subst d4. unfold rd_one_id. rewrite Ex. cbn [rv_value rv_lost].
      exact (gets_one (fun v => set_one (mkRv (rv_value (s_one s)) v 0) sx) _ Hid).
    - exact B. }
  set (sy := if N.testbit rf F_ID then _ else _).
  assert (Ey : s_one sy = mkRv (rv_value (s_one s)) (if N.testbit rf F_ID then rv_id (s_one s) else 0) 0).
  { unfold sy. destruct (N.testbit rf F_ID); [|exact Ex]. destruct sx; reflexivity. }
  rewrite <- (app_nil_r d5).
  eapply gets_steps_cons with (s1 := if N.testbit rf F_LOST then
     set_one (mkRv (rv_value (s_one s)) (if N.testbit rf F_ID then rv_id (s_one s) else 0) (rv_lost (s_one s))) sy
     else sy).
  { apply image_when in H5 as [A B]. apply gets_on.
    - intros T. apply A, image_one, image_put64 in T. subst d5. unfold rd_one_lost. rewrite Ey. cbn [rv_value rv_id].
      exact (gets_one (fun v => set_one (mkRv _ _ v) sy) _ Hlo).
    - exact B. }
  match goal with |- gets _ _ ?x => match goal with |- gets (run_steps [] ?y) _ _ => replace x with y; [apply gets_steps_nil|] end end.
  unfold sy, sx, seen. destruct s0.
  destruct (N.testbit rf F_TIME_RUNNING), (N.testbit rf F_TIME_ENABLED), (N.testbit rf F_ID),
    (N.testbit rf F_LOST); reflexivity.
Qed.

Lemma le_bytes_split n : forall m v,
  le_bytes (n + m) v = le_bytes n (v mod 256 ^ N.of_nat n) ++ le_bytes m (v / 256 ^ N.of_nat n).
Proof.
  induction n as [|n IH]; intros m v.
  - cbn [plus le_bytes app]. change (256 ^ N.of_nat 0) with 1. now rewrite N.div_1_r.
  - cbn [plus le_bytes app]. rewrite IH. rewrite Nat2N.inj_succ, N.pow_succ_r'.
    assert (Hp : 256 ^ N.of_nat n <> 0) by (apply N.pow_nonzero; discriminate).
    set (P := 256 ^ N.of_nat n) in *. rewrite (N.mod_mul_r v 256 P) by (auto; discriminate).
    assert (E1 : (v mod 256 + 256 * ((v / 256) mod P)) mod 256 = v mod 256).
    { rewrite (N.mul_comm 256), N.mod_add, N.mod_mod by discriminate. reflexivity. }
    assert (E2 : (v mod 256 + 256 * ((v / 256) mod P)) / 256 = (v / 256) mod P).
    { rewrite (N.mul_comm 256), N.div_add by discriminate.
      rewrite (N.div_small (v mod 256)) by (apply N.mod_lt; discriminate). lia. }
    rewrite E1, E2, <- N.div_div by (auto; discriminate). reflexivity.
Qed.

Lemma gets_weight_struct s w d :
  w < two64 -> image1 (put64 w) d -> gets (rd_weight_struct s) d (set_weight w s).
Proof.
  intros Hw Hi. apply image_put64 in Hi. subst d.
  assert (E : le_bytes 8 w = le_bytes 4 (w mod two32) ++ le_bytes 2 ((w / two32) mod two16)
                             ++ le_bytes 2 (w / two32 / two16)).
  { change 8%nat with (4 + (2 + 2))%nat. rewrite (le_bytes_split 4), (le_bytes_split 2). reflexivity. }
  rewrite E.
  intros r pre post Eb O S L. unfold rd_weight_struct. rewrite S.
  assert (G : gets (rlet v1 := read_u32 in rlet v2 := read_u16 in rlet v3 := read_u16 in
          rret (set_weight (v1 + two32 * (v2 + two16 * v3)) s))
     (le_bytes 4 (w mod two32) ++ le_bytes 2 ((w / two32) mod two16) ++ le_bytes 2 (w / two32 / two16))
     (set_weight (w mod two32 + two32 * ((w / two32) mod two16 + two16 * (w / two32 / two16))) s)).
  { eapply gets_bind; [apply gets_u32; unfold two32; lia|].
    eapply gets_bind; [apply gets_u16; unfold two16; lia|].
    rewrite <- (app_nil_r (le_bytes 2 _)).
    eapply gets_bind; [apply gets_u16; unfold two64, two32, two16 in *; lia|apply gets_ret]. }
  rewrite (G r pre post) by auto. do 2 f_equal. f_equal.
  unfold two32, two16. lia.
Qed.

(** ** All fields *)
Lemma up_ip (b : bool) v s : (if b then set_ip v s else s) = set_ip (if b then v else s_ip s) s.
Proof. destruct b; [reflexivity|]. now destruct s. Qed.
Lemma up_time (b : bool) v s : (if b then set_time v s else s) = set_time (if b then v else s_time s) s.
Proof. destruct b; [reflexivity|]. now destruct s. Qed.
Lemma up_addr (b : bool) v s : (if b then set_addr v s else s) = set_addr (if b then v else s_addr s) s.
Proof. destruct b; [reflexivity|]. now destruct s. Qed.
Lemma up_id (b : bool) v s : (if b then set_id v s else s) = set_id (if b then v else s_id s) s.
Proof. destruct b; [reflexivity|]. now destruct s. Qed.
Lemma up_stream_id (b : bool) v s : (if b then set_stream_id v s else s) = set_stream_id (if b then v else s_stream_id s) s.
Proof. destruct b; [reflexivity|]. now destruct s. Qed.
Lemma up_cpu (b : bool) v s : (if b then set_cpu v s else s) = set_cpu (if b then v else s_cpu s) s.
Proof. destruct b; [reflexivity|]. now destruct s. Qed.
Lemma up_period (b : bool) v s : (if b then set_period v s else s) = set_period (if b then v else s_period s) s.
Proof. destruct b; [reflexivity|]. now destruct s. Qed.
Lemma up_weight (b : bool) v s : (if b then set_weight v s else s) = set_weight (if b then v else s_weight s) s.
Proof. destruct b; [reflexivity|]. now destruct s. Qed.
Lemma up_data_src (b : bool) v s : (if b then set_data_src v s else s) = set_data_src (if b then v else s_data_src s) s.
Proof. destruct b; [reflexivity|]. now destruct s. Qed.
Lemma up_transaction (b : bool) v s : (if b then set_transaction v s else s) = set_transaction (if b then v else s_transaction s) s.
Proof. destruct b; [reflexivity|]. now destruct s. Qed.
Lemma up_phys_addr (b : bool) v s : (if b then set_phys_addr v s else s) = set_phys_addr (if b then v else s_phys_addr s) s.
Proof. destruct b; [reflexivity|]. now destruct s. Qed.
Lemma up_cgroup (b : bool) v s : (if b then set_cgroup v s else s) = set_cgroup (if b then v else s_cgroup s) s.
Proof. destruct b; [reflexivity|]. now destruct s. Qed.
Lemma up_data_page (b : bool) v s : (if b then set_data_page v s else s) = set_data_page (if b then v else s_data_page s) s.
Proof. destruct b; [reflexivity|]. now destruct s. Qed.
Lemma up_code_page (b : bool) v s : (if b then set_code_page v s else s) = set_code_page (if b then v else s_code_page s) s.
Proof. destruct b; [reflexivity|]. now destruct s. Qed.
Lemma up_raw (b : bool) v s : (if b then set_raw v s else s) = set_raw (if b then v else s_raw s) s.
Proof. destruct b; [reflexivity|]. now destruct s. Qed.
Lemma up_callchain (b : bool) v s : (if b then set_callchain v s else s) = set_callchain (if b then v else s_callchain s) s.
Proof. destruct b; [reflexivity|]. now destruct s. Qed.

Lemma up_tid (b : bool) p t s :
  (if b then set_tid t (set_pid p s) else s)
  = set_tid (if b then t else s_tid s) (set_pid (if b then p else s_pid s) s).
Proof. destruct b; [reflexivity|]. now destruct s. Qed.
Lemma up_branch (b : bool) x y s :
  (if b then set_branch x (set_no_hw_idx y s) else s)
  = set_branch (if b then x else s_branch s) (set_no_hw_idx (if b then y else s_no_hw_idx s) s).
Proof. destruct b; [reflexivity|]. now destruct s. Qed.
Lemma up_read (b : bool) a s s0 :
  (if b then after_read a s s0 else s0)
  = let rf := at_read_format a in
    set_group (if b && N.testbit rf F_GROUP then Some (map (seen rf) (group_of s)) else s_group s0)
     (set_one (if b && negb (N.testbit rf F_GROUP) then seen rf (s_one s) else s_one s0)
       (set_time_running (if b && N.testbit rf F_TIME_RUNNING then s_time_running s else s_time_running s0)
         (set_time_enabled (if b && N.testbit rf F_TIME_ENABLED then s_time_enabled s else s_time_enabled s0) s0))).
Proof.
  unfold after_read. cbv zeta.
  destruct b, (N.testbit (at_read_format a) F_GROUP), (N.testbit (at_read_format a) F_TIME_ENABLED),
    (N.testbit (at_read_format a) F_TIME_RUNNING); now destruct s0.
Qed.

Lemma image_weight (x y : bool) w d :
  image (when (x || y) [put64 w]) d ->
  exists d1 d2, d = d1 ++ d2 /\ image (when x [put64 w]) d1 /\ image (when (negb x && y) [put64 w]) d2.
Proof.
  intros H. destruct x; cbn [orb negb andb when] in *.
  - exists d, []. split; [now rewrite app_nil_r|]. split; [exact H|constructor].
  - exists [], d. split; [reflexivity|]. split; [constructor|exact H].
Qed.

Lemma cons_nil (f : step) l s s2 d :
  gets (run_steps l s) d s2 -> gets (run_steps (on false f :: l) s) d s2.
Proof. intros H. exact (gets_steps_cons _ _ _ _ _ [] d (gets_off f s) H). Qed.

Ltac take H d Hd := apply image_app in H as (d & ? & -> & Hd & H).

Ltac on_now g :=
  match goal with |- gets (on _ _ ?x) _ _ =>
    let y := eval cbv beta in (g x) in apply gets_on with (s1 := y) end.

Lemma fields_back a ty f s d :
  sample_ok s -> readable a ty -> (forall b, b < 64 -> N.testbit f b = carries a ty b) -> f < 2 ^ 25 ->
  image (all_chunks a ty s) d ->
  exists s', gets (read_fields a ty f fresh_sample) d s' /\ recovered a ty s s'.
Proof.
  intros (K1 & K2 & K3 & K4 & K5 & K6 & K7 & K8 & K9 & K10 & K11 & K12 & K13 & K14 & K15 & K16 & K17 & K18
          & K19 & K20 & K21 & K22 & K23 & K24 & K25 & K26 & K27) Hr Hf H25 Hi.
  apply Forall_inv in K21 as Kone. apply Forall_inv_tail in K21.
  destruct (readable_bits a ty Hr) as (R1 & R2 & R3 & R4).
  unfold all_chunks in Hi. cbv zeta in Hi.
  take Hi d1 I1. take Hi d2 I2. take Hi d3 I3. take Hi d4 I4. take Hi d5 I5. take Hi d6 I6.
  take Hi d7 I7. take Hi d8 I8. take Hi d9 I9. take Hi d10 I10. take Hi d11 I11. take Hi d12 I12.
  take Hi d13 I13. take Hi d14 I14. take Hi dw Iw. take Hi d16 I16. take Hi d17 I17. take Hi d18 I18.
  take Hi d19 I19. apply image_app in Hi as (d20 & d21 & -> & I20 & I21).
  apply image_weight in Iw as (dx & dy & -> & Ix & Iy). rewrite <- app_assoc.
  unfold read_fields. cbv zeta. rewrite !Hf by reflexivity. rewrite R1, R2, R3, R4.
  replace (negb (N.shiftr f 25 =? 0)) with false.
  2:{ rewrite N.shiftr_div_pow2, N.div_small by exact H25. reflexivity. }
  eexists. split.
  - eapply gets_steps_cons; [eapply gets_field64; [exact K6|exact I1]|]. rewrite up_id.
    eapply gets_steps_cons; [eapply gets_field64; [exact K1|exact I2]|]. rewrite up_ip.
    eapply gets_steps_cons; [eapply gets_tid; [exact K2|exact K3|exact I3]|]. rewrite up_tid.
    eapply gets_steps_cons; [eapply gets_field64; [exact K4|exact I4]|]. rewrite up_time.
    eapply gets_steps_cons; [eapply gets_field64; [exact K5|exact I5]|]. rewrite up_addr.
    eapply gets_steps_cons; [eapply gets_field64; [exact K6|exact I6]|]. rewrite up_id.
    eapply gets_steps_cons; [eapply gets_field64; [exact K7|exact I7]|]. rewrite up_stream_id.
    eapply gets_steps_cons; [eapply gets_cpu; [exact K11|exact I8]|]. rewrite up_cpu.
    eapply gets_steps_cons; [eapply gets_field64; [exact K6|exact I9]|]. rewrite up_id.
    eapply gets_steps_cons; [eapply gets_field64; [exact K8|exact I10]|]. rewrite up_period.
    cbn [fresh_sample set_ip set_pid set_tid set_time set_addr set_id set_stream_id set_cpu set_period
      s_ip s_pid s_tid s_time s_addr s_id s_stream_id s_cpu s_period].
    eapply gets_steps_cons.
    { apply image_when in I11 as [A B]. on_now (fun x => after_read a s x); [|exact B].
      intros T. specialize (A T). destruct (N.testbit (at_read_format a) F_GROUP) eqn:G.
      - apply gets_group; auto; try reflexivity; unfold two64; lia.
      - apply gets_read_info; auto. }
    rewrite up_read. cbv zeta. cbn [set_group set_one set_time_running set_time_enabled
      s_group s_one s_time_enabled s_time_running].
    eapply gets_steps_cons.
    { apply image_when in I12 as [A B]. on_now (fun x => set_callchain (Some (chain_of s)) x); [|exact B].
      intros T. specialize (A T). apply gets_callchain; auto; try reflexivity; [unfold two64; lia|].
      unfold write_callchain in A. unfold chain_of. destruct (s_callchain s); exact A. }
    rewrite up_callchain.
    eapply gets_steps_cons.
    { apply image_when in I13 as [A B]. on_now (fun x => set_raw (s_raw s) x); [|exact B].
      intros T. apply gets_raw; auto. now apply image_one, A. }
    rewrite up_raw.
    cbn [set_callchain set_raw s_raw s_callchain].
    eapply gets_steps_cons.
    { apply image_when in I14 as [A B].
      on_now (fun x => set_branch (Some (mkBs (if N.testbit (at_branch_type a) BR_HW_INDEX then hw_idx_of s else 0)
                            (branches_of s)))
       (set_no_hw_idx (Some (negb (N.testbit (at_branch_type a) BR_HW_INDEX))) x)); [|exact B].
      intros T. apply gets_branch; auto; try reflexivity; unfold two64; lia. }
    rewrite up_branch. cbn [set_branch set_no_hw_idx s_branch s_no_hw_idx].
    do 3 apply cons_nil.
    eapply gets_steps_cons; [eapply gets_field64; [exact K9|exact Ix]|]. rewrite up_weight.
    eapply gets_steps_cons.
    { apply image_when in Iy as [A B].
      on_now (fun x => set_weight (s_weight s) x); [|exact B].
      intros T. apply gets_weight_struct; auto. now apply image_one, A. }
    rewrite up_weight.
    eapply gets_steps_cons; [eapply gets_field64; [exact K12|exact I16]|]. rewrite up_data_src.
    eapply gets_steps_cons; [eapply gets_field64; [exact K10|exact I17]|]. rewrite up_transaction.
    apply cons_nil.
    eapply gets_steps_cons; [eapply gets_field64; [exact K15|exact I18]|]. rewrite up_phys_addr.
    eapply gets_steps_cons; [eapply gets_field64; [exact K16|exact I19]|]. rewrite up_cgroup.
    eapply gets_steps_cons; [eapply gets_field64; [exact K17|exact I20]|]. rewrite up_data_page.
    rewrite <- (app_nil_r d21).
    eapply gets_steps_cons; [eapply gets_field64; [exact K18|exact I21]|]. rewrite up_code_page.
    cbn [set_weight set_data_src set_transaction set_phys_addr set_cgroup set_data_page set_code_page
      s_weight s_data_src s_transaction s_phys_addr s_cgroup s_data_page s_code_page].
    apply cons_nil. apply gets_steps_nil.
  - clear - R4. unfold formats.
    assert (G : forall l, Forall2 (fun v v' => rv_value v' = rv_value v /\
                         (N.testbit (at_read_format a) F_ID = true -> rv_id v' = rv_id v) /\
                         (N.testbit (at_read_format a) F_LOST = true -> rv_lost v' = rv_lost v))
      l (map (seen (at_read_format a)) l)).
    { induction l as [|v l IH]; cbn [map]; constructor; [|exact IH].
      cbn [seen rv_value rv_id rv_lost]. split; [reflexivity|]. split; intros E; now rewrite E. }
    constructor; cbn [s_ip s_pid s_tid s_time s_addr s_id s_stream_id s_period s_weight s_transaction s_cpu
      s_data_src s_no_hw_idx s_raw s_callchain s_branch s_time_enabled s_time_running s_group s_one
      s_phys_addr s_cgroup s_data_page s_code_page]; try reflexivity.
    + destruct (ty =? R_SAMPLE), (carries a ty B_ID), (carries a ty B_IDENTIFIER); reflexivity.
    + destruct (carries a ty B_WEIGHT), (carries a ty B_WEIGHT_STRUCT); reflexivity.
    + unfold formats. intros E. now rewrite E.
    + unfold formats. intros E. unfold group_of at 2. cbn [s_group]. rewrite E. apply G.
    + unfold formats. intros E. rewrite E. reflexivity.
Qed.

