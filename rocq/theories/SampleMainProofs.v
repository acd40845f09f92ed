(** Whole calls: writing, reading back, and reading anything. *)
From Verif Require Import Base BytesModel BytesProofs BytesMoreProofs BufferModel BufferSpec
  BufferProofs EventSizeModel EventSizeSpec EventSizeProofs SampleModel SampleSpec SampleProofs
  SampleReadProofs SampleSafeProofs.
Local Open Scope N_scope.

Definition cbytes (c : chunk) : Prop := bytes_ok (ck_bytes c) = true.

Lemma fill_bytes cs : Forall cbytes cs -> forall old, bytes_ok old = true -> bytes_ok (fill cs old) = true.
Proof.
  induction 1 as [|c cs Hc _ IH]; intros old Ho; cbn [fill]; [reflexivity|].
  rewrite !bytes_ok_app, Hc, IH by now apply bytes_ok_skipn. cbn [andb]. rewrite andb_true_r.
  unfold slice. now apply bytes_ok_firstn, bytes_ok_skipn.
Qed.

Lemma cb_put64 v : cbytes (put64 v). Proof. apply le_bytes_ok. Qed.
Lemma cb_put32 x y : cbytes (put32_32 x y).
Proof. unfold cbytes. cbn [put32_32 ck_bytes]. now rewrite bytes_ok_app, !le_bytes_ok. Qed.
Lemma cb_sized d : bytes_ok d = true -> cbytes (put_sized d).
Proof. intros H. unfold cbytes. cbn [put_sized ck_bytes]. now rewrite bytes_ok_app, le_bytes_ok. Qed.
Lemma cb_when b l : Forall cbytes l -> Forall cbytes (when b l).
Proof. destruct b; [auto|constructor]. Qed.
Lemma cb_flat {A} (g : A -> list chunk) l : (forall x, Forall cbytes (g x)) -> Forall cbytes (flat_map g l).
Proof. intros H. induction l; cbn [flat_map]; [constructor|]. apply Forall_app; split; auto. Qed.

Lemma cb_all a ty s : bytes_ok (s_raw s) = true -> Forall cbytes (all_chunks a ty s).
Proof.
  intros Hr. assert (P1 : forall v, Forall cbytes [put64 v]) by (intros; constructor; [apply cb_put64|constructor]).
  assert (P2 : forall x y, Forall cbytes [put32_32 x y]) by (intros; constructor; [apply cb_put32|constructor]).
  assert (PR : Forall cbytes (write_read a s)).
  { unfold write_read. cbv zeta. destruct (N.testbit (at_read_format a) F_GROUP).
    - apply Forall_app; split; [apply P1|]. apply Forall_app; split; [apply cb_when, P1|].
      apply Forall_app; split; [apply cb_when, P1|]. apply cb_flat. intros v.
      apply Forall_app; split; [apply P1|]. apply Forall_app; split; apply cb_when, P1.
    - apply Forall_app; split; [apply P1|]. apply Forall_app; split; [apply cb_when, P1|].
      apply Forall_app; split; [apply cb_when, P1|]. apply Forall_app; split; apply cb_when, P1. }
  assert (PC : Forall cbytes (write_callchain s)).
  { unfold write_callchain. destruct (s_callchain s) as [l|]; [|apply P1]. constructor; [apply cb_put64|].
    induction l; cbn [map]; constructor; auto using cb_put64. }
  assert (PB : forall hw, Forall cbytes (branch_chunks hw s)).
  { intros hw. unfold branch_chunks. apply Forall_app; split; [apply P1|].
    apply Forall_app; split; [apply cb_when, P1|]. apply cb_flat. intros b.
    repeat (constructor; [apply cb_put64|]). constructor. }
  assert (PS : Forall cbytes [put_sized (s_raw s)]) by (constructor; [now apply cb_sized|constructor]).
  unfold all_chunks. cbv zeta.
  repeat (apply Forall_app; split; [apply cb_when; auto|]). apply cb_when; auto.
Qed.

(** ** Writing *)
Lemma data_size a s ty :
  supported_type ty = true -> readable a ty -> hw_idx_agrees a ty s -> sample_ok s ->
  sample_data_size a s ty = Ok (field_bytes a ty s).
Proof.
  intros Ht Hr Hh Hs. assert (Hc := write_chunks_eq a ty s Ht Hr Hh).
  assert (Hb := total_bound a ty s _ (sample_ok_short s Hs) Hc).
  unfold sample_data_size. rewrite Hc. cbn [obind]. f_equal.
  rewrite chunks_size_total by (unfold two64; lia).
  apply total_all. now apply sample_ok_short.
Qed.

Lemma written a s e off n :
  raw_event e -> len e < two64 -> sample_ok s -> supported_type (ev_type e) = true ->
  readable a (ev_type e) -> hw_idx_agrees a (ev_type e) s ->
  event_data_size e = Ok off -> sample_data_size a s (ev_type e) = Ok n -> off + n <= len e ->
  exists pre old new post, e = pre ++ old ++ post /\ len pre = off /\ len old = n /\ len new = n /\
    write_sample_info a s e = Ok (pre ++ new ++ post, off + n =? ev_size e).
Proof.
  intros He Hl Hs Ht Hr Hh Hd Hn Hfit. assert (Hc := write_chunks_eq a _ s Ht Hr Hh).
  assert (Hsh := sample_ok_short s Hs).
  assert (n = total (all_chunks a (ev_type e) s)).
  { rewrite (data_size a s _ Ht Hr Hh Hs) in Hn. apply Ok_inj in Hn. rewrite <- Hn. symmetry. apply total_all.
    apply Hsh. }
  subst n. destruct (write_ok a s e off _ He Hl Hsh Ht Hd Hc Hfit) as (pre & old & post & E & L1 & L2 & E2).
  exists pre, old, (fill (all_chunks a (ev_type e) s) old), post. split; [exact E|]. split; [exact L1|].
  split; [exact L2|]. split; [|exact E2]. apply len_fill; [|exact L2].
  apply (wf_chunks a (ev_type e) s); [apply Hsh|exact Hc].
Qed.

Lemma recovered_nothing a ty s : reads_something a ty = false -> recovered a ty s fresh_sample.
Proof.
  intros H. assert (C := fun b => carries_nothing a ty b H).
  constructor; rewrite ?C; cbn [andb orb]; try reflexivity; discriminate.
Qed.

(** Reading a buffer that ends with the image. *)
Lemma fields_supported a ty :
  supported_type ty = true -> at_sample_type a < two64 -> reads_something a ty = true ->
  exists f, sample_fields ty (at_sample_type a) = Ok f /\ (forall b, b < 64 -> N.testbit f b = carries a ty b) /\
    (readable a ty -> f < 2 ^ 25).
Proof. intros. now apply fields_ok. Qed.

Lemma roundtrip a s e e' :
  raw_event e -> len e < two64 -> sample_ok s -> readable a (ev_type e) -> hw_idx_agrees a (ev_type e) s ->
  write_sample_info a s e = Ok (e', true) ->
  exists s', read_sample_info a false e' fresh_sample = Ok s' /\ recovered a (ev_type e) s s'.
Proof.
  intros He Hl Hs Hr Hh Hw. assert (Hsh := sample_ok_short s Hs).
  destruct (write_true a s e e' He Hl Hsh Hw)
    as (Ht & off & cs & pre & old & post & Hd & Hc & Hwf & Hsz & Hb & E & L1 & L2 & ->).
  assert (Hall : cs = all_chunks a (ev_type e) s).
  { rewrite (write_chunks_eq a _ s Ht Hr Hh) in Hc. apply Ok_inj in Hc. auto. }
  assert (Lf := len_fill cs old Hwf L2).
  assert (Him := fill_image cs old Hwf L2).
  set (new := fill cs old) in *.
  assert (Hb' : bytes_ok (pre ++ new ++ post) = true).
  { assert (G : bytes_ok e = true) by apply He. rewrite E, !bytes_ok_app in G.
    apply andb_prop in G as [G1 G]. apply andb_prop in G as [G2 G3].
    rewrite !bytes_ok_app, G1, G3. cbn [andb]. rewrite andb_true_r. unfold new.
    apply fill_bytes; [|exact G2]. subst cs. apply cb_all. apply Hs. }
  assert (Hl' : len (pre ++ new ++ post) = len e) by (rewrite E, !len_app; lia).
  assert (Hp : firstn (N.to_nat off) (pre ++ new ++ post) = firstn (N.to_nat off) e).
  { rewrite E, <- L1, to_nat_len, !firstn_app, Nat.sub_diag, !firstn_O. reflexivity. }
  destruct (data_size_prefix e _ off He Hb' Hl' Hd Hp) as (Hd' & He' & Et & Es).
  assert (H16 := ev_size_bound e (proj1 He)).
  assert (Hbuf : mem_read (pre ++ new ++ post) 0 (ev_size e) = Ok (pre ++ new)).
  { unfold mem_read. assert (Hle : (0 + ev_size e <=? len (pre ++ new ++ post)) = true).
    { apply N.leb_le. destruct He as (_ & _ & G). lia. }
    rewrite Hle. f_equal. rewrite app_assoc, <- (app_nil_l ((pre ++ new) ++ post)).
    apply slice_app; [reflexivity|]. rewrite len_app. lia. }
  assert (Lbuf : len (pre ++ new) = ev_size e) by (rewrite len_app; lia).
  unfold read_sample_info. rewrite Et, Ht. cbn [negb]. unfold read_from_data. rewrite Hd', Es, Et, Hbuf.
  cbn [obind]. unfold seek_set. cbn [rbuf].
  destruct (N.ltb_spec (len (pre ++ new)) off) as [H|_]; [lia|].
  fold (reads_something a (ev_type e)). destruct (reads_something a (ev_type e)) eqn:Er; cbn [negb].
  - destruct (fields_ok a _ Ht Er (proj1 Hr)) as (f & -> & Hf & H25). cbn [obind]. rewrite Hall in Him.
    destruct (fields_back a _ f s new Hs Hr Hf (H25 Hr) Him) as (s' & Hg & Hrec).
    specialize (Hg (set_off (mkReader (pre ++ new) 0 false) off) pre []).
    cbn [rbuf roff rswap set_off] in Hg. rewrite app_nil_r in Hg.
    rewrite Hg; [|reflexivity|now symmetry|reflexivity|unfold two64, two16 in *; lia].
    exists s'. cbn [obind roff set_off].
    replace (off + len new =? ev_size e) with true; [auto|]. symmetry. apply N.eqb_eq. lia.
  - cbn [obind roff set_off]. exists fresh_sample.
    assert (T0 : total cs = 0).
    { subst cs. unfold all_chunks. cbv zeta. rewrite !(carries_nothing a (ev_type e)) by exact Er.
      now rewrite !andb_false_r. }
    replace (off =? ev_size e) with true; [|symmetry; apply N.eqb_eq; lia].
    split; [reflexivity|]. now apply recovered_nothing.
Qed.

(** ** Reading anything *)
Lemma values_sample_ok s :
  values_ok s -> len (s_raw s) < two16 -> len (chain_of s) < two16 -> len (group_of s) < two16 ->
  len (branches_of s) < two16 -> sample_ok s.
Proof.
  intros H H1 H2 H3 H4. unfold values_ok in H. unfold sample_ok. change value_ok with
    (fun v => rv_value v < two64 /\ rv_id v < two64 /\ rv_lost v < two64) in H.
  unfold two16 in *. intuition lia.
Qed.

Lemma read_anything a sw e :
  raw_event e -> at_sample_type a < two64 ->
  match read_sample_info a sw e fresh_sample with
  | Ok s => supported_type (ev_type e) = true /\
      exists off pre d post, event_data_size e = Ok off /\ e = pre ++ d ++ post /\ len pre = off /\
        off + len d = ev_size e /\ len d = field_bytes a (ev_type e) s /\
        sample_ok s /\ hw_idx_agrees a (ev_type e) s /\ readable a (ev_type e) /\
        len (s_raw s) <= ev_size e /\ len (chain_of s) <= ev_size e /\ len (group_of s) <= ev_size e /\
        len (branches_of s) <= ev_size e /\
        (sw = false -> (carries a (ev_type e) B_ID && carries a (ev_type e) B_IDENTIFIER) = false ->
         (carries a (ev_type e) B_CPU = true -> slice d (cpu_word a (ev_type e) + 4) 4 = [0; 0; 0; 0]) ->
         image (all_chunks a (ev_type e) s) d)
  | Fail => True
  | _ => False
  end.
Proof.
  intros He Ha. unfold read_sample_info.
  destruct (supported_type (ev_type e)) eqn:Ht; cbn [negb]; [|exact I].
  unfold read_from_data.
  destruct (data_size_total e He) as [Hx|(off & fixed & Hd & _ & Hf & Hn & H8)]; [rewrite Hx; exact I|].
  rewrite Hd. cbn [obind]. assert (H16 := ev_size_bound e (proj1 He)).
  destruct He as (Hb & Hl8 & Hle).
  destruct (split_at e (ev_size e) Hle) as (buf & rest & E & Lb).
  assert (Hbuf : mem_read e 0 (ev_size e) = Ok buf).
  { unfold mem_read. assert (Hle' : (0 + ev_size e <=? len e) = true) by (apply N.leb_le; lia).
    rewrite Hle'. f_equal. rewrite E at 1. rewrite <- (app_nil_l (buf ++ rest)). now apply slice_app. }
  rewrite Hbuf. cbn [obind]. unfold seek_set. cbn [rbuf].
  destruct (N.ltb_spec (len buf) off) as [H|Hoff]; [exact I|].
  assert (Hbb : bytes_ok buf = true).
  { rewrite E, bytes_ok_app in Hb. now apply andb_prop in Hb as [? _]. }
  fold (reads_something a (ev_type e)). destruct (reads_something a (ev_type e)) eqn:Er; cbn [negb].
  - destruct (fields_ok a _ Ht Er Ha) as (f & -> & Hbits & _). cbn [obind].
    set (r := set_off (mkReader buf 0 sw) off).
    assert (Hg : good sw r).
    { unfold good, r. cbn [rbuf roff rswap set_off]. repeat split; auto. lia. }
    assert (S := fields_safe sw a (ev_type e) f Hbits r Hg).
    destruct (read_fields a (ev_type e) f fresh_sample r) as [[s| | | |] r']; cbn [obind]; auto.
    destruct S as (pre & d & post & Eb & Lp & -> & ((R1 & R2 & R3 & R4 & R5) & V & ((C0 & C1) & C2 & C3 & C4) & A & T & Im)).
    unfold r in *. cbn [rbuf roff rswap set_off] in *.
    destruct (N.eqb_spec (off + len d) (ev_size e)) as [Hsz|]; [|exact I].
    split; [reflexivity|]. exists off, pre, d, rest.
    assert (post = []) as ->.
    { apply len_0. rewrite Eb, !len_app in Lb. lia. }
    rewrite app_nil_r in Eb.
    assert (Hok : sample_ok s) by (apply values_sample_ok; auto; lia).
    assert (Hrd : readable a (ev_type e)).
    { split; [exact Ha|]. intros Es. assert (C : forall b, carries a (ev_type e) b = N.testbit (at_sample_type a) b).
      { intros b. unfold carries. rewrite Es. change (R_SAMPLE =? R_SAMPLE) with true. cbn [orb]. apply andb_true_r. }
      rewrite !C in *. repeat split; auto. apply lt_pow2_bits. intros j Hj.
      destruct (N.lt_ge_cases j 64) as [H|H].
      - rewrite <- C, <- Hbits by exact H. apply (bits_lt_pow2 f 25); auto.
      - apply (bits_lt_pow2 _ 64); auto. }
    split; [reflexivity|]. split; [rewrite E, Eb, <- app_assoc; reflexivity|]. split; [exact Lp|].
    split; [exact Hsz|]. split; [rewrite T; apply total_all; unfold two16 in *; lia|].
    split; [exact Hok|]. split; [exact A|]. split; [exact Hrd|].
    split; [lia|]. split; [lia|]. split; [lia|]. split; [lia|]. exact Im.
  - cbn [obind roff set_off]. destruct (N.eqb_spec off (ev_size e)) as [Hsz|]; [|exact I].
    split; [reflexivity|]. exists off, buf, [], rest. cbn [app].
    assert (C := fun b => carries_nothing a (ev_type e) b Er).
    split; [reflexivity|]. split; [exact E|]. split; [lia|].
    split; [change (len (@nil N)) with 0; lia|].
    split; [unfold field_bytes; cbv zeta; cbn [map]; rewrite !C; reflexivity|].
    split; [repeat split; try reflexivity; repeat constructor|].
    split; [intros X; rewrite C in X; discriminate|].
    split.
    { split; [exact Ha|]. intros Es. unfold reads_something in Er. rewrite Es in Er. discriminate. }
    split; [change (len (s_raw fresh_sample)) with 0; lia|].
    split; [change (len (chain_of fresh_sample)) with 0; lia|].
    split; [change (len (group_of fresh_sample)) with 0; lia|].
    split; [change (len (branches_of fresh_sample)) with 0; lia|].
    intros _ _ _. unfold all_chunks. cbv zeta. rewrite !C, !andb_false_r. constructor.
Qed.

Lemma slice_inner (pre d post : list N) o n :
  o + n <= len d -> slice (pre ++ d ++ post) (len pre + o) n = slice d o n.
Proof.
  intros H. destruct (split_at d o) as (x & y & -> & Lx); [lia|]. rewrite len_app in H.
  destruct (split_at y n) as (z & w & -> & Lz); [lia|].
  rewrite (slice_app x z w) by auto.
  replace (pre ++ (x ++ z ++ w) ++ post) with ((pre ++ x) ++ z ++ (w ++ post)) by (rewrite <- !app_assoc; reflexivity).
  apply slice_app; [rewrite len_app; lia|auto].
Qed.

Lemma cpu_word_inside a ty s :
  carries a ty B_CPU = true -> cpu_word a ty + 8 <= field_bytes a ty s.
Proof.
  intros H. unfold cpu_word, field_bytes. cbv zeta. cbn [map app]. rewrite !words_cons, words_nil, H.
  assert (X : (if (ty =? R_SAMPLE) && carries a ty B_IDENTIFIER then 1 else 0)
              <= (if carries a ty B_IDENTIFIER then 1 else 0)).
  { destruct (ty =? R_SAMPLE), (carries a ty B_IDENTIFIER); cbn [andb]; lia. }
  repeat match goal with |- context [if ?b then 1 else 0] =>
    let v := fresh "v" in set (v := if b then 1 else 0) in *; clearbody v end.
  repeat match goal with |- context [if ?b then ?x else 0] =>
    let v := fresh "v" in set (v := if b then x else 0) in *; clearbody v end.
  lia.
Qed.

Lemma rewrite_same a e s :
  raw_event e -> len e < two64 -> at_sample_type a < two64 ->
  read_sample_info a false e fresh_sample = Ok s ->
  (carries a (ev_type e) B_ID && carries a (ev_type e) B_IDENTIFIER) = false ->
  (forall off, event_data_size e = Ok off -> carries a (ev_type e) B_CPU = true ->
   slice e (off + cpu_word a (ev_type e) + 4) 4 = [0; 0; 0; 0]) ->
  write_sample_info a s e = Ok (e, true).
Proof.
  intros He Hl Ha Hrd Hid Hcpu. assert (G := read_anything a false e He Ha). rewrite Hrd in G.
  destruct G as (Ht & off & pre & d & post & Hd & E & Lp & Hsz & Hfb & Hok & Hh & Hr & _ & _ & _ & _ & Him).
  assert (Hc := write_chunks_eq a _ s Ht Hr Hh). assert (Hsh := sample_ok_short s Hok).
  assert (Im : image (all_chunks a (ev_type e) s) d).
  { apply Him; auto. intros C. specialize (Hcpu off Hd C).
    assert (X := cpu_word_inside a _ s C). rewrite <- Hcpu.
    rewrite <- (slice_inner pre d post) by lia. rewrite <- E, Lp. f_equal. lia. }
  assert (Ld := image_len _ _ Im).
  destruct (write_ok a s e off _ He Hl Hsh Ht Hd Hc) as (pre' & old & post' & E' & L1 & L2 & Ew).
  { destruct He as (_ & _ & ?). lia. }
  assert (S : pre' = pre /\ old = d /\ post' = post).
  { rewrite E in E'. assert (P1 := f_equal (firstn (N.to_nat off)) E').
    assert (F : forall x y : list N, len x = off -> firstn (N.to_nat off) (x ++ y) = x).
    { intros x y <-. apply firstn_len_app. }
    rewrite !F in P1 by auto. subst pre'. apply app_inv_head in E'.
    assert (P2 := f_equal (firstn (N.to_nat (len d))) E'). rewrite firstn_len_app in P2.
    replace (len d) with (len old) in P2 by lia. rewrite firstn_len_app in P2. subst old.
    apply app_inv_head in E'. auto. }
  destruct S as (-> & -> & ->). rewrite Ew, (fill_same _ _ Im), <- E, <- Ld, Hsz, N.eqb_refl. reflexivity.
Qed.
