(** Reading any event: what a successful read consumed. *)
From Verif Require Import Base BytesModel BytesProofs BytesMoreProofs BufferModel BufferSpec
  BufferProofs EventSizeModel EventSizeSpec EventSizeProofs SampleModel SampleSpec SampleProofs
  SampleReadProofs.
Local Open Scope N_scope.

Definition good (sw : bool) (r : reader) : Prop :=
  rswap r = sw /\ roff r <= len (rbuf r) /\ bytes_ok (rbuf r) = true /\ len (rbuf r) < two16.

(** [f] succeeds or fails cleanly, and what it consumed when it succeeded is
    described by [Q]. *)
Definition safe {A} (sw : bool) (f : rcall A) (Q : A -> list N -> Prop) : Prop :=
  forall r, good sw r ->
    match f r with
    | (Ok x, r') => exists pre d post, rbuf r = pre ++ d ++ post /\ len pre = roff r /\
                      r' = set_off r (roff r + len d) /\ Q x d
    | (Fail, _) => True
    | _ => False
    end.

Lemma safe_weaken {A} sw (f : rcall A) (Q Q' : A -> list N -> Prop) :
  safe sw f Q -> (forall x d, Q x d -> Q' x d) -> safe sw f Q'.
Proof.
  intros H I r Hr. specialize (H r Hr). destruct (f r) as [[x| | | |] r']; auto.
  destruct H as (pre & d & post & E1 & E2 & E3 & HQ). exists pre, d, post. auto.
Qed.

Lemma safe_ret {A} sw (x : A) (Q : A -> list N -> Prop) : Q x [] -> safe sw (rret x) Q.
Proof.
  intros H r (_ & Ho & _). cbn. destruct (split_at (rbuf r) (roff r) Ho) as (a & b & E & L).
  exists a, [], b. split; [exact E|]. split; [exact L|]. split; [|exact H].
  unfold set_off. rewrite len_nil, N.add_0_r. now destruct r.
Qed.

Lemma good_moved sw r pre d post :
  good sw r -> rbuf r = pre ++ d ++ post -> len pre = roff r -> good sw (set_off r (roff r + len d)).
Proof.
  intros (H1 & H2 & H3 & H4) E L. unfold good. cbn [rbuf roff rswap set_off].
  repeat split; auto. rewrite E, !len_app. lia.
Qed.

Lemma len_0 {A} (l : list A) : len l = 0 -> l = [].
Proof. destruct l; [reflexivity|]. rewrite len_cons. lia. Qed.

Lemma safe_bind {A B} sw (f : rcall A) (g : A -> rcall B) P Q :
  safe sw f P -> (forall x d, P x d -> safe sw (g x) (fun y d' => Q y (d ++ d'))) ->
  safe sw (rbind f g) Q.
Proof.
  intros Hf Hg r Hr. unfold rbind. specialize (Hf r Hr).
  destruct (f r) as [[x| | | |] r1]; auto.
  destruct Hf as (pre & d & post & E & L & -> & HP).
  specialize (Hg x d HP _ (good_moved sw r pre d post Hr E L)).
  destruct (g x (set_off r (roff r + len d))) as [[y| | | |] r2]; auto.
  cbn [rbuf roff set_off] in Hg. destruct Hg as (pre' & d' & post' & E' & L' & -> & HQ).
  assert (S : pre' = pre ++ d /\ post = d' ++ post').
  { assert (EE : (pre ++ d) ++ post = pre' ++ d' ++ post') by (rewrite <- app_assoc; congruence).
    apply app_eq_app in EE. assert (LL : len pre' = len (pre ++ d)) by (rewrite len_app; lia).
    destruct EE as (l & [[A1 A2]|[A1 A2]]).
    - rewrite A1, len_app in LL. assert (l = []) as -> by (apply len_0; lia).
      rewrite app_nil_r in A1. cbn [app] in A2. split; congruence.
    - rewrite A1, len_app in LL. assert (l = []) as -> by (apply len_0; lia).
      rewrite app_nil_r in A1. cbn [app] in A2. split; congruence. }
  destruct S as [-> ->]. exists pre, (d ++ d'), post'. rewrite <- app_assoc. split; [exact E|].
  split; [exact L|]. split; [|exact HQ]. unfold set_off. cbn [rbuf roff rswap].
  rewrite len_app. f_equal. lia.
Qed.

Lemma safe_fail {A} sw (Q : A -> list N -> Prop) : safe sw rfail Q.
Proof. intros r _. exact I. Qed.

Lemma good_words sw r : good sw r -> reader_words r = true.
Proof.
  intros (_ & H1 & _ & H2). unfold reader_words. apply andb_true_intro. unfold two64, two16 in *. lia.
Qed.

Lemma delivers_parts r n d r' :
  delivers r n d r' -> bytes_ok (rbuf r) = true ->
  exists pre post, rbuf r = pre ++ d ++ post /\ len pre = roff r /\ r' = set_off r (roff r + len d) /\
    len d = n /\ bytes_ok d = true.
Proof.
  intros (pre & post & E & L & Ld & E1 & E2 & E3) Hb. exists pre, post. split; [exact E|]. split; [exact L|].
  split; [destruct r, r'; cbn in *; subst; reflexivity|]. split; [exact Ld|].
  rewrite E, !bytes_ok_app in Hb. apply andb_prop in Hb as [_ Hb]. now apply andb_prop in Hb as [Hb _].
Qed.

Lemma safe_data sw n : n < two64 -> safe sw (read_data n) (fun x d => x = d /\ len d = n /\ bytes_ok d = true).
Proof.
  intros Hn r Hr. assert (H := read_data_ok r n (good_words sw r Hr) Hn).
  destruct (read_data n r) as [[x| | | |] r']; auto. destruct Hr as (_ & _ & Hb & _).
  destruct (delivers_parts _ _ _ _ H Hb) as (pre & post & E & L & E2 & Ld & Ho).
  exists pre, x, post. auto 10.
Qed.

Lemma safe_int sw n : In n [1%nat; 2%nat; 4%nat; 8%nat] ->
  safe sw (read_int n) (fun v d => v < 256 ^ N.of_nat n /\ len d = N.of_nat n /\
                                   (sw = false -> d = le_bytes n v)).
Proof.
  intros Hn r Hr. assert (Hb : bytes_ok (rbuf r) = true) by apply Hr.
  assert (Hs : rswap r = sw) by apply Hr.
  assert (H := read_int_ok n r (good_words sw r Hr) Hb Hn).
  destruct (read_int n r) as [[x| | | |] r']; auto.
  destruct H as (d & D & ->). destruct (delivers_parts _ _ _ _ D Hb) as (pre & post & E & L & E2 & Ld & Ho).
  exists pre, d, post. split; [exact E|]. split; [exact L|]. split; [exact E2|].
  assert (Hl : length d = n) by (rewrite <- (Nat2N.id (length d)), <- (Nat2N.id n); f_equal; exact Ld).
  split; [|split; [exact Ld|]].
  - rewrite Hs, <- Hl. destruct sw.
    + rewrite <- rev_length. apply of_le_bound. unfold bytes_ok in *. rewrite forallb_forall in *.
      intros y Hy. apply Ho. now apply in_rev.
    + now apply of_le_bound.
  - intros ->. rewrite Hs, <- Hl. symmetry. now apply le_bytes_of_le.
Qed.

Lemma safe_u64 sw : safe sw read_u64 (fun v d => v < two64 /\ len d = 8 /\ (sw = false -> d = le_bytes 8 v)).
Proof. apply (safe_int sw 8). cbn. auto. Qed.
Lemma safe_u32 sw : safe sw read_u32 (fun v d => v < two32 /\ len d = 4 /\ (sw = false -> d = le_bytes 4 v)).
Proof. apply (safe_int sw 4). cbn. auto. Qed.
Lemma safe_u16 sw : safe sw read_u16 (fun v d => v < two16 /\ len d = 2 /\ (sw = false -> d = le_bytes 2 v)).
Proof. apply (safe_int sw 2). cbn. auto. Qed.

Lemma safe_guard {A} sw (g : rcall A) (c : reader -> bool) Q :
  safe sw g Q -> safe sw (fun r => if c r then (Fail, r) else g r) Q.
Proof. intros H r Hr. destruct (c r); [exact I|]. now apply H. Qed.

Lemma safe_n {A} sw (f : rcall A) P :
  safe sw f P -> forall n, safe sw (read_n n f) (fun l d => length l = n /\ exists ds, d = concat ds /\ Forall2 P l ds).
Proof.
  intros H. induction n as [|n IH]; cbn [read_n].
  - apply safe_ret. split; [reflexivity|]. exists []. split; [reflexivity|constructor].
  - eapply safe_bind; [exact H|]. intros x d Hx. eapply safe_bind; [exact IH|].
    intros l d' (Hl & ds & -> & Hds). apply safe_ret. rewrite app_nil_r. cbn [length].
    split; [congruence|]. exists (d :: ds). split; [reflexivity|]. now constructor.
Qed.

(** [d] has the size of the chunks, and is their image if nothing was swapped. *)
Definition rel (sw : bool) (cs : list chunk) (d : list N) : Prop :=
  len d = total cs /\ (sw = false -> image cs d).

Lemma rel_app sw a b d1 d2 : rel sw a d1 -> rel sw b d2 -> rel sw (a ++ b) (d1 ++ d2).
Proof.
  intros (A1 & A2) (B1 & B2). split; [rewrite len_app, total_app; lia|]. intros E. apply app_image; auto.
Qed.
Lemma rel_cons sw c b d1 d2 : rel sw [c] d1 -> rel sw b d2 -> rel sw (c :: b) (d1 ++ d2).
Proof. apply (rel_app sw [c]). Qed.
Lemma rel_nil sw : rel sw [] [].
Proof. split; [reflexivity|constructor]. Qed.
Lemma rel_put64 sw v d : len d = 8 -> (sw = false -> d = le_bytes 8 v) -> rel sw [put64 v] d.
Proof.
  intros H1 H2. split; [rewrite total_put64; exact H1|]. intros E. apply one_image, image_put64. auto.
Qed.

(** ** Steps *)
Lemma safe_cons sw (f : step) l s P Q :
  safe sw (f s) P -> (forall s1 d, P s1 d -> safe sw (run_steps l s1) (fun y d' => Q y (d ++ d'))) ->
  safe sw (run_steps (f :: l) s) Q.
Proof. intros H1 H2. cbn [run_steps fold_right]. unfold seq. exact (safe_bind sw _ _ _ _ H1 H2). Qed.

(** A field that sets [g v] for a value with [ok], written as [cs v]. *)
Definition field {V} sw (b : bool) (f : step) (g : V -> psample -> psample) (ok : V -> Prop)
    (cs : V -> list chunk) (s : psample) : Prop :=
  safe sw (on b f s) (fun s1 d => exists v, (b = true -> ok v) /\ s1 = (if b then g v s else s) /\
                                            rel sw (when b (cs v)) d).

Lemma field_on {V} (v0 : V) sw b f g (ok : V -> Prop) cs s :
  (b = true -> safe sw (f s) (fun s1 d => exists v, ok v /\ s1 = g v s /\ rel sw (cs v) d)) ->
  field sw b f g ok cs s.
Proof.
  intros H. unfold field, on. destruct b.
  - eapply safe_weaken; [apply H; reflexivity|]. intros s1 d (v & Hv & -> & R). exists v. auto.
  - apply safe_ret. exists v0. split; [discriminate|]. split; [reflexivity|]. apply rel_nil.
Qed.

Lemma field64 sw b set s : field sw b (rd64 set) set (fun v => v < two64) (fun v => [put64 v]) s.
Proof.
  apply (field_on 0). intros _. unfold rd64. eapply safe_bind; [apply safe_u64|].
  intros v d (Hv & Hl & Hd). apply safe_ret. exists v. rewrite app_nil_r.
  split; [exact Hv|]. split; [reflexivity|]. now apply rel_put64.
Qed.

Lemma field_tid sw b s :
  field sw b (seq (rd32 set_pid) (rd32 set_tid)) (fun v s => set_tid (snd v) (set_pid (fst v) s))
    (fun v => fst v < two32 /\ snd v < two32) (fun v => [put32_32 (fst v) (snd v)]) s.
Proof.
  apply (field_on (0, 0)). intros _. unfold seq, rd32.
  eapply safe_bind with (P := fun s1 d => exists p, p < two32 /\ s1 = set_pid p s /\ len d = 4 /\
     (sw = false -> d = le_bytes 4 p)).
  { eapply safe_bind; [apply safe_u32|]. intros v d (Hv & Hl & Hd). apply safe_ret. exists v. rewrite app_nil_r. auto. }
  intros s1 d (p & Hp & -> & Hl & Hd).
  eapply safe_bind; [apply safe_u32|]. intros v d' (Hv & Hl' & Hd'). apply safe_ret. exists (p, v).
  rewrite app_nil_r. cbn [fst snd]. split; [auto|]. split; [reflexivity|]. split.
  - rewrite total_put32, len_app. cbn [total map]. lia.
  - intros E. apply one_image, image_put32. rewrite Hd, Hd' by exact E. reflexivity.
Qed.

Lemma field_cpu sw b s :
  field sw b rd_cpu (fun v => set_cpu (fst v)) (fun v => fst v < two32 /\ snd v < two32)
    (fun v => [put32_32 (fst v) (snd v)]) s.
Proof.
  apply (field_on (0, 0)). intros _. unfold rd_cpu.
  eapply safe_bind; [apply safe_u32|]. intros p d (Hp & Hl & Hd).
  eapply safe_bind; [apply safe_u32|]. intros v d' (Hv & Hl' & Hd'). apply safe_ret. exists (p, v).
  rewrite app_nil_r. cbn [fst snd]. split; [auto|]. split; [reflexivity|]. split.
  - rewrite total_put32, len_app. cbn [total map]. lia.
  - intros E. apply one_image, image_put32. rewrite Hd, Hd' by exact E. reflexivity.
Qed.

Lemma rel_map64 sw l ds :
  Forall2 (fun v d => v < two64 /\ len d = 8 /\ (sw = false -> d = le_bytes 8 v)) l ds ->
  rel sw (map put64 l) (concat ds) /\ Forall (fun v => v < two64) l.
Proof.
  induction 1 as [|v d l ds (Hv & Hl & Hd) _ (IH1 & IH2)]; cbn [map concat].
  - split; [apply rel_nil|constructor].
  - split; [|now constructor]. apply rel_cons; [now apply rel_put64|exact IH1].
Qed.

Lemma field_callchain sw b s :
  s_callchain s = None ->
  field sw b read_callchain (fun v => set_callchain (Some v)) (Forall (fun v => v < two64))
    (fun v => put64 (len v) :: map put64 v) s.
Proof.
  intros Hs. apply (field_on []). intros _. unfold read_callchain. rewrite Hs.
  eapply safe_bind; [apply safe_u64|]. intros n d (Hn & Hl & Hd).
  apply safe_guard. eapply safe_bind; [apply safe_n, safe_u64|].
  intros l d' (Hlen & ds & -> & Hds). apply safe_ret. exists l. rewrite app_nil_r.
  apply rel_map64 in Hds as [R F]. split; [exact F|]. split; [reflexivity|].
  assert (n = len l) as -> by (unfold len; rewrite Hlen; lia).
  apply rel_cons; [now apply rel_put64|exact R].
Qed.

Lemma safe_raw sw s :
  safe sw (read_raw s) (fun s1 d => exists v, (bytes_ok v = true /\ len v < two16) /\ s1 = set_raw v s /\
                                              rel sw [put_sized v] d).
Proof.
  intros r Hr. unfold read_raw. cbv zeta. unfold rbind at 1.
  assert (H := safe_u32 sw r Hr). destruct (read_u32 r) as [[n| | | |] r1]; auto.
  destruct H as (pre & d & post & E & L & -> & (Hn & Hl & Hd)).
  assert (Hr1 := good_moved sw r pre d post Hr E L).
  destruct (N.ltb_spec (remaining (set_off r (roff r + len d))) n) as [_|Hrem]; [exact I|].
  unfold rbind at 1.
  assert (H := safe_data sw n ltac:(unfold two64, two32 in *; lia) _ Hr1).
  destruct (read_data n (set_off r (roff r + len d))) as [[v| | | |] r2]; auto.
  destruct H as (pre2 & d2 & post2 & E2 & L2 & -> & (-> & Hl2 & Hb2)).
  cbn [rbuf roff set_off] in *.
  assert (Hn16 : n < two16).
  { destruct Hr as (_ & _ & _ & H16). rewrite E2, !len_app in H16. lia. }
  unfold rbind. assert (H := seek_set_ok (set_off (set_off r (roff r + len d)) (roff r + len d + len d2))
     (w64 (roff r + align 8 (4 + n)))). cbn [rbuf roff set_off rswap] in H.
  destruct (seek_set _ _) as [[u| | | |] r3]; auto. unfold rret.
  destruct H as (Ht & B1 & B2 & B3). cbn [rbuf roff set_off rswap] in *.
  assert (Ho : roff r < two16) by (destruct Hr as (_ & ? & _ & ?); lia).
  rewrite align8_value in Ht, B2 by (unfold two64, two16 in *; lia).
  rewrite w64_small in Ht, B2 by (unfold two64, two16 in *; lia).
  set (m := 8 * ((4 + n + 7) / 8)) in *.
  assert (S1 : pre2 = pre ++ d /\ post = d2 ++ post2).
  { assert (EE : (pre ++ d) ++ post = pre2 ++ d2 ++ post2) by (rewrite <- app_assoc; congruence).
    apply app_eq_app in EE. assert (LL : len pre2 = len (pre ++ d)) by (rewrite len_app; lia).
    destruct EE as (l & [[A1 A2]|[A1 A2]]); rewrite A1, len_app in LL;
      assert (l = []) as -> by (apply len_0; lia);
      rewrite app_nil_r in A1; cbn [app] in A2; split; congruence. }
  destruct S1 as [-> ->].
  assert (Hm : 4 + n <= m) by (unfold m; lia).
  assert (Hp : m - (4 + n) <= len post2).
  { rewrite E, !len_app in Ht. lia. }
  destruct (split_at post2 (m - (4 + n)) Hp) as (pad & rest & -> & Lp).
  exists pre, (d ++ d2 ++ pad), rest. split; [rewrite E, <- !app_assoc; reflexivity|]. split; [exact L|].
  split.
  { replace (len (d ++ d2 ++ pad)) with m by (rewrite !len_app; lia).
    unfold set_off. rewrite <- B2, <- B1, <- B3. now destruct r3. }
  exists d2. split; [split; [exact Hb2|lia]|]. split; [reflexivity|].
  assert (Hmv : ck_move (put_sized d2) = m).
  { rewrite sized_move by (unfold two16 in *; lia). rewrite Hl2. reflexivity. }
  split.
  - cbn [total map]. rewrite Hmv, !len_app. lia.
  - intros Esw. apply one_image. exists pad. split; [|rewrite Hmv, !len_app; lia].
    cbn [put_sized ck_bytes]. rewrite (Hd Esw), Hl2, <- app_assoc. reflexivity.
Qed.

Lemma field_raw sw b s :
  field sw b read_raw set_raw (fun v => bytes_ok v = true /\ len v < two16) (fun v => [put_sized v]) s.
Proof. apply (field_on []). intros _. apply safe_raw. Qed.

Lemma safe_branch_entry sw :
  safe sw read_branch_entry (fun b d =>
    (be_from b < two64 /\ be_to b < two64 /\ be_flags b < two64) /\
    rel sw [put64 (be_from b); put64 (be_to b); put64 (be_flags b)] d).
Proof.
  unfold read_branch_entry.
  eapply safe_bind; [apply safe_u64|]. intros f d1 (H1 & H2 & H3).
  eapply safe_bind; [apply safe_u64|]. intros t d2 (H4 & H5 & H6).
  eapply safe_bind; [apply safe_data; reflexivity|]. intros w d3 (-> & H7 & H8).
  intros r Hr. assert (Hs : rswap r = sw) by apply Hr. rewrite Hs. destruct sw; [exact I|].
  destruct (split_at (rbuf r) (roff r) ltac:(apply Hr)) as (a & b & E & L).
  exists a, [], b. split; [exact E|]. split; [exact L|].
  split; [unfold set_off; rewrite len_nil, N.add_0_r; now destruct r|].
  assert (Hl : length d3 = 8%nat) by (rewrite <- (Nat2N.id (length d3)); fold (len d3); rewrite H7; reflexivity).
  assert (Hf : of_le d3 < two64) by (assert (G := of_le_bound d3 H8); rewrite H7 in G; exact G).
  rewrite app_nil_r. cbn [be_from be_to be_flags]. split; [auto|].
  apply rel_cons; [now apply rel_put64|]. apply rel_cons; [now apply rel_put64|].
  apply rel_put64; [exact H7|]. intros _. rewrite <- Hl. symmetry. now apply le_bytes_of_le.
Qed.

Lemma rel_flat {A} sw (g : A -> list chunk) (ok : A -> Prop) l ds :
  Forall2 (fun b d => ok b /\ rel sw (g b) d) l ds -> rel sw (flat_map g l) (concat ds) /\ Forall ok l.
Proof.
  induction 1 as [|v d l ds (Hv & Hd) _ (IH1 & IH2)]; cbn [flat_map concat].
  - split; [apply rel_nil|constructor].
  - split; [|now constructor]. now apply rel_app.
Qed.

Definition branch_value (hw : bool) (v : branch_stack) : list chunk :=
  [put64 (len (bs_entries v))] ++ when hw [put64 (bs_hw_idx v)]
  ++ flat_map (fun b => [put64 (be_from b); put64 (be_to b); put64 (be_flags b)]) (bs_entries v).

Lemma field_branch sw b a s :
  s_branch s = None ->
  field sw b (rd_branch a)
    (fun v s => set_branch (Some v) (set_no_hw_idx (Some (negb (N.testbit (at_branch_type a) BR_HW_INDEX))) s))
    (fun v => bs_hw_idx v < two64 /\
       Forall (fun b => be_from b < two64 /\ be_to b < two64 /\ be_flags b < two64) (bs_entries v))
    (branch_value (N.testbit (at_branch_type a) BR_HW_INDEX)) s.
Proof.
  intros Hs. apply (field_on (mkBs 0 [])). intros _. unfold rd_branch.
  set (hw := N.testbit (at_branch_type a) BR_HW_INDEX) in *.
  set (s1 := set_no_hw_idx (Some (negb hw)) s).
  assert (E1 : s_branch s1 = None) by (unfold s1; destruct s; exact Hs).
  assert (E2 : s_no_hw_idx s1 = Some (negb hw)) by (unfold s1; destruct s; reflexivity).
  unfold read_branch_stack. rewrite E1, E2.
  eapply safe_bind; [apply safe_u64|]. intros n d (Hn & Hl & Hd).
  eapply safe_bind with (P := fun h d => h < two64 /\ rel sw (when hw [put64 h]) d).
  { destruct hw; cbn [negb when].
    - eapply safe_weaken; [apply safe_u64|]. intros h dh (A & B & C). split; [exact A|]. now apply rel_put64.
    - apply safe_ret. split; [reflexivity|apply rel_nil]. }
  intros h d' (Hh & Rh). apply safe_guard. eapply safe_bind; [apply safe_n, safe_branch_entry|].
  intros l d'' (Hlen & ds & -> & Hds). apply safe_ret. exists (mkBs h l). rewrite app_nil_r.
  cbn [bs_hw_idx bs_entries]. apply (rel_flat sw (fun b => [put64 (be_from b); put64 (be_to b); put64 (be_flags b)])) in Hds as [R F].
  split; [auto|]. split; [reflexivity|].
  assert (n = len l) as -> by (unfold len; rewrite Hlen; lia).
  unfold branch_value. cbn [bs_hw_idx bs_entries].
  apply rel_app; [now apply rel_put64|]. now apply rel_app.
Qed.

Lemma field_weight_struct sw b s :
  field sw b rd_weight_struct set_weight (fun v => v < two64) (fun v => [put64 v]) s.
Proof.
  apply (field_on 0). intros _. intros r Hr. unfold rd_weight_struct.
  assert (Hs : rswap r = sw) by apply Hr. rewrite Hs. destruct sw; [exact I|].
  revert r Hr Hs. cut (safe false (rlet v1 := read_u32 in rlet v2 := read_u16 in rlet v3 := read_u16 in
          rret (set_weight (v1 + two32 * (v2 + two16 * v3)) s))
      (fun s1 d => exists v, v < two64 /\ s1 = set_weight v s /\ rel false [put64 v] d)).
  { intros G r Hr _. exact (G r Hr). }
  eapply safe_bind; [apply safe_u32|]. intros v1 d1 (H1 & H2 & H3).
  eapply safe_bind; [apply safe_u16|]. intros v2 d2 (H4 & H5 & H6).
  eapply safe_bind; [apply safe_u16|]. intros v3 d3 (H7 & H8 & H9).
  apply safe_ret. rewrite app_nil_r. rewrite H3, H6, H9 by reflexivity.
  eexists. split; [|split; [reflexivity|]].
  - unfold two64, two32, two16 in *. lia.
  - apply rel_put64; [rewrite !len_app, !len_le_bytes; reflexivity|]. intros _.
    change 8%nat with (4 + (2 + 2))%nat. rewrite (le_bytes_split 4), (le_bytes_split 2).
    f_equal; [|f_equal]; f_equal.
    + unfold two32, two16 in *. change (256 ^ N.of_nat 4) with 4294967296. lia.
    + unfold two32, two16 in *. change (256 ^ N.of_nat 4) with 4294967296.
      change (256 ^ N.of_nat 2) with 65536. lia.
    + unfold two32, two16 in *. change (256 ^ N.of_nat 4) with 4294967296.
      change (256 ^ N.of_nat 2) with 65536. lia.
Qed.

(** ** The READ field; a whole sample stands for the values read. *)
Definition value_ok (v : read_value) : Prop := rv_value v < two64 /\ rv_id v < two64 /\ rv_lost v < two64.
Definition read_ok (t : psample) : Prop :=
  s_time_enabled t < two64 /\ s_time_running t < two64 /\ value_ok (s_one t) /\ Forall value_ok (group_of t).

Definition value_chunks (rf : N) (v : read_value) : list chunk :=
  [put64 (rv_value v)] ++ when (N.testbit rf F_ID) [put64 (rv_id v)] ++ when (N.testbit rf F_LOST) [put64 (rv_lost v)].

Lemma safe_value sw rf :
  safe sw (read_group_value rf) (fun v d => (value_ok v /\ seen rf v = v) /\ rel sw (value_chunks rf v) d).
Proof.
  unfold read_group_value. eapply safe_bind; [apply safe_u64|]. intros v d (H1 & H2 & H3).
  assert (G : forall b : bool, safe sw (if b then read_u64 else rret 0)
     (fun i d => i < two64 /\ (b = false -> i = 0) /\ rel sw (when b [put64 i]) d)).
  { intros []; cbn [when].
    - eapply safe_weaken; [apply safe_u64|]. intros h dh (A & B & C). split; [exact A|]. split; [discriminate|].
      now apply rel_put64.
    - apply safe_ret. split; [reflexivity|]. split; [reflexivity|]. apply rel_nil. }
  eapply safe_bind; [apply (G (N.testbit rf F_ID))|]. intros i di (I1 & I2 & I3).
  eapply safe_bind; [apply (G (N.testbit rf F_LOST))|]. intros l dl (L1 & L2 & L3).
  apply safe_ret. rewrite app_nil_r. unfold value_ok, seen, value_chunks. cbn [rv_value rv_id rv_lost].
  split; [split; [auto|]|].
  - f_equal; [destruct (N.testbit rf F_ID)|destruct (N.testbit rf F_LOST)]; auto; symmetry; auto.
  - apply rel_app; [now apply rel_put64|]. now apply rel_app.
Qed.

Lemma map_id_on {A} (f : A -> A) (P : A -> Prop) l :
  (forall x, P x -> f x = x) -> Forall P l -> map f l = l.
Proof. intros H. induction 1; cbn [map]; [reflexivity|]. f_equal; auto. Qed.

Lemma field_read sw b a s :
  s_group s = None -> s_one s = mkRv 0 0 0 ->
  field sw b (if N.testbit (at_read_format a) F_GROUP
          then read_group_info (at_read_format a) else read_read_info (at_read_format a))
    (fun t s => after_read a t s) read_ok (fun t => write_read a t) s.
Proof.
  intros Hg Ho. apply (field_on fresh_sample). intros _. unfold after_read, write_read. cbv zeta.
  set (rf := at_read_format a).
  destruct (N.testbit rf F_GROUP).
  - unfold read_group_info. eapply safe_bind; [apply safe_u64|]. intros n d (Hn & Hl & Hd).
    eapply safe_bind; [apply (field64 sw (N.testbit rf F_TIME_ENABLED) set_time_enabled)|].
    intros s1 d1 (te & Te1 & Te2 & Te3).
    eapply safe_bind; [apply (field64 sw (N.testbit rf F_TIME_RUNNING) set_time_running)|].
    intros s2 d2 (tr & Tr1 & Tr2 & Tr3).
    assert (E2 : s_group s2 = None).
    { subst s2 s1. destruct (N.testbit rf F_TIME_RUNNING), (N.testbit rf F_TIME_ENABLED); destruct s; exact Hg. }
    rewrite E2. apply safe_guard. eapply safe_bind; [apply safe_n, safe_value|].
    intros l d3 (Hlen & ds & -> & Hds). apply safe_ret. rewrite app_nil_r.
    apply (rel_flat sw (value_chunks rf)) in Hds as [R F].
    exists (set_group (Some l) (set_time_enabled (if N.testbit rf F_TIME_ENABLED then te else 0)
             (set_time_running (if N.testbit rf F_TIME_RUNNING then tr else 0) fresh_sample))).
    unfold read_ok, group_of. cbn [fresh_sample set_group set_time_enabled set_time_running
      s_time_enabled s_time_running s_one s_group].
    assert (M : map (seen rf) l = l).
    { apply (map_id_on _ (fun v => value_ok v /\ seen rf v = v)); [tauto|exact F]. }
    rewrite M. split; [|split].
    + split; [destruct (N.testbit rf F_TIME_ENABLED); [now apply Te1|reflexivity]|].
      split; [destruct (N.testbit rf F_TIME_RUNNING); [now apply Tr1|reflexivity]|].
      split; [repeat split; reflexivity|]. eapply Forall_impl; [|exact F]. intros x [Hx _]; exact Hx.
    + subst s2 s1. destruct (N.testbit rf F_TIME_RUNNING), (N.testbit rf F_TIME_ENABLED); reflexivity.
    + assert (n = len l) as -> by (unfold len; rewrite Hlen; lia).
      apply rel_app; [now apply rel_put64|].
      apply rel_app; [destruct (N.testbit rf F_TIME_ENABLED); exact Te3|].
      apply rel_app; [destruct (N.testbit rf F_TIME_RUNNING); exact Tr3|]. exact R.
  - unfold read_read_info.
    eapply safe_cons with (P := fun s1 d => exists v, v < two64 /\ s1 = set_one (mkRv v 0 0) s /\ rel sw [put64 v] d).
    { unfold rd_value. eapply safe_bind; [apply safe_u64|]. intros v d (H1 & H2 & H3). apply safe_ret. exists v.
      rewrite Ho, app_nil_r. cbn [rv_id rv_lost]. split; [exact H1|]. split; [reflexivity|]. now apply rel_put64. }
    intros s1 d1 (v & Hv & E1 & R1).
    eapply safe_cons; [apply (field64 sw (N.testbit rf F_TIME_ENABLED) set_time_enabled)|].
    intros s2 d2 (te & Te1 & Te2 & Te3).
    eapply safe_cons; [apply (field64 sw (N.testbit rf F_TIME_RUNNING) set_time_running)|].
    intros s3 d3 (tr & Tr1 & Tr2 & Tr3).
    assert (E3 : s_one s3 = mkRv v 0 0).
    { subst s3 s2 s1. destruct (N.testbit rf F_TIME_RUNNING), (N.testbit rf F_TIME_ENABLED); destruct s; reflexivity. }
    eapply safe_cons.
    { apply (field_on 0) with (g := fun i => set_one (mkRv v i 0)) (ok := fun i => i < two64) (cs := fun i => [put64 i]).
      intros _. unfold rd_one_id. eapply safe_bind; [apply safe_u64|]. intros i d (H1 & H2 & H3). apply safe_ret. exists i.
      rewrite E3, app_nil_r. cbn [rv_value rv_lost]. split; [exact H1|]. split; [reflexivity|]. now apply rel_put64. }
    intros s4 d4 (i & I1 & I2 & I3).
    assert (E4 : s_one s4 = mkRv v (if N.testbit rf F_ID then i else 0) 0).
    { subst s4. destruct (N.testbit rf F_ID); [destruct s3; reflexivity|exact E3]. }
    eapply safe_cons.
    { apply (field_on 0) with (g := fun l => set_one (mkRv v (if N.testbit rf F_ID then i else 0) l)) (ok := fun i => i < two64) (cs := fun i => [put64 i]).
      intros _. unfold rd_one_lost. eapply safe_bind; [apply safe_u64|]. intros l d (H1 & H2 & H3). apply safe_ret. exists l.
      rewrite E4, app_nil_r. cbn [rv_value rv_id]. split; [exact H1|]. split; [reflexivity|]. now apply rel_put64. }
    intros s5 d5 (l & L1 & L2 & L3).
    apply safe_ret. rewrite app_nil_r.
    exists (set_one (mkRv v (if N.testbit rf F_ID then i else 0) (if N.testbit rf F_LOST then l else 0))
             (set_time_enabled (if N.testbit rf F_TIME_ENABLED then te else 0)
             (set_time_running (if N.testbit rf F_TIME_RUNNING then tr else 0) fresh_sample))).
    unfold read_ok, group_of, value_ok, seen. cbn [fresh_sample set_one set_time_enabled set_time_running
      s_time_enabled s_time_running s_one s_group rv_value rv_id rv_lost].
    split; [|split].
    + split; [destruct (N.testbit rf F_TIME_ENABLED); [now apply Te1|reflexivity]|].
      split; [destruct (N.testbit rf F_TIME_RUNNING); [now apply Tr1|reflexivity]|].
      split; [|constructor]. split; [exact Hv|].
      split; [destruct (N.testbit rf F_ID); [now apply I1|reflexivity]|
              destruct (N.testbit rf F_LOST); [now apply L1|reflexivity]].
    + subst s5 s4 s3 s2 s1. destruct s.
      destruct (N.testbit rf F_TIME_RUNNING), (N.testbit rf F_TIME_ENABLED), (N.testbit rf F_ID), (N.testbit rf F_LOST); reflexivity.
    + apply rel_app; [exact R1|].
      apply rel_app; [destruct (N.testbit rf F_TIME_ENABLED); exact Te3|].
      apply rel_app; [destruct (N.testbit rf F_TIME_RUNNING); exact Tr3|].
      apply rel_app; [destruct (N.testbit rf F_ID); exact I3|].
      destruct (N.testbit rf F_LOST); exact L3.
Qed.

Lemma write_read_same a t s' :
  (N.testbit (at_read_format a) F_GROUP = true -> group_of s' = map (seen (at_read_format a)) (group_of t)) ->
  (N.testbit (at_read_format a) F_GROUP = false -> s_one s' = seen (at_read_format a) (s_one t)) ->
  (N.testbit (at_read_format a) F_TIME_ENABLED = true -> s_time_enabled s' = s_time_enabled t) ->
  (N.testbit (at_read_format a) F_TIME_RUNNING = true -> s_time_running s' = s_time_running t) ->
  write_read a s' = write_read a t.
Proof.
  intros H1 H2 H3 H4. unfold write_read. cbv zeta. fold (group_of s'). fold (group_of t).
  set (rf := at_read_format a) in *.
  assert (E3 : when (N.testbit rf F_TIME_ENABLED) [put64 (s_time_enabled s')] =
               when (N.testbit rf F_TIME_ENABLED) [put64 (s_time_enabled t)]).
  { destruct (N.testbit rf F_TIME_ENABLED); [now rewrite H3|reflexivity]. }
  assert (E4 : when (N.testbit rf F_TIME_RUNNING) [put64 (s_time_running s')] =
               when (N.testbit rf F_TIME_RUNNING) [put64 (s_time_running t)]).
  { destruct (N.testbit rf F_TIME_RUNNING); [now rewrite H4|reflexivity]. }
  rewrite E3, E4. destruct (N.testbit rf F_GROUP).
  - rewrite H1 by reflexivity. f_equal; [unfold len; now rewrite map_length|]. f_equal. f_equal.
    clear. induction (group_of t) as [|v l IH]; cbn [map flat_map]; [reflexivity|]. rewrite IH. f_equal.
    cbn [seen rv_value rv_id rv_lost]. destruct (N.testbit rf F_ID), (N.testbit rf F_LOST); reflexivity.
  - rewrite H2 by reflexivity. cbn [seen rv_value rv_id rv_lost].
    destruct (N.testbit rf F_ID), (N.testbit rf F_LOST); reflexivity.
Qed.

(** ** All fields *)
Lemma safe_off sw (f : step) l s Q : safe sw (run_steps l s) Q -> safe sw (run_steps (on false f :: l) s) Q.
Proof.
  intros H. apply safe_cons with (P := fun s1 d => s1 = s /\ d = []).
  - apply safe_ret. auto.
  - intros s1 d [-> ->]. exact H.
Qed.

Lemma safe_refuse sw (b : bool) l s Q :
  (b = false -> safe sw (run_steps l s) Q) -> safe sw (run_steps (on b rd_fail :: l) s) Q.
Proof.
  intros H. destruct b.
  - intros r Hr. exact I.
  - apply safe_off. auto.
Qed.

Lemma rel_when_false sw cs d : rel sw (when false cs) d -> d = [].
Proof. intros (H & _). apply len_0. exact H. Qed.

Definition values_ok (s : psample) : Prop :=
  s_ip s < two64 /\ s_pid s < two32 /\ s_tid s < two32 /\ s_time s < two64 /\
  s_addr s < two64 /\ s_id s < two64 /\ s_stream_id s < two64 /\ s_period s < two64 /\
  s_weight s < two64 /\ s_transaction s < two64 /\ s_cpu s < two32 /\
  s_data_src s < two64 /\ s_time_enabled s < two64 /\ s_time_running s < two64 /\
  s_phys_addr s < two64 /\ s_cgroup s < two64 /\ s_data_page s < two64 /\
  s_code_page s < two64 /\
  bytes_ok (s_raw s) = true /\ Forall (fun ip => ip < two64) (chain_of s) /\
  Forall value_ok (s_one s :: group_of s) /\
  Forall (fun b => be_from b < two64 /\ be_to b < two64 /\ be_flags b < two64) (branches_of s) /\
  hw_idx_of s < two64.

Definition consumed (sw : bool) (a : attr) (ty f : N) (s : psample) (d : list N) : Prop :=
  (carries a ty B_REGS_USER = false /\ carries a ty B_STACK_USER = false /\
   (carries a ty B_WEIGHT && carries a ty B_WEIGHT_STRUCT) = false /\ carries a ty B_REGS_INTR = false /\
   f < 2 ^ 25) /\
  values_ok s /\
  ((len (s_raw s) < two16 /\ len (s_raw s) <= len d) /\ len (chain_of s) <= len d /\ len (group_of s) <= len d /\ len (branches_of s) <= len d) /\
  hw_idx_agrees a ty s /\
  len d = total (all_chunks a ty s) /\
  (sw = false -> (carries a ty B_ID && carries a ty B_IDENTIFIER) = false ->
   (carries a ty B_CPU = true -> slice d (cpu_word a ty + 4) 4 = [0; 0; 0; 0]) ->
   image (all_chunks a ty s) d).

Lemma rel_len_when sw b cs d : rel sw (when b cs) d -> len d = if b then total cs else 0.
Proof. intros (H & _). rewrite H, total_when. reflexivity. Qed.

Lemma image_when_if b cs d : (b = true -> image cs d) -> (b = false -> d = []) -> image (when b cs) d.
Proof. intros H1 H2. destruct b; cbn [when]; [auto|]. rewrite H2 by reflexivity. constructor. Qed.

Lemma same_add a b c d : a = b -> c = d -> a + c = b + d.
Proof. intros -> ->. reflexivity. Qed.

Lemma fields_safe sw a ty f :
  (forall b, b < 64 -> N.testbit f b = carries a ty b) ->
  safe sw (read_fields a ty f fresh_sample) (consumed sw a ty f).
Proof.
  intros Hf. unfold read_fields. cbv zeta. rewrite !Hf by reflexivity.
  eapply safe_cons; [apply field64|]. intros ? d1 (i1 & O1 & -> & I1). rewrite up_id.
  eapply safe_cons; [apply field64|]. intros ? d2 (ip & O2 & -> & I2). rewrite up_ip.
  eapply safe_cons; [apply field_tid|]. intros ? d3 ((pid, tid) & O3 & -> & I3). cbn [fst snd] in *. rewrite up_tid.
  eapply safe_cons; [apply field64|]. intros ? d4 (tm & O4 & -> & I4). rewrite up_time.
  eapply safe_cons; [apply field64|]. intros ? d5 (ad & O5 & -> & I5). rewrite up_addr.
  eapply safe_cons; [apply field64|]. intros ? d6 (i6 & O6 & -> & I6). rewrite up_id.
  eapply safe_cons; [apply field64|]. intros ? d7 (st & O7 & -> & I7). rewrite up_stream_id.
  eapply safe_cons; [apply field_cpu|]. intros ? d8 ((cpu, res) & O8 & -> & I8). cbn [fst snd] in *. rewrite up_cpu.
  eapply safe_cons; [apply field64|]. intros ? d9 (i9 & O9 & -> & I9). rewrite up_id.
  eapply safe_cons; [apply field64|]. intros ? d10 (pe & O10 & -> & I10). rewrite up_period.
  cbn [fresh_sample set_ip set_pid set_tid set_time set_addr set_id set_stream_id set_cpu set_period
      s_ip s_pid s_tid s_time s_addr s_id s_stream_id s_cpu s_period].
  eapply safe_cons; [apply field_read; reflexivity|]. intros ? d11 (t & O11 & -> & I11). rewrite up_read.
  cbv zeta. cbn [set_group set_one set_time_running set_time_enabled
      s_group s_one s_time_enabled s_time_running].
  eapply safe_cons; [apply field_callchain; reflexivity|]. intros ? d12 (cc & O12 & -> & I12). rewrite up_callchain.
  eapply safe_cons; [apply field_raw|]. intros ? d13 (raw & O13 & -> & I13). rewrite up_raw.
  cbn [set_callchain set_raw s_raw s_callchain].
  eapply safe_cons; [apply field_branch; reflexivity|]. intros ? d14 (br & O14 & -> & I14). rewrite up_branch.
  cbn [set_branch set_no_hw_idx s_branch s_no_hw_idx].
  apply safe_refuse. intros R1. apply safe_refuse. intros R2. apply safe_refuse. intros R3.
  eapply safe_cons; [apply field64|]. intros ? dx (wx & Ox & -> & Ix). rewrite up_weight.
  eapply safe_cons; [apply field_weight_struct|]. intros ? dy (wy & Oy & -> & Iy). rewrite up_weight.
  eapply safe_cons; [apply field64|]. intros ? d16 (ds & O16 & -> & I16). rewrite up_data_src.
  eapply safe_cons; [apply field64|]. intros ? d17 (tx & O17 & -> & I17). rewrite up_transaction.
  apply safe_refuse. intros R4.
  eapply safe_cons; [apply field64|]. intros ? d18 (pa & O18 & -> & I18). rewrite up_phys_addr.
  eapply safe_cons; [apply field64|]. intros ? d19 (cg & O19 & -> & I19). rewrite up_cgroup.
  eapply safe_cons; [apply field64|]. intros ? d20 (dp & O20 & -> & I20). rewrite up_data_page.
  eapply safe_cons; [apply field64|]. intros ? d21 (cp & O21 & -> & I21). rewrite up_code_page.
  cbn [set_weight set_data_src set_transaction set_phys_addr set_cgroup set_data_page set_code_page
      s_weight s_data_src s_transaction s_phys_addr s_cgroup s_data_page s_code_page].
  apply safe_refuse. intros R5.
  apply safe_ret. rewrite app_nil_r.
  assert (Z : forall (b : bool) v, (b = true -> v < two64) -> (if b then v else 0) < two64).
  { intros [] v H; [auto|reflexivity]. }
  assert (Z32 : forall (b : bool) v, (b = true -> v < two32) -> (if b then v else 0) < two32).
  { intros [] v H; [auto|reflexivity]. }
  assert (L11 := rel_len_when _ _ _ _ I11). assert (L12 := rel_len_when _ _ _ _ I12).
  assert (L13 := rel_len_when _ _ _ _ I13). assert (L14 := rel_len_when _ _ _ _ I14).
  split; [|split; [|split; [|split; [|split]]]].
  - repeat split; auto. apply negb_false_iff, N.eqb_eq in R5. rewrite N.shiftr_div_pow2 in R5.
    apply N.div_small_iff in R5; [exact R5|discriminate].
  - unfold values_ok, chain_of, group_of, branches_of, hw_idx_of.
    cbn [s_ip s_pid s_tid s_time s_addr s_id s_stream_id s_period s_weight s_transaction s_cpu
      s_data_src s_no_hw_idx s_raw s_callchain s_branch s_time_enabled s_time_running s_group s_one
      s_phys_addr s_cgroup s_data_page s_code_page].
    repeat match goal with |- _ /\ _ => split end; auto.
    + apply Z32. intros E. now apply O3.
    + apply Z32. intros E. now apply O3.
    + destruct (negb (ty =? R_SAMPLE) && carries a ty B_IDENTIFIER); [now apply O9|].
      destruct (carries a ty B_ID); [now apply O6|]. now apply Z.
    + destruct (negb (carries a ty B_WEIGHT) && carries a ty B_WEIGHT_STRUCT); [now apply Oy|]. now apply Z.
    + apply Z32. intros E. now apply O8.
    + apply Z. intros E. apply andb_prop in E as [E _]. now apply O11.
    + apply Z. intros E. apply andb_prop in E as [E _]. now apply O11.
    + destruct (carries a ty B_RAW); [now apply O13|reflexivity].
    + destruct (carries a ty B_CALLCHAIN); [now apply O12|constructor].
    + destruct (carries a ty B_READ); cbn [andb].
      * destruct (O11 eq_refl) as (_ & _ & A & B).
        assert (G : forall v, value_ok v -> value_ok (seen (at_read_format a) v)).
        { intros v (V1 & V2 & V3). unfold value_ok, seen. cbn [rv_value rv_id rv_lost].
          split; [exact V1|]. split; [now apply Z|now apply Z]. }
        destruct (N.testbit (at_read_format a) F_GROUP); cbn [negb]; constructor; auto.
        -- repeat split; reflexivity.
        -- apply Forall_map. eapply Forall_impl; [|exact B]. exact G.
      * constructor; [repeat split; reflexivity|constructor].
    + destruct (carries a ty B_BRANCH_STACK); [now apply O14|constructor].
    + destruct (carries a ty B_BRANCH_STACK); [now apply O14|reflexivity].
  - unfold chain_of, group_of, branches_of. cbn [s_raw s_callchain s_branch s_group].
    rewrite !len_app. repeat match goal with |- _ /\ _ => split end.
    + destruct (carries a ty B_RAW); [now apply O13|reflexivity].
    + destruct (carries a ty B_RAW); [|change (len (@nil N)) with 0; lia].
      destruct O13 as (_ & O13); [reflexivity|]. cbn [total] in L13.
      rewrite sized_move in L13 by (unfold two16 in *; lia). lia.
    + destruct (carries a ty B_CALLCHAIN); [|change (len (@nil N)) with 0; lia].
      rewrite total_put64, total_map64 in L12. lia.
    + destruct (carries a ty B_READ); cbn [andb]; [|change (len (@nil read_value)) with 0; lia].
      rewrite total_read in L11. unfold formats in L11.
      destruct (N.testbit (at_read_format a) F_GROUP); [|change (len (@nil read_value)) with 0; lia].
      assert (M : len (map (seen (at_read_format a)) (group_of t)) = len (group_of t))
        by (unfold len; now rewrite map_length).
      assert (G : len (group_of t) <= len d11).
      { rewrite L11. set (w := words _). set (u := words _). set (k := len (group_of t)).
        clear. assert (k * 1 <= k * (1 + u)) by (apply N.mul_le_mono_l; lia). lia. }
      fold (group_of t). rewrite M. lia.
    + destruct (carries a ty B_BRANCH_STACK); [|change (len (@nil branch_entry)) with 0; lia].
      assert (G := total_branch (N.testbit (at_branch_type a) BR_HW_INDEX)
                     (set_branch (Some br) fresh_sample)).
      unfold branch_chunks, hw_idx_of, branches_of in G. cbn [set_branch fresh_sample s_branch] in G.
      unfold branch_value in L14. rewrite G in L14. lia.
  - unfold hw_idx_agrees. cbn [s_no_hw_idx]. intros ->. reflexivity.
  - assert (TR : carries a ty B_READ = true ->
      total (write_read a t) = total (write_read a (mkSample 0 0 0 0 0 0 0 0 0 0 0 0 None [] None None
        (if N.testbit (at_read_format a) F_TIME_ENABLED then s_time_enabled t else 0)
        (if N.testbit (at_read_format a) F_TIME_RUNNING then s_time_running t else 0)
        (if N.testbit (at_read_format a) F_GROUP then Some (map (seen (at_read_format a)) (group_of t)) else None)
        (if negb (N.testbit (at_read_format a) F_GROUP) then seen (at_read_format a) (s_one t) else mkRv 0 0 0)
        0 0 0 0))).
    { intros _. symmetry. f_equal. apply write_read_same; cbn [s_one s_time_enabled s_time_running];
        try (unfold group_of at 1; cbn [s_group]); intros ->; reflexivity. }
    unfold all_chunks. cbv zeta.
    rewrite !total_app, !len_app. rewrite (rel_len_when _ _ _ _ I1), (rel_len_when _ _ _ _ I2),
      (rel_len_when _ _ _ _ I3), (rel_len_when _ _ _ _ I4), (rel_len_when _ _ _ _ I5),
      (rel_len_when _ _ _ _ I6), (rel_len_when _ _ _ _ I7), (rel_len_when _ _ _ _ I8),
      (rel_len_when _ _ _ _ I9), (rel_len_when _ _ _ _ I10), L11, L12, L13, L14,
      (rel_len_when _ _ _ _ Ix), (rel_len_when _ _ _ _ Iy), (rel_len_when _ _ _ _ I16),
      (rel_len_when _ _ _ _ I17), (rel_len_when _ _ _ _ I18), (rel_len_when _ _ _ _ I19),
      (rel_len_when _ _ _ _ I20), (rel_len_when _ _ _ _ I21).
    rewrite !total_when.
    cbn [s_ip s_pid s_tid s_time s_addr s_id s_stream_id s_period s_weight s_transaction s_cpu
      s_data_src s_no_hw_idx s_raw s_callchain s_branch s_time_enabled s_time_running s_group s_one
      s_phys_addr s_cgroup s_data_page s_code_page].
    rewrite !total_put64, !total_put32.
    replace (if carries a ty B_WEIGHT || carries a ty B_WEIGHT_STRUCT then 8 + total [] else 0)
      with ((if carries a ty B_WEIGHT then 8 + total [] else 0)
            + (if negb (carries a ty B_WEIGHT) && carries a ty B_WEIGHT_STRUCT then 8 + total [] else 0))
      by (destruct (carries a ty B_WEIGHT), (carries a ty B_WEIGHT_STRUCT); reflexivity).
    repeat rewrite <- !N.add_assoc. repeat apply same_add; try reflexivity.
    + destruct (carries a ty B_READ); [|reflexivity]. exact (TR eq_refl).
    + destruct (carries a ty B_CALLCHAIN); [|reflexivity]. unfold write_callchain. cbn [s_callchain]. now rewrite total_put64.
    + destruct (carries a ty B_RAW); reflexivity.
    + destruct (carries a ty B_BRANCH_STACK); reflexivity.
  - intros Esw Eid Ecpu.
    assert (V : forall b v z d, rel sw (when b [put64 v]) d -> image (when b [put64 (if b then v else z)]) d).
    { intros b v z d (_ & H). specialize (H Esw). destruct b; exact H. }
    unfold all_chunks. cbv zeta.
    cbn [s_ip s_pid s_tid s_time s_addr s_id s_stream_id s_period s_weight s_transaction s_cpu
      s_data_src s_no_hw_idx s_raw s_callchain s_branch s_time_enabled s_time_running s_group s_one
      s_phys_addr s_cgroup s_data_page s_code_page].
    apply app_image.
    { destruct I1 as (_ & H). specialize (H Esw). destruct (ty =? R_SAMPLE); cbn [negb andb] in *; [|exact H].
      destruct (carries a ty B_IDENTIFIER); [|exact H]. rewrite andb_true_r in Eid. rewrite Eid. exact H. }
    apply app_image; [now apply V|].
    apply app_image. { destruct I3 as (_ & H). specialize (H Esw). destruct (carries a ty B_TID); exact H. }
    apply app_image; [now apply V|]. apply app_image; [now apply V|].
    apply app_image.
    { destruct I6 as (_ & H). specialize (H Esw). destruct (carries a ty B_ID); [|exact H].
      cbn [andb] in Eid. rewrite Eid, andb_false_r. exact H. }
    apply app_image; [now apply V|].
    apply app_image.
    { destruct I8 as (_ & H). specialize (H Esw). destruct (carries a ty B_CPU) eqn:Ec; [|exact H].
      apply one_image. apply image_one, image_put32 in H. apply image_put32.
      specialize (Ecpu eq_refl). destruct O8 as (O8a & O8b); [reflexivity|].
      assert (P : d1 ++ d2 ++ d3 ++ d4 ++ d5 ++ d6 ++ d7 ++ d8 ++ d9 ++ d10 ++ d11 ++ d12 ++ d13 ++ d14 ++ dx ++ dy
                  ++ d16 ++ d17 ++ d18 ++ d19 ++ d20 ++ d21
                = (d1 ++ d2 ++ d3 ++ d4 ++ d5 ++ d6 ++ d7 ++ le_bytes 4 cpu) ++ le_bytes 4 res
                  ++ (d9 ++ d10 ++ d11 ++ d12 ++ d13 ++ d14 ++ dx ++ dy ++ d16 ++ d17 ++ d18 ++ d19 ++ d20 ++ d21)).
      { rewrite H, <- !app_assoc. reflexivity. }
      rewrite P in Ecpu. rewrite slice_app in Ecpu.
      - rewrite H. f_equal. rewrite Ecpu. reflexivity.
      - rewrite !len_app, len_le_bytes.
        rewrite (rel_len_when _ _ _ _ I1), (rel_len_when _ _ _ _ I2),
          (rel_len_when _ _ _ _ I3), (rel_len_when _ _ _ _ I4), (rel_len_when _ _ _ _ I5),
          (rel_len_when _ _ _ _ I6), (rel_len_when _ _ _ _ I7).
        rewrite !total_put64, !total_put32. unfold cpu_word. cbn [map]. rewrite !words_cons, words_nil.
        clear. change (N.of_nat 4) with 4. change (total []) with 0.
        destruct ((ty =? R_SAMPLE) && carries a ty B_IDENTIFIER), (carries a ty B_IP), (carries a ty B_TID),
          (carries a ty B_TIME), (carries a ty B_ADDR), (carries a ty B_ID), (carries a ty B_STREAM_ID); reflexivity.
      - symmetry. apply len_le_bytes. }
    apply app_image; [now apply V|]. apply app_image; [now apply V|].
    apply app_image.
    { destruct I11 as (_ & H). specialize (H Esw). destruct (carries a ty B_READ); [|exact H]. cbn [when andb] in *.
      erewrite write_read_same; [exact H| | | |]; cbn [s_one s_time_enabled s_time_running];
        try (unfold group_of at 1; cbn [s_group]); intros ->; reflexivity. }
    apply app_image.
    { destruct I12 as (_ & H). specialize (H Esw). destruct (carries a ty B_CALLCHAIN); exact H. }
    apply app_image.
    { destruct I13 as (_ & H). specialize (H Esw). destruct (carries a ty B_RAW); exact H. }
    apply app_image.
    { destruct I14 as (_ & H). specialize (H Esw). destruct (carries a ty B_BRANCH_STACK); exact H. }
    rewrite (app_assoc dx dy). apply app_image.
    { destruct Ix as (_ & H). specialize (H Esw). destruct Iy as (_ & H'). specialize (H' Esw).
      destruct (carries a ty B_WEIGHT); cbn [orb negb andb when] in *.
      - inversion H' ; subst. now rewrite app_nil_r.
      - inversion H; subst. destruct (carries a ty B_WEIGHT_STRUCT); exact H'. }
    apply app_image; [now apply V|]. apply app_image; [now apply V|]. apply app_image; [now apply V|].
    apply app_image; [now apply V|]. apply app_image; [now apply V|]. now apply V.
Qed.
