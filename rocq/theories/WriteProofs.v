(** What the calls of the writer emit. *)
From Verif Require Import Base BytesModel BytesProofs BytesMoreProofs BufferModel BufferSpec BufferProofs EventSizeModel Assoc
  TextModel ReaderOpsModel SampleModel FileModel SerializerModel AttrModel WriteModel WriteSpec.
Local Open Scope N_scope.

(** [pre] is written, [rest] is the room behind it. *)
Definition at_end (pre rest : list N) : writer := mkWriter (pre ++ rest) (len pre).
Definition drop (n : N) (l : list N) : list N := skipn (N.to_nat n) l.

Lemma len_drop n (l : list N) : len (drop n l) = len l - n.
Proof. apply len_skipn. Qed.
Lemma drop_drop a b (l : list N) : drop a (drop b l) = drop (b + a) l.
Proof. unfold drop. rewrite skipn_skipn'. f_equal. lia. Qed.
Lemma drop_0 (l : list N) : drop 0 l = l.
Proof. reflexivity. Qed.

(** [c] emits [img] at the write offset, if [ok]; and it does so if there is room:
    more than it needs, or ([full]) as much as it needs. *)
Definition emits {A} (full : bool) (c : wres A) (ok : Prop) (img : N -> A * list N) : Prop :=
  forall pre rest, len pre + len rest < two63 ->
    (forall a w, c (at_end pre rest) = (Ok a, w) ->
       ok /\ a = fst (img (len pre)) /\ len (snd (img (len pre))) <= len rest /\
       w = at_end (pre ++ snd (img (len pre))) (drop (len (snd (img (len pre)))) rest)) /\
    (ok -> (if full then len (snd (img (len pre))) <= len rest else len (snd (img (len pre))) < len rest) ->
       c (at_end pre rest) =
         (Ok (fst (img (len pre))), at_end (pre ++ snd (img (len pre))) (drop (len (snd (img (len pre)))) rest))).

Definition puts (full : bool) (c : wres unit) (ok : Prop) (d : list N) : Prop :=
  emits full c ok (fun _ => (tt, d)).

Lemma emits_ret {A} (a : A) : emits true (wret a) True (fun _ => (a, [])).
Proof.
  intros pre rest H. cbn [fst snd]. unfold wret. change (len []) with 0. rewrite app_nil_r, drop_0. split.
  - intros a' w E. injection E as <- <-. repeat split. lia.
  - reflexivity.
Qed.

Lemma emits_tell : emits true wtell True (fun o => (o, [])).
Proof.
  intros pre rest H. cbn [fst snd]. unfold wtell. change (len []) with 0. rewrite app_nil_r, drop_0. split.
  - intros a' w E. injection E as <- <-. repeat split. lia.
  - reflexivity.
Qed.

Lemma emits_bind {A B} f1 f2 (c : wres A) (k : A -> wres B) ok1 ok2 img1 img2 :
  emits f1 c ok1 img1 -> (forall a, emits f2 (k a) ok2 (img2 a)) ->
  emits (f1 && f2) (wthen c k) (ok1 /\ ok2)
    (fun o => let x := img1 o in let y := img2 (fst x) (o + len (snd x)) in (fst y, snd x ++ snd y)).
Proof.
  intros E1 E2 pre rest H. cbn [fst snd].
  destruct (E1 pre rest H) as [S1 C1]. set (x := img1 (len pre)) in *.
  set (y := img2 (fst x) (len pre + len (snd x))) in *.
  assert (G : len (snd x) <= len rest ->
              len (pre ++ snd x) + len (drop (len (snd x)) rest) < two63) by
    (rewrite len_app, len_drop; lia).
  split.
  - intros b w. unfold wthen. destruct (c (at_end pre rest)) as [[a| | | |] w1] eqn:Ec; try discriminate.
    intros Ek. destruct (S1 _ _ eq_refl) as (K1 & -> & L1 & ->).
    destruct (E2 (fst x) _ _ (G L1)) as [S2 _]. destruct (S2 _ _ Ek) as (K2 & Hb & L2 & ->).
    rewrite (len_app pre (snd x)) in Hb, L2 |- *. fold y in Hb, L2 |- *. rewrite len_drop in L2.
    split; [now split|]. split; [exact Hb|]. split; [rewrite len_app; lia|].
    rewrite drop_drop, len_app, app_assoc. reflexivity.
  - intros [K1 K2] R. unfold wthen. rewrite len_app in R.
    rewrite C1; [|exact K1|destruct f1, f2; cbn [andb] in R; lia].
    assert (L1 : len (snd x) <= len rest) by (destruct f1, f2; cbn [andb] in R; lia).
    destruct (E2 (fst x) _ _ (G L1)) as [_ C2]. rewrite (len_app pre (snd x)) in C2. fold y in C2.
    rewrite C2; [|exact K2|rewrite len_drop; destruct f1, f2; cbn [andb] in R; lia].
    rewrite drop_drop, len_app, app_assoc. reflexivity.
Qed.

(** A strict emitter is wanted where a full one is at hand. *)
Lemma emits_strict {A} f (c : wres A) ok img : emits f c ok img -> emits false c ok img.
Proof.
  intros E pre rest H. destruct (E pre rest H) as [S C]. split; [exact S|].
  intros K R. apply C; [exact K|]. destruct f; lia.
Qed.

Lemma emits_eq {A} f (c : wres A) ok ok' img img' :
  emits f c ok img -> (ok <-> ok') -> (forall o, img o = img' o) -> emits f c ok' img'.
Proof.
  intros E K I pre rest H. destruct (E pre rest H) as [S C]. rewrite <- I. split.
  - intros a w X. destruct (S a w X) as (X1 & X2). split; [now apply K|exact X2].
  - intros Y. apply C. now apply K.
Qed.

Lemma puts_seq f1 f2 c1 c2 ok1 ok2 d1 d2 :
  puts f1 c1 ok1 d1 -> puts f2 c2 ok2 d2 -> puts (f1 && f2) (wlet _ := c1 in c2) (ok1 /\ ok2) (d1 ++ d2).
Proof.
  intros P1 P2. unfold puts. eapply emits_eq; [exact (emits_bind f1 f2 c1 (fun _ => c2) ok1 ok2 _ (fun _ _ => (tt, d2)) P1 (fun _ => P2))| |].
  - reflexivity.
  - reflexivity.
Qed.

Lemma puts_then f c1 c2 ok1 ok2 d1 d2 :
  puts f c1 ok1 d1 -> puts f c2 ok2 d2 -> puts f (wlet _ := c1 in c2) (ok1 /\ ok2) (d1 ++ d2).
Proof. intros P1 P2. rewrite <- (andb_diag f). now apply puts_seq. Qed.
Lemma puts_more f c ok d ok' : puts f c ok d -> (ok <-> ok') -> puts f c ok' d.
Proof. intros P E. eapply emits_eq; [exact P|exact E|reflexivity]. Qed.

(** With the condition of the first call at hand for the second. *)
Lemma puts_when f c (b : bool) ok d : (b = true -> puts f c ok d) ->
  puts f (wlet _ := wguard b in c) (b = true /\ ok) d.
Proof.
  intros P pre rest H. cbn [fst snd]. unfold wthen, wguard. destruct b.
  - destruct (P eq_refl pre rest H) as [S C]. cbn [fst snd] in *. split.
    + intros a w E. destruct (S a w E) as (X1 & X2). split; [now split|exact X2].
    + intros [_ K] R. now apply C.
  - split; [discriminate|]. intros [K _]. discriminate.
Qed.

Lemma puts_weach {A} f (c : A -> wres unit) ok d l :
  (forall x, In x l -> puts f (c x) (ok x) (d x)) -> puts f (weach c l) (Forall ok l) (concat (map d l)).
Proof.
  induction l as [|x l IH]; intros P.
  - cbn [weach map concat]. destruct f; [|apply emits_strict with true];
    (eapply emits_eq; [apply emits_ret| |]; [split; auto|reflexivity]).
  - cbn [weach map concat]. eapply puts_more; [apply (puts_then f (c x) (weach c l))|].
    + apply P. now left.
    + apply IH. intros y Hy. apply P. now right.
    + split; [intros [H1 H2]; now constructor|]. intros H. inversion H; subst. now split.
Qed.

(** ** The calls of the buffer *)
Lemma two63_64 n : n < two63 -> n < two64.
Proof. unfold two63, two64. lia. Qed.

Lemma write_data_at pre rest d : len pre + len rest < two63 -> d <> [] \/ 0 < len rest ->
  len d <= len rest -> write_data d (at_end pre rest) = (Ok tt, at_end (pre ++ d) (drop (len d) rest)).
Proof.
  intros H Hn Hd. unfold write_data, at_end. cbn [wbuf woff]. rewrite len_app.
  assert (P : 0 < len rest).
  { destruct Hn as [Hn|Hn]; [|exact Hn]. destruct d; [congruence|]. rewrite len_cons in Hd. lia. }
  rewrite (w64_small (len pre + len d)) by (unfold two63, two64 in *; lia).
  destruct (N.ltb_spec (len pre + len rest) (len pre + len d)); [lia|].
  destruct (N.leb_spec (len pre + len rest) (len pre)); [lia|].
  destruct (N.ltb_spec (len pre + len rest) (len d)); [lia|]. cbn [orb].
  unfold mem_write. rewrite len_app. destruct (N.leb_spec (len pre + len d) (len pre + len rest)); [|lia].
  rewrite firstn_len_app, len_app. rewrite <- app_assoc. do 5 f_equal.
  replace (N.to_nat (len pre + len d)) with (N.to_nat (len d) + N.to_nat (len pre))%nat by lia.
  rewrite <- skipn_skipn'. rewrite skipn_len_app. reflexivity.
Qed.

Lemma write_data_room pre rest d u w : len pre + len rest < two63 ->
  write_data d (at_end pre rest) = (Ok u, w) -> len d <= len rest /\ 0 < len rest.
Proof.
  intros H. unfold write_data, at_end. cbn [wbuf woff]. rewrite len_app.
  destruct (N.ltb_spec (len pre + len rest) (w64 (len pre + len d))) as [A|A]; [discriminate|].
  destruct (N.leb_spec (len pre + len rest) (len pre)) as [B|B]; [discriminate|].
  destruct (N.ltb_spec (len pre + len rest) (len d)) as [C|C]; [discriminate|]. cbn [orb].
  intros _. split; [|lia]. rewrite w64_small in A; [lia|]. unfold two63, two64 in *. lia.
Qed.

Definition nonempty (d : list N) : bool := match d with [] => false | _ => true end.
Lemma puts_data d : puts (nonempty d) (write_data d) True d.
Proof.
  intros pre rest H. cbn [fst snd]. split.
  - intros a w E. destruct (write_data_room _ _ _ _ _ H E) as [L P]. split; [exact I|].
    split; [destruct a; reflexivity|]. split; [exact L|].
    rewrite write_data_at in E by auto. now injection E.
  - intros _ R. apply write_data_at; [exact H| |destruct (nonempty d); lia].
    destruct d as [|x d]; cbn [nonempty] in R; [right; change (len []) with 0 in R; lia|left; discriminate].
Qed.

Lemma puts_word n v : (0 < n)%nat -> puts true (write_data (le_bytes n v)) True (le_bytes n v).
Proof.
  intros H. replace true with (nonempty (le_bytes n v)); [apply puts_data|]. destruct n; [lia|reflexivity].
Qed.

Lemma writes_at pre rest d w : writes (at_end pre rest) d w -> len d <= len rest ->
  w = at_end (pre ++ d) (drop (len d) rest).
Proof.
  intros (pre' & old & post & E1 & E2 & E3 & E4 & E5) Hd. cbn [at_end wbuf woff] in *.
  destruct w as [b o]. cbn [wbuf woff] in *. subst b o.
  assert (E : pre = pre' /\ rest = old ++ post).
  { apply app_inj_length in E1; [exact E1|]. unfold len in E2. lia. }
  destruct E as [-> ->]. unfold at_end. rewrite len_app, <- app_assoc. f_equal. f_equal. f_equal.
  unfold drop. rewrite <- E3. now rewrite skipn_len_app.
Qed.

Lemma padded_same t : padded t (room_of t) = padded_text t.
Proof.
  unfold padded, padded_text. rewrite firstn_all2; [reflexivity|]. unfold room_of, len. lia.
Qed.
Lemma stored_counted t : stored_string t = counted_text t.
Proof. unfold stored_string, counted_text. fold (room_of t). now rewrite padded_same. Qed.
Lemma len_counted t : len (counted_text t) = 4 + room_of t.
Proof. rewrite <- stored_counted. apply len_stored_string. Qed.

Lemma puts_text t : short_text t -> puts true (write_string_with_size t) True (counted_text t).
Proof.
  unfold short_text. intros Ht pre rest H. cbn [fst snd].
  assert (K := write_string_with_size_ok (at_end pre rest) t).
  cbn [at_end wbuf woff] in K. rewrite len_app in K.
  assert (L := len_counted t). unfold room_of in L. rewrite stored_counted in K.
  assert (B1 : len pre < two64) by (unfold two63, two64 in *; lia).
  assert (B2 : len pre + 4 + 8 * (len t / 8 + 1) < two64).
  { unfold two63, two64, two32 in *. lia. }
  specialize (K H B1 Ht B2). rewrite L. fold (at_end pre rest) in K.
  destruct (write_string_with_size t (at_end pre rest)) as [[[]| | | |] w] eqn:E; try contradiction.
  - assert (Len : 4 + 8 * (len t / 8 + 1) <= len rest).
    { destruct K as (pre' & old & post & E1 & E2 & E3 & _). cbn [at_end wbuf woff] in *.
      apply f_equal with (f := @len N) in E1. rewrite !len_app in E1. lia. }
    assert (K' := writes_at _ _ _ _ K). rewrite L in K'. specialize (K' Len). subst w. split.
    + intros a w X. injection X as <- <-. repeat split; auto.
    + reflexivity.
  - destruct K as [-> K]. split; [discriminate|]. intros _ R. lia.
Qed.

Ltac conj_true := split; intros; repeat split; auto.

Lemma Forall_true {A} (l : list A) : Forall (fun _ => True) l <-> True.
Proof. split; auto. intros _. induction l; auto. Qed.

Lemma puts_texts l : Forall short_text l -> puts true (write_strings l) True (counted_texts l).
Proof.
  intros F. unfold write_strings, counted_texts.
  eapply puts_more; [apply puts_then|].
  - apply puts_word; lia.
  - apply (puts_weach true write_string_with_size (fun _ => True) counted_text).
    intros x Hx. apply puts_text. rewrite Forall_forall in F. now apply F.
  - rewrite Forall_true. tauto.
Qed.
