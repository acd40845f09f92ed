(** What the features of a file are written as. *)
From Verif Require Import Base BytesModel BytesProofs BytesMoreProofs BufferModel BufferSpec BufferProofs
  EventSizeModel Assoc TextModel ReaderOpsModel SampleModel FileModel SerializerModel SerializerProofs AttrModel
  WriteModel WriteSpec WriteProofs.
Local Open Scope N_scope.

Lemma len_des_attr m : len (des_attr m) = 96.
Proof. unfold des_attr. cbv zeta. rewrite !len_app, !len_le_bytes. reflexivity. Qed.
Lemma len_place o n : len (place o n) = 16.
Proof. unfold place. rewrite len_app, !len_le_bytes. reflexivity. Qed.

Lemma room_bounds t : len t < room_of t <= len t + 8.
Proof. unfold room_of. lia. Qed.
Lemma len_padded_text t : len (padded_text t) = room_of t.
Proof. unfold padded_text. rewrite len_app, len_repeat. assert (H := room_bounds t). lia. Qed.

Lemma aligned_room t : len t + 8 < two64 -> aligned_string_length (len t) = room_of t.
Proof. intros H. rewrite aligned_string_length_value by exact H. reflexivity. Qed.

(** ** Build ids *)
Lemma mem_write_mid l a old b o d : l = a ++ old ++ b -> o = len a -> len old = len d ->
  mem_write l o d = Ok (a ++ d ++ b).
Proof.
  intros -> -> E. unfold mem_write. rewrite !len_app.
  destruct (N.leb_spec (len a + len d) (len a + (len old + len b))); [|lia].
  rewrite firstn_len_app. do 3 f_equal. rewrite app_assoc.
  replace (len a + len d) with (len (a ++ old)) by (rewrite len_app; lia). apply skipn_len_app.
Qed.

Definition zeros (n : N) : list N := repeat 0 (N.to_nat n).
Lemma len_zeros n : len (zeros n) = n.
Proof. unfold zeros. rewrite len_repeat. lia. Qed.
Lemma zeros_add a b : zeros (a + b) = zeros a ++ zeros b.
Proof. unfold zeros. rewrite N2Nat.inj_add. apply repeat_app. Qed.

Lemma c_str_all t : ~ In 0 t -> c_str t = t.
Proof.
  induction t as [|x t IH]; intros H; [reflexivity|]. cbn [c_str]. destruct (N.eqb_spec x 0) as [-> |].
  - exfalso. apply H. now left.
  - f_equal. apply IH. intros X. apply H. now right.
Qed.

Lemma name_stored e f : ~ In 0 f ->
  match f with
  | [] => Ok e
  | n :: l => match c_str (n :: l) with [] => Abort | t => let! e' := mem_write e 36 (t ++ [0]) in Ok e' end
  end
  = match f with [] => Ok e | _ => let! e' := mem_write e 36 (f ++ [0]) in Ok e' end.
Proof. intros H. destruct f; [reflexivity|]. now rewrite c_str_all. Qed.

Lemma des_build_id_image b : build_fits b -> des_build_id b = Ok (build_id_bytes b).
Proof.
  intros (H1 & H2 & H3). assert (R := room_bounds (rb_file b)).
  unfold des_build_id. rewrite aligned_room by (unfold two16, two64 in *; lia).
  rewrite w64_small by (unfold two16, two64 in *; lia). cbv zeta.
  set (h := rb_hash b) in *. set (f := rb_file b) in *. set (r := room_of f) in *.
  assert (Z : repeat 0 (N.to_nat (36 + r)) =
    zeros 4 ++ zeros 2 ++ zeros 2 ++ zeros 4 ++ zeros (len h) ++ zeros (20 - len h) ++ [0] ++ zeros 3
    ++ zeros (len f + 1) ++ zeros (r - len f - 1)).
  { change (repeat 0 (N.to_nat (36 + r))) with (zeros (36 + r)).
    replace (36 + r) with (4 + (2 + (2 + (4 + (len h + ((20 - len h) + (1 + (3 + ((len f + 1) + (r - len f - 1)))))))))) by lia.
    rewrite !zeros_add. reflexivity. }
  rewrite Z. clear Z. set (zf := zeros (len f + 1) ++ zeros (r - len f - 1)).
  assert (Zf : zf = zeros r).
  { unfold zf. rewrite <- zeros_add. f_equal. lia. }
  cbn [stores]. unfold u32_at, u16_at.
  rewrite (mem_write_mid _ [] (zeros 4) (zeros 2 ++ zeros 2 ++ zeros 4 ++ zeros (len h) ++ zeros (20 - len h) ++ [0] ++ zeros 3 ++ zf))
    by (rewrite ?len_le_bytes, ?len_zeros; reflexivity). cbn [obind].
  rewrite (mem_write_mid _ (le_bytes 4 67 ++ zeros 2) (zeros 2) (zeros 4 ++ zeros (len h) ++ zeros (20 - len h) ++ [0] ++ zeros 3 ++ zf))
    by (rewrite ?len_app, ?len_le_bytes, ?len_zeros, <- ?app_assoc; reflexivity). cbn [obind].
  rewrite (mem_write_mid _ (le_bytes 4 67) (zeros 2) (le_bytes 2 (36 + r) ++ zeros 4 ++ zeros (len h) ++ zeros (20 - len h) ++ [0] ++ zeros 3 ++ zf))
    by (rewrite ?len_app, ?len_le_bytes, ?len_zeros, <- ?app_assoc; reflexivity). cbn [obind].
  rewrite (mem_write_mid _ (le_bytes 4 67 ++ le_bytes 2 (rb_misc b) ++ le_bytes 2 (36 + r)) (zeros 4) (zeros (len h) ++ zeros (20 - len h) ++ [0] ++ zeros 3 ++ zf))
    by (rewrite ?len_app, ?len_le_bytes, ?len_zeros, <- ?app_assoc; reflexivity). cbn [obind].
  rewrite (mem_write_mid _ (le_bytes 4 67 ++ le_bytes 2 (rb_misc b) ++ le_bytes 2 (36 + r) ++ le_bytes 4 (rb_pid b)) (zeros (len h)) (zeros (20 - len h) ++ [0] ++ zeros 3 ++ zf))
    by (rewrite ?len_app, ?len_le_bytes, ?len_zeros, <- ?app_assoc; reflexivity). cbn [obind].
  set (y := if N.testbit (rb_misc b) 15 then value_or 0 (rb_size b) mod 256 else 0).
  assert (Y : (if N.testbit (rb_misc b) 15
      then (let! e' := mem_write ((le_bytes 4 67 ++ le_bytes 2 (rb_misc b) ++ le_bytes 2 (36 + r) ++ le_bytes 4 (rb_pid b)) ++ h ++ zeros (20 - len h) ++ [0] ++ zeros 3 ++ zf) 32 (le_bytes 1 (value_or 0 (rb_size b))) in Ok e')
      else Ok ((le_bytes 4 67 ++ le_bytes 2 (rb_misc b) ++ le_bytes 2 (36 + r) ++ le_bytes 4 (rb_pid b)) ++ h ++ zeros (20 - len h) ++ [0] ++ zeros 3 ++ zf))
      = Ok ((le_bytes 4 67 ++ le_bytes 2 (rb_misc b) ++ le_bytes 2 (36 + r) ++ le_bytes 4 (rb_pid b) ++ h ++ zeros (20 - len h) ++ [y] ++ zeros 3) ++ zf)).
  { subst y. destruct (N.testbit (rb_misc b) 15).
    - rewrite (mem_write_mid _ (le_bytes 4 67 ++ le_bytes 2 (rb_misc b) ++ le_bytes 2 (36 + r) ++ le_bytes 4 (rb_pid b) ++ h ++ zeros (20 - len h)) [0] (zeros 3 ++ zf)).
      + cbn [obind]. f_equal. rewrite <- !app_assoc. reflexivity.
      + rewrite <- !app_assoc. reflexivity.
      + rewrite !len_app, !len_le_bytes, len_zeros. lia.
      + reflexivity.
    - f_equal. rewrite <- !app_assoc. reflexivity. }
  rewrite Y. clear Y. cbn [obind].
  assert (G : Ok ((le_bytes 4 67 ++ le_bytes 2 (rb_misc b) ++ le_bytes 2 (36 + r) ++ le_bytes 4 (rb_pid b) ++ h ++ zeros (20 - len h) ++ [y] ++ zeros 3) ++ padded_text f)
    = Ok (build_id_bytes b)).
  { unfold build_id_bytes. fold h f r y. rewrite <- !app_assoc. reflexivity. }
  rewrite <- G. clear G.
  rewrite (name_stored _ f H2).
  assert (D : f = [] \/ exists x f', f = x :: f') by (destruct f; eauto). destruct D as [Ef|(x & f' & Ef)].
  - rewrite Ef. f_equal. f_equal. rewrite Zf. unfold r. rewrite Ef. reflexivity.
  - replace (match f with [] => _ | _ => _ end) with
      (let! e' := mem_write ((le_bytes 4 67 ++ le_bytes 2 (rb_misc b) ++ le_bytes 2 (36 + r) ++ le_bytes 4 (rb_pid b) ++ h ++ zeros (20 - len h) ++ [y] ++ zeros 3) ++ zf) 36 (f ++ [0]) in Ok e')
      by (rewrite Ef; reflexivity).
    rewrite (mem_write_mid _ (le_bytes 4 67 ++ le_bytes 2 (rb_misc b) ++ le_bytes 2 (36 + r) ++ le_bytes 4 (rb_pid b) ++ h ++ zeros (20 - len h) ++ [y] ++ zeros 3) (zeros (len f + 1)) (zeros (r - len f - 1))).
    + cbn [obind]. f_equal. f_equal. unfold padded_text. rewrite <- app_assoc. f_equal. fold r.
      change (zeros 1 ++ zeros (r - len f - 1) = zeros (r - len f)). rewrite <- zeros_add. f_equal. lia.
    + reflexivity.
    + rewrite !len_app, !len_le_bytes, !len_zeros. change (len [y]) with 1. lia.
    + rewrite len_zeros, len_app. reflexivity.
Qed.

Lemma build_id_size b : build_fits b -> len (build_id_bytes b) = 36 + room_of (rb_file b).
Proof.
  intros (H1 & H2 & H3). unfold build_id_bytes. rewrite !len_app, !len_le_bytes, len_padded_text, len_repeat.
  match goal with |- context[len [?a; ?b; ?c; ?d]] => change (len [a; b; c; d]) with 4 end. lia.
Qed.

Lemma puts_build b : build_fits b -> puts true (write_build_id b) True (build_id_bytes b).
Proof.
  intros F. unfold write_build_id. rewrite (des_build_id_image b F).
  assert (L := build_id_size b F).
  assert (S : ev_size (build_id_bytes b) = 36 + room_of (rb_file b)).
  { unfold ev_size, build_id_bytes.
    rewrite app_assoc, (slice_app (le_bytes 4 67 ++ le_bytes 2 (rb_misc b)) (le_bytes 2 (36 + room_of (rb_file b))))
      by (rewrite ?len_app, ?len_le_bytes; reflexivity).
    apply of_le_le_bytes. apply F. }
  assert (M : mem_read (build_id_bytes b) 0 (ev_size (build_id_bytes b)) = Ok (build_id_bytes b)).
  { unfold mem_read. rewrite S, L. rewrite N.add_0_l, N.leb_refl. f_equal. unfold slice. cbn [skipn].
    rewrite <- L. change (N.to_nat 0) with O. cbn [skipn]. rewrite to_nat_len. apply firstn_all. }
  intros pre rest H. unfold wthen, wlift. rewrite M.
  replace true with (nonempty (build_id_bytes b)); [apply puts_data; exact H|].
  destruct (build_id_bytes b) as [|z zs]; [change (len []) with 0 in L; lia|reflexivity].
Qed.

(** ** Numbers *)
Lemma puts_numbers n ty l :
  puts false (write_numbers n ty l) (aget N.eqb ty l <> None) (concat (map (le_bytes n) (numbers_of ty l))).
Proof.
  unfold numbers_of. induction l as [|(t, d) l IH].
  - cbn [write_numbers aget]. intros pre rest H. split; [discriminate|]. intros K. now contradiction K.
  - cbn [write_numbers aget]. rewrite (N.eqb_sym t ty). destruct (ty =? t).
    + eapply puts_more; [eapply emits_strict; apply puts_data|]. split; [discriminate|trivial].
    + exact IH.
Qed.

(** ** Event descriptions *)
Definition config_agrees (x : x_fattr * (N * list N)) : Prop :=
  w64 (ea_config (fx_attr (fst x))) = fst (snd x).

Lemma attr_config_of m : attr_config (des_attr m) = w64 (ea_config m).
Proof.
  unfold attr_config, des_attr. cbv zeta. rewrite app_assoc.
  rewrite (slice_app (le_bytes 4 (ea_type m) ++ le_bytes 4 (ea_size m)) (le_bytes 8 (ea_config m)))
    by (rewrite ?len_app, !len_le_bytes; reflexivity).
  rewrite of_le_le_bytes_mod. reflexivity.
Qed.

Lemma firstn_short (l : list N) : len l < two32 -> firstn (N.to_nat (w32 (len l))) l = l.
Proof. intros H. unfold w32. rewrite N.mod_small by exact H. rewrite to_nat_len. apply firstn_all. Qed.

Lemma puts_event_desc x : len (fx_ids (fst x)) < two32 -> short_text (snd (snd x)) ->
  puts false (write_event_desc x) (config_agrees x) (event_desc_bytes x).
Proof.
  destruct x as [a [id name]]. unfold write_event_desc, event_desc_bytes, config_agrees. cbn [fst snd]. intros H1 H2.
  rewrite attr_config_of, (firstn_short _ H1).
  eapply puts_more; [apply puts_when; intros _|].
  - apply puts_then.
    + eapply emits_strict. apply puts_data.
    + apply puts_then; [apply emits_strict with true, puts_word; lia|]. apply puts_then.
      * apply emits_strict with true, puts_text, H2.
      * eapply emits_strict. apply puts_data.
  - rewrite N.eqb_eq. tauto.
Qed.

Definition descs_ok (p : wdata) : Prop :=
  len (wd_attrs p) <= len (wd_types p) /\ Forall config_agrees (combine (wd_attrs p) (wd_types p)).

(** ** All features *)
Definition feature_ok (p : wdata) (ty : N) : Prop :=
  (ty = 7 -> aget N.eqb 7 (fm_u32 (wd_meta p)) <> None) /\
  (ty = 10 -> aget N.eqb 10 (fm_u64 (wd_meta p)) <> None) /\ (ty = 12 -> descs_ok p).

(** Sections that may be written up to the last byte of the buffer. *)
Definition ends_full (ty : N) : bool := negb (existsb (N.eqb ty) [1; 7; 10; 12]).

Lemma aget_snd {P : list N -> Prop} ty (l : list (N * list N)) :
  Forall (fun x => P (snd x)) l -> P [] -> P (text_or_empty (aget N.eqb ty l)).
Proof.
  intros F H. induction l as [|(t, d) l IH]; cbn [aget]; [exact H|].
  inversion F; subst. destruct (ty =? t); [assumption|auto].
Qed.

Lemma puts_list {A} (f : A -> wres unit) (d : A -> list N) n l : (0 < n)%nat ->
  (forall x, In x l -> puts true (f x) True (d x)) ->
  puts true (wlet _ := write_data (le_bytes n (len l)) in weach f l) True (le_bytes n (len l) ++ concat (map d l)).
Proof.
  intros Hn P. eapply puts_more; [apply puts_then; [now apply puts_word|]|].
  - apply (puts_weach true f (fun _ => True) d). exact P.
  - rewrite Forall_true. tauto.
Qed.

Lemma puts_two c1 c2 d1 d2 : puts true c1 True d1 -> puts true c2 True d2 ->
  puts true (wlet _ := c1 in c2) True (d1 ++ d2).
Proof. intros P1 P2. eapply puts_more; [apply puts_then; eassumption|]. tauto. Qed.

Lemma trivially f c (ok : Prop) d : ok -> puts f c True d -> puts f c ok d.
Proof. intros H P. eapply puts_more; [exact P|]. tauto. Qed.

Lemma puts_feature p ty : representable p -> In ty known_features ->
  puts (ends_full ty) (write_feature p ty) (feature_ok p ty) (feature_bytes p ty).
Proof.
  intros [R1 R2 R3 R4 R5 R6 R7 R8 R9 R10 R11 R12] Hty.
  rewrite Forall_forall in R5, R6, R7, R8, R11.
  assert (T0 : short_text []) by (unfold short_text; reflexivity).
  unfold known_features in Hty. cbn [In] in Hty.
  assert (OK : ty <> 7 -> ty <> 10 -> ty <> 12 -> feature_ok p ty) by (intros; repeat split; congruence || (intros; congruence)).
  repeat (destruct Hty as [<-|Hty]); try contradiction;
    unfold write_feature, feature_bytes, ends_full; cbv zeta;
    cbn [N.eqb Pos.eqb existsb orb negb string_features].
  - apply trivially; [apply OK; discriminate|]. eapply emits_strict. apply puts_data.
  - apply trivially; [apply OK; discriminate|].
    eapply puts_more; [apply (puts_weach true write_build_id (fun _ => True) build_id_bytes)|apply Forall_true].
    intros b Hb. apply puts_build. now apply R11.
  - apply trivially; [apply OK; discriminate|]. apply puts_text. now apply (aget_snd (P := short_text)).
  - apply trivially; [apply OK; discriminate|]. apply puts_text. now apply (aget_snd (P := short_text)).
  - apply trivially; [apply OK; discriminate|]. apply puts_text. now apply (aget_snd (P := short_text)).
  - apply trivially; [apply OK; discriminate|]. apply puts_text. now apply (aget_snd (P := short_text)).
  - eapply puts_more; [apply puts_numbers|]. unfold feature_ok. split; [|intuition].
    intros H. repeat split; intros; try exact H; discriminate.
  - apply trivially; [apply OK; discriminate|]. apply puts_text. now apply (aget_snd (P := short_text)).
  - apply trivially; [apply OK; discriminate|]. apply puts_text. now apply (aget_snd (P := short_text)).
  - eapply puts_more; [apply puts_numbers|]. unfold feature_ok. split; [|intuition].
    intros H. repeat split; intros; try exact H; discriminate.
  - apply trivially; [apply OK; discriminate|]. now apply puts_texts.
  - unfold write_event_descs. eapply puts_more; [apply puts_when; intros _|].
    + apply puts_then; [apply emits_strict with true, puts_word; lia|].
      apply puts_then; [apply emits_strict with true, puts_word; lia|].
      apply (puts_weach false write_event_desc config_agrees event_desc_bytes).
      intros (a, t) Hx. apply puts_event_desc; cbn [fst snd].
      * rewrite Forall_forall in R10. apply R10. now apply in_combine_l in Hx.
      * rewrite Forall_forall in R9. apply R9. now apply in_combine_r in Hx.
    + unfold feature_ok, descs_ok. rewrite N.leb_le. split; [|intuition].
      intros (H1 & _ & _ & H2). repeat split; intros; try discriminate; assumption.
  - apply trivially; [apply OK; discriminate|]. unfold write_cpu_topology.
    apply puts_two; [now apply puts_texts|]. apply puts_two; [now apply puts_texts|].
    eapply puts_more; [apply (puts_weach true _ (fun _ => True) (fun c => le_bytes 4 (fst c) ++ le_bytes 4 (snd c)))|apply Forall_true].
    intros c _. apply puts_two; apply puts_word; lia.
  - apply trivially; [apply OK; discriminate|]. unfold write_numa. apply puts_list; [lia|].
    intros (((id, size), free), cpus) Hx. apply R5 in Hx. cbn [snd] in Hx.
    apply puts_two; [apply puts_word; lia|]. apply puts_two; [apply puts_word; lia|].
    apply puts_two; [apply puts_word; lia|]. now apply puts_text.
  - apply trivially; [apply OK; discriminate|]. apply emits_ret.
  - apply trivially; [apply OK; discriminate|]. unfold write_pmu. apply puts_list; [lia|].
    intros x Hx. apply puts_two; [apply puts_word; lia|]. apply puts_text. now apply R6.
  - apply trivially; [apply OK; discriminate|]. unfold write_groups. apply puts_list; [lia|].
    intros ((name, leader), members) Hx. apply R7 in Hx. cbn [fst] in Hx.
    apply puts_two; [now apply puts_text|]. apply puts_two; apply puts_word; lia.
  - apply trivially; [apply OK; discriminate|]. unfold write_hybrid. apply puts_list; [lia|].
    intros h Hx. destruct (R8 h Hx) as (H1 & H2 & H3). apply puts_two; [now apply puts_text|]. apply puts_text.
    destruct (text_or_empty (xh_cpus h)); assumption.
Qed.
