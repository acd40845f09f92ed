(** Reading the attributes that were written. *)
From Verif Require Import Base BytesModel BytesProofs BytesMoreProofs BufferModel BufferSpec BufferProofs
  EventSizeModel EventSizeSpec Assoc TextModel ReaderOpsModel SampleModel FileModel SerializerModel SerializerSpec AttrModel AttrSpec
  AttrProofs MapperProofs WriteModel WriteSpec WriteProofs WriteFileProofs WriteFeatureProofs WriteLayoutProofs
  RereadProofs RereadSpec RereadMetaProofs.
Local Open Scope N_scope.

Definition file_attr (a : x_fattr) : fattr := mkFAttr (des_attr (fx_attr a)) (fx_ids a).
Definition reader_attr (a : x_fattr) : attr * list N := (raw_attr (des_attr (fx_attr a)), fx_ids a).

(** What the serializer of the writer and the state of the reader have in common. *)
Definition as_reader (x : N * list N) : N * attr := (fst x, raw_attr (snd x)).
Definition matches (st : fstate) (s : sstate) : Prop :=
  map as_reader (fs_readers st) = ss_readers s /\ fs_sample_pos st = ss_sample_pos s /\ fs_other_pos st = ss_other_pos s.

Lemma omset_reader id a m : map as_reader (omset id a m) = reader_set id (raw_attr a) (map as_reader m).
Proof.
  induction m as [|(k, v) m IH]; [reflexivity|]. cbn [omset map reader_set as_reader fst snd].
  destruct (id <? k); [reflexivity|]. destruct (id =? k); [reflexivity|]. cbn [map as_reader fst snd]. now rewrite IH.
Qed.
Lemma omsets_reader a ids : forall m, map as_reader (fold_left (fun m id => omset id a m) ids m) =
  fold_left (fun m id => reader_set id (raw_attr a) m) ids (map as_reader m).
Proof. induction ids as [|id ids IH]; intros m; [reflexivity|]. cbn [fold_left]. now rewrite IH, omset_reader. Qed.

(** The parts of the state that belong to attributes. *)
Record apart := mkApart {
  ap_attrs : list fattr; ap_readers : list (N * list N); ap_sp : option (option N); ap_op : option (option N);
  ap_ids : list N; ap_configs : list N }.
Definition with_apart (x : apart) (s : fstate) : fstate :=
  put_attrs (ap_attrs x) (put_readers (ap_readers x) (put_sample_pos (ap_sp x) (put_other_pos (ap_op x)
    (put_ids_seen (ap_ids x) (put_configs_seen (ap_configs x) s))))).
Definition apart_of (s : fstate) : apart :=
  mkApart (fs_attrs s) (fs_readers s) (fs_sample_pos s) (fs_other_pos s) (fs_ids_seen s) (fs_configs_seen s).
Definition apart_matches (x : apart) (s : sstate) : Prop :=
  map as_reader (ap_readers x) = ss_readers s /\ ap_sp x = ss_sample_pos s /\ ap_op x = ss_other_pos s.

Lemma with_of s : with_apart (apart_of s) s = s.
Proof. now destruct s. Qed.

Lemma add_attr a x s1 s2 : apart_matches x s1 ->
  create_reader (raw_attr (fa_attr a)) (fa_ids a) s1 = Ok s2 ->
  exists y, ap_attrs y = ap_attrs x ++ [a] /\ apart_matches y s2 /\
    forall st, add_file_attr a (with_apart x st) = Ok (with_apart y st).
Proof.
  intros (M1 & M2 & M3) C. unfold create_reader, set_positions in C.
  change (at_sample_type (raw_attr (fa_attr a))) with (attr_sample_type (fa_attr a)) in C.
  cbn [ss_sample_pos ss_other_pos ss_readers ss_swap] in C.
  destruct (id_positions (attr_sample_type (fa_attr a))) as [sp op] eqn:P.
  destruct (match ss_sample_pos s1 with None => true | Some o => pos_eqb o sp end &&
            match ss_other_pos s1 with None => true | Some o => pos_eqb o op end) eqn:G; [|discriminate].
  injection C as <-.
  exists (mkApart (ap_attrs x ++ [a])
           (fold_left (fun m id => omset id (fa_attr a) m) (match fa_ids a with [] => [0] | ids => ids end) (ap_readers x))
           (Some sp) (Some op)
           (match fa_ids a with [] => ap_ids x | id :: _ => id :: ap_ids x end)
           (attr_config (fa_attr a) :: ap_configs x)).
  split; [reflexivity|]. split.
  - split; [|now split]. cbn [ap_readers ss_readers]. rewrite omsets_reader, M1. now destruct (fa_ids a).
  - intros st. destruct st as [x0 x1 x2 x3 x4 x5 x6 x7 x8 x9 x10 x11 x12].
    unfold with_apart, add_file_attr, put_attrs, put_readers, put_sample_pos, put_other_pos, put_ids_seen, put_configs_seen,
      update_positions.
    cbn [fs_attrs fs_readers fs_sample_pos fs_other_pos fs_ids_seen fs_configs_seen ap_attrs ap_readers ap_sp ap_op ap_ids ap_configs].
    rewrite P, M2, M3, G. cbn [obind]. destruct (fa_ids a); reflexivity.
Qed.

(** Attributes one after the other. *)
Fixpoint add_attrs (l : list fattr) (s : fstate) : outcome fstate :=
  match l with
  | [] => Ok s
  | a :: r => let! s' := add_file_attr a s in add_attrs r s'
  end.

(** The parts after the first attributes of a list. *)
Inductive steps : list x_fattr -> apart -> sstate -> apart -> sstate -> Prop :=
| steps_nil x s : steps [] x s x s
| steps_cons a l x s y s1 z s2 :
    (forall st, add_file_attr (file_attr a) (with_apart x st) = Ok (with_apart y st)) -> steps l y s1 z s2 -> steps (a :: l) x s z s2.
Lemma readers_steps l : forall x s1 s2, apart_matches x s1 -> create_readers (map reader_attr l) s1 = Ok s2 ->
  exists y, steps l x s1 y s2 /\ ap_attrs y = ap_attrs x ++ map file_attr l /\ apart_matches y s2.
Proof.
  induction l as [|a l IH]; intros x s1 s2 M C.
  - injection C as <-. exists x. split; [constructor|]. cbn [map]. now rewrite app_nil_r.
  - cbn [map create_readers reader_attr] in C. destruct (create_reader (raw_attr (des_attr (fx_attr a))) (fx_ids a) s1) as [s'| | | |] eqn:E;
      try discriminate. cbn [obind] in C.
    destruct (add_attr (file_attr a) x s1 s' M E) as (y & Y1 & Y2 & Y3).
    destruct (IH y s' s2 Y2 C) as (z & Z1 & Z2 & Z3).
    exists z. split; [econstructor; eassumption|]. split; [|exact Z3].
    rewrite Z2, Y1. cbn [map]. now rewrite <- app_assoc.
Qed.

Section Attrs.
Variable f : list N.
Hypothesis Hf : len f < two63.
Notation gets := (gets f).

Lemma len_des a : len (des_attr a) = 96.
Proof. destruct (des_attr_is a) as [L _]. unfold len. now rewrite L. Qed.
Lemma des_cut a : ea_size a = 96 -> exists rest, len rest = 88 /\ des_attr a = le_bytes 4 (ea_type a) ++ le_bytes 4 96 ++ rest.
Proof.
  intros E. assert (L := len_des a). unfold des_attr in *. cbv zeta in *. rewrite E in *.
  eexists. split; [|reflexivity]. rewrite !len_app, !len_le_bytes in L. rewrite !len_app, !len_le_bytes. clear - L. lia.
Qed.
Lemma gets_event_attr a o : ea_size a = 96 -> at_off f o (des_attr a) -> gets read_event_attr o (des_attr a) (o + 96).
Proof.
  intros S A. assert (E := at_end_le _ _ _ A). rewrite len_des in E.
  destruct (des_cut a S) as (rest & L & D). rewrite D in *. clear D.
  assert (A1 := at_left _ _ _ _ A). assert (A2 := at_right _ _ _ _ A). rewrite len_le_bytes in A2.
  assert (A3 := at_right _ _ _ _ A2). rewrite len_le_bytes in A3. assert (A4 := at_left _ _ _ _ A2).
  change (N.of_nat 4) with 4 in *.
  assert (TY : of_le (le_bytes 4 (ea_type a)) < 256 ^ N.of_nat 4).
  { rewrite of_le_le_bytes_mod. now apply N.mod_lt. }
  assert (TB : le_bytes 4 (of_le (le_bytes 4 (ea_type a))) = le_bytes 4 (ea_type a)).
  { rewrite <- (le_bytes_length 4 (ea_type a)) at 1. apply le_bytes_of_le, le_bytes_ok. }
  unfold read_event_attr.
  next; [apply gets_u32; [exact Hf| |exact TY]; rewrite TB; exact A1|].
  next; [apply gets_u32; [exact Hf|exact A4|reflexivity]|].
  rewrite N.min_id. change (sub64 96 8) with 88. rewrite TB.
  next; [apply gets_data'; [exact Hf|exact A3|now rewrite L]|].
  assert (W : mem_write (le_bytes 4 (ea_type a) ++ le_bytes 4 96 ++ repeat 0 88) 8 rest =
              Ok (le_bytes 4 (ea_type a) ++ le_bytes 4 96 ++ rest)).
  { rewrite (mem_write_mid _ (le_bytes 4 (ea_type a) ++ le_bytes 4 96) (repeat 0 88) []).
    - now rewrite app_nil_r, <- app_assoc.
    - now rewrite app_nil_r, <- app_assoc.
    - rewrite len_app, !len_le_bytes. reflexivity.
    - now rewrite L. }
  next; [apply gets_lift; exact W|].
  next; [apply gets_ask|]. change (tell (rd f (o + 4 + 4 + 88))) with (o + 4 + 4 + 88).
  replace (o + 4 + 4 + 88) with (o + 96) by (clear; lia).
  assert (P : sub64 (w64 (o + 96 + 96)) 96 = o + 96).
  { unfold w64. rewrite N.mod_small by (clear - E Hf; unfold two63, two64 in *; lia).
    rewrite sub64_le; clear - E Hf; unfold two63, two64 in *; lia. }
  rewrite P. next; [apply gets_seek; exact E|].
  next; [apply gets_ask|]. cbn [rswap rd]. next; [apply gets_lift; reflexivity|].
  apply gets_lift. rewrite (mem_write_mid _ (le_bytes 4 (ea_type a)) (le_bytes 4 96) rest); [reflexivity|reflexivity| |];
    rewrite ?len_le_bytes; reflexivity.
Qed.

Lemma gets_ids l o : Forall (fun id => id < two64) l -> at_off f o (concat (map (le_bytes 8) l)) ->
  gets (read_ids (len l)) o l (o + len (concat (map (le_bytes 8) l))).
Proof. intros F A. unfold read_ids. rewrite to_nat_len. now apply gets_words. Qed.
Lemma len_words n (l : list N) : len (concat (map (le_bytes n) l)) = N.of_nat n * len l.
Proof.
  clear. induction l as [|v l IH]; [now rewrite N.mul_0_r|]. cbn [map concat]. rewrite len_app, len_le_bytes, IH, len_cons. lia.
Qed.

(** A pair of offset and size that is there. *)
Lemma gets_section o : o + 16 <= len f -> word_at f o <= len f -> word_at f o + word_at f (o + 8) <= len f ->
  gets read_section o (mkSection (word_at f o) (word_at f (o + 8))) (o + 16).
Proof.
  intros L B1 B2. unfold read_section.
  next; [apply (gets_data' f Hf o (slice f o 16)); [apply (at_exists _ _ 16); [reflexivity|exact L]|]|].
  { unfold slice, len in *. rewrite firstn_length, skipn_length. clear - L. lia. }
  assert (S1 : slice (slice f o 16) 0 8 = slice f o 8).
  { unfold slice. rewrite skipn_O, firstn_firstn. reflexivity. }
  assert (S2 : slice (slice f o 16) 8 8 = slice f (o + 8) 8).
  { unfold slice. change (N.to_nat 16) with (8 + 8)%nat. change (N.to_nat 8) with 8%nat.
    replace (N.to_nat (o + 8)) with (8 + N.to_nat o)%nat by (clear; lia).
    rewrite <- skipn_skipn'. rewrite skipn_firstn_comm. change (8 + 8 - 8)%nat with 8%nat. now rewrite firstn_firstn. }
  rewrite S1, S2. next; [apply gets_ask|]. cbn [rswap rd]. unfold sw64.
  next; [apply gets_ask|]. cbn [rbuf rd].
  next; [apply gets_guard, N.leb_le; exact B1|].
  next; [apply gets_guard, N.leb_le|apply gets_ret].
  clear - B2. unfold word_at in *. lia.
Qed.

(** The attributes in their section. *)
Lemma gets_attr a o x y st : ea_size (fx_attr a) = 96 -> Forall (fun id => id < two64) (fx_ids a) ->
  o + 96 <= len f -> slice f o 96 = des_attr (fx_attr a) -> refers f (o + 96) (concat (map (le_bytes 8) (fx_ids a))) ->
  add_file_attr (file_attr a) (with_apart x st) = Ok (with_apart y st) ->
  gets (read_attr (with_apart x st)) o (with_apart y st) (o + 112).
Proof.
  intros S I L D (R1 & R2 & R3 & R4) G. unfold read_attr.
  next; [apply gets_event_attr; [exact S|apply (at_exists _ _ 96); [exact D|exact L]]|].
  next; [apply gets_section; [exact R1|clear - R3; lia|rewrite R2; exact R3]|]. rewrite R2. cbn [sc_offset sc_size].
  next; [apply gets_ask|]. change (tell (rd f (o + 96 + 16))) with (o + 96 + 16).
  next; [apply gets_seek; clear - R3; lia|].
  replace (len (concat (map (le_bytes 8) (fx_ids a))) / 8) with (len (fx_ids a)).
  2: { rewrite len_words. change (N.of_nat 8) with 8. rewrite N.mul_comm. symmetry. now apply N.div_mul. }
  next; [apply gets_ids; [exact I|apply (at_exists _ _ (len (concat (map (le_bytes 8) (fx_ids a))))); [exact R4|exact R3]]|].
  next; [apply gets_seek; exact R1|].
  replace (o + 112) with (o + 96 + 16) by (clear; lia). apply gets_lift. exact G.
Qed.
Lemma gets_attrs l : forall x s1 y s2 o st, steps l x s1 y s2 ->
  Forall (fun a => ea_size (fx_attr a) = 96 /\ len (fx_ids a) < two32 /\ Forall (fun id => id < two64) (fx_ids a)) l ->
  (forall i a, nth_error l i = Some a ->
    slice f (o + 112 * N.of_nat i) 96 = des_attr (fx_attr a) /\
    refers f (o + 112 * N.of_nat i + 96) (concat (map (le_bytes 8) (fx_ids a)))) ->
  gets (repeat_read (length l) read_attr (with_apart x st)) o (with_apart y st) (o + 112 * len l).
Proof.
  induction l as [|a l IH]; intros x s1 y s2 o st T F H; inversion T; subst.
  - cbn [length repeat_read]. change (len []) with 0. rewrite N.mul_0_r, N.add_0_r. apply gets_ret.
  - cbn [length repeat_read]. inversion F as [|? ? (F1 & F2 & F3) F4]; subst.
    match goal with G : forall st, add_file_attr _ (with_apart x st) = Ok (with_apart ?y0 st) |- _ => rename y0 into y1; rename G into G1 end.
    match goal with G : steps l y1 ?t y s2 |- _ => rename G into G2 end.
    destruct (H O a eq_refl) as [D R]. change (N.of_nat 0) with 0 in *. rewrite N.mul_0_r, N.add_0_r in *.
    next; [apply (gets_attr a o x y1 st F1 F3); [destruct R; clear - H0; lia|exact D|exact R|apply G1]|].
    replace (o + 112 * len (a :: l)) with (o + 112 + 112 * len l) by (rewrite len_cons; clear; lia).
    eapply IH; [exact G2|exact F4|]. intros i b B. specialize (H (S i) b B).
    replace (o + 112 * N.of_nat (S i)) with (o + 112 + 112 * N.of_nat i) in H by (clear; lia). exact H.
Qed.

(** The attributes in the descriptions of events. *)
Lemma types_apart x T st t : put_types (fs_types (with_apart x (put_types T st)) ++ [t]) (with_apart x (put_types T st)) =
  with_apart x (put_types (T ++ [t]) st).
Proof. now destruct st. Qed.
Lemma config_des m : attr_config (des_attr m) = w64 (ea_config m).
Proof. unfold attr_config. apply (des_member m 2 8 (ea_config m) 8 8); reflexivity. Qed.
Lemma gets_event_desc a c name o x y T st : ea_size (fx_attr a) = 96 -> len (fx_ids a) < two32 ->
  Forall (fun id => id < two64) (fx_ids a) -> text_ok name -> w64 (ea_config (fx_attr a)) = c ->
  at_off f o (event_desc_bytes (a, (c, name))) ->
  (forall st, add_file_attr (file_attr a) (with_apart x st) = Ok (with_apart y st)) ->
  gets (read_event_desc (with_apart x (put_types T st))) o (with_apart y (put_types (T ++ [(c, name)]) st))
    (o + len (event_desc_bytes (a, (c, name)))).
Proof.
  intros S C I [Z Sh] W A G. unfold event_desc_bytes in *. cbn [fst snd] in *.
  assert (A1 := at_left _ _ _ _ A). assert (A2 := at_right _ _ _ _ A). rewrite len_des in A2.
  assert (A3 := at_left _ _ _ _ A2). assert (A4 := at_right _ _ _ _ A2). rewrite len_le_bytes in A4.
  assert (A5 := at_left _ _ _ _ A4). assert (A6 := at_right _ _ _ _ A4).
  unfold read_event_desc. rewrite !len_app, len_des, len_le_bytes, !N.add_assoc.
  next; [apply gets_event_attr; [exact S|exact A1]|].
  next; [apply gets_u32; [exact Hf|exact A3|exact C]|].
  next; [apply gets_text; [exact Hf|exact A5|exact Z|exact Sh]|].
  next; [apply gets_ids; [exact I|exact A6]|].
  next; [apply gets_lift; exact (G _)|].
  rewrite types_apart. rewrite config_des, W. apply gets_ret.
Qed.
Lemma gets_event_descs' l : forall ts x s1 y s2 o T st, steps l x s1 y s2 -> length l = length ts ->
  Forall (fun a => ea_size (fx_attr a) = 96 /\ len (fx_ids a) < two32 /\ Forall (fun id => id < two64) (fx_ids a)) l ->
  Forall (fun t => text_ok (snd t)) ts ->
  Forall (fun x => w64 (ea_config (fx_attr (fst x))) = fst (snd x)) (combine l ts) ->
  at_off f o (concat (map event_desc_bytes (combine l ts))) ->
  gets (repeat_read (length l) read_event_desc (with_apart x (put_types T st))) o (with_apart y (put_types (T ++ ts) st))
    (o + len (concat (map event_desc_bytes (combine l ts)))).
Proof.
  induction l as [|a l IH]; intros ts x s1 y s2 o T st TS LL F FT FC A; inversion TS; subst; destruct ts as [|[c name] ts]; try discriminate LL.
  - cbn [combine map concat length repeat_read]. change (len []) with 0. rewrite N.add_0_r, app_nil_r. apply gets_ret.
  - cbn [combine map concat length repeat_read] in *. inversion F as [|? ? (F1 & F2 & F3) F4]; subst.
    inversion FT as [|? ? FT1 FT2]; subst. inversion FC as [|? ? FC1 FC2]; subst. cbn [fst snd] in *.
    match goal with G : forall st, add_file_attr _ (with_apart x st) = Ok (with_apart ?y0 st) |- _ => rename y0 into y1; rename G into G1 end.
    match goal with G : steps l y1 ?t y s2 |- _ => rename G into G2 end.
    assert (A1 := at_left _ _ _ _ A). assert (A2 := at_right _ _ _ _ A). rewrite len_app, N.add_assoc.
    next; [eapply gets_event_desc; try eassumption; reflexivity|].
    replace (T ++ (c, name) :: ts) with ((T ++ [(c, name)]) ++ ts) by (now rewrite <- app_assoc).
    eapply IH; try eassumption. now injection LL.
Qed.
Lemma gets_descs p x s1 y s2 o st : attrs_ok p -> asked p 12 = true -> steps (wd_attrs p) x s1 y s2 ->
  ap_attrs x = [] -> ap_ids x = [] -> ap_configs x = [] -> fs_types st = [] ->
  at_off f o (feature_bytes p 12) ->
  gets (read_event_descs (with_apart x st)) o (with_apart y (put_types (wd_types p) st)) (o + len (feature_bytes p 12)).
Proof.
  intros K As T X1 X2 X3 ST A. destruct (ak_types _ K As) as (LL & FT & FC).
  change (feature_bytes p 12) with
    (le_bytes 4 (len (wd_attrs p)) ++ le_bytes 4 96 ++ concat (map event_desc_bytes (combine (wd_attrs p) (wd_types p)))) in *.
  assert (A1 := at_left _ _ _ _ A). assert (A2 := at_right _ _ _ _ A). rewrite len_le_bytes in A2.
  assert (A3 := at_left _ _ _ _ A2). assert (A4 := at_right _ _ _ _ A2). rewrite len_le_bytes in A4.
  assert (Cn := ak_count _ K).
  unfold read_event_descs. rewrite !len_app, !len_le_bytes, !N.add_assoc.
  next; [apply gets_u32; [exact Hf|exact A1|clear - Cn; unfold two32; lia]|].
  next; [apply gets_guard, N.leb_le; clear - Cn; lia|].
  next; [apply gets_u32; [exact Hf|exact A3|reflexivity]|]. rewrite to_nat_len.
  replace (put_ids_seen [] (put_configs_seen [] (put_attrs [] (with_apart x st)))) with (with_apart x (put_types [] st)).
  2: { destruct x as [a b c d e g]. cbn [ap_attrs ap_ids ap_configs] in *. subst. destruct st as [x0 x1 x2 x3 x4 x5 x6 x7 x8 x9 x10 x11 x12]. cbn [fs_types] in ST. subst. reflexivity. }
  change (wd_types p) with ([] ++ wd_types p) at 1.
  eapply gets_event_descs'; try eassumption. apply (ak_size _ K).
Qed.
End Attrs.
