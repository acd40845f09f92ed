(** The parts of a file one behind the other. *)
From Verif Require Import Base BytesModel BytesProofs BytesMoreProofs BufferModel BufferSpec BufferProofs
  EventSizeModel Assoc TextModel ReaderOpsModel SampleModel FileModel SerializerModel SerializerProofs AttrModel
  WriteModel WriteSpec WriteProofs WriteFeatureProofs WriteEventProofs.
Local Open Scope N_scope.

(** ** Ids and attributes *)
Definition ids_bytes (l : list x_fattr) : list N := concat (map (fun a => concat (map (le_bytes 8) (fx_ids a))) l).
Fixpoint id_sections (off : N) (l : list x_fattr) : list section :=
  match l with
  | [] => []
  | a :: r => mkSection off (8 * len (fx_ids a)) :: id_sections (off + 8 * len (fx_ids a)) r
  end.

Lemma len_words n (l : list N) : len (concat (map (le_bytes n) l)) = N.of_nat n * len l.
Proof.
  induction l as [|x l IH]; [cbn [map concat]; change (len []) with 0; change (@len N []) with 0; lia|].
  cbn [map concat]. rewrite len_app, len_le_bytes, IH, len_cons. lia.
Qed.

Lemma emits_ids l : emits true (write_ids l) True (fun o => (id_sections o l, ids_bytes l)).
Proof.
  induction l as [|a l IH]; cbn [write_ids].
  - apply emits_ret.
  - eapply emits_eq.
    + eapply (emits_bind true true _ _ _ _ _ (fun pos o =>
        (mkSection pos (8 * len (fx_ids a)) :: id_sections (o + 8 * len (fx_ids a)) l,
         concat (map (le_bytes 8) (fx_ids a)) ++ ids_bytes l)) emits_tell).
      intros pos. eapply emits_eq.
      * eapply (emits_bind true true _ _ _ _ _ (fun _ o =>
          (mkSection pos (8 * len (fx_ids a)) :: id_sections o l, ids_bytes l))).
        -- apply (puts_weach true _ (fun _ => True) (le_bytes 8)). intros x _. apply puts_word. lia.
        -- intros _. eapply emits_eq.
           ++ eapply (emits_bind true true _ _ _ _ _ (fun r _ => (mkSection pos (8 * len (fx_ids a)) :: r, [])) IH).
              intros r. apply emits_ret.
           ++ reflexivity.
           ++ intros o. cbn [fst snd]. now rewrite app_nil_r.
      * reflexivity.
      * intros o. cbn [fst snd]. rewrite len_words. reflexivity.
    + rewrite Forall_true. tauto.
    + intros o. cbn [fst snd id_sections]. change (len []) with 0. rewrite N.add_0_r. reflexivity.
Qed.

Lemma entries_of l : forall off,
  concat (map (fun x => des_attr (fx_attr (fst x)) ++ section_bytes (snd x)) (combine l (id_sections off l)))
  = attr_entries off l.
Proof.
  induction l as [|a l IH]; intros off; [reflexivity|]. cbn [id_sections combine map concat attr_entries fst snd].
  rewrite IH, <- app_assoc. reflexivity.
Qed.
Lemma len_entries l : forall off, len (attr_entries off l) = 112 * len l.
Proof.
  induction l as [|a l IH]; intros off; [reflexivity|]. cbn [attr_entries].
  rewrite !len_app, len_des_attr, len_place, IH, len_cons. lia.
Qed.

Lemma puts_entries l off :
  puts true (weach (fun x => wlet _ := write_data (des_attr (fx_attr (fst x))) in write_data (section_bytes (snd x)))
               (combine l (id_sections off l))) True (attr_entries off l).
Proof.
  rewrite <- entries_of. eapply puts_more; [apply (puts_weach true _ (fun _ => True))|apply Forall_true].
  intros x _. apply puts_two.
  - replace true with (nonempty (des_attr (fx_attr (fst x)))); [apply puts_data|].
    destruct (des_attr (fx_attr (fst x))) eqn:E; [|reflexivity].
    assert (L := len_des_attr (fx_attr (fst x))). rewrite E in L. discriminate.
  - replace true with (nonempty (section_bytes (snd x))); [apply puts_data|reflexivity].
Qed.

(** ** Events *)
Definition event_ok ord s (x : x_event) : Prop :=
  xe_size x <> 0 /\ x_size s x = Ok (xe_size x) /\ exists e, deserialize ord s x = Ok e.
Definition event_fits (x : x_event) : Prop := xe_size x < two16 /\ short_sample x.

Lemma len_event ord s x e : event_fits x -> x_size s x = Ok (xe_size x) -> deserialize ord s x = Ok e ->
  len e = xe_size x /\ ev_size e = xe_size x.
Proof. intros [F1 F2] X D. now apply (deserialize_size ord s). Qed.

Lemma write_event_run ord s x w :
  write_event ord s x w =
  match x_size s x with
  | Ok size =>
      if size =? 0 then (Fail, w) else if xe_size x =? size then
        match deserialize ord s x with
        | Ok e =>
            match mem_read e 0 (ev_size e) with
            | Ok d => (wlet _ := write_data d in
                       if (xe_type x =? R_AUXTRACE) && (0 <? xat_size (get_auxtrace (xe_body x)))
                       then write_data (xat_trace (get_auxtrace (xe_body x))) else wret tt) w
            | Fail => (Fail, w) | Abort => (Abort, w) | UB => (UB, w) | Hang => (Hang, w)
            end
        | Fail => (Fail, w) | Abort => (Abort, w) | UB => (UB, w) | Hang => (Hang, w)
        end
      else (Fail, w)
  | Fail => (Fail, w) | Abort => (Abort, w) | UB => (UB, w) | Hang => (Hang, w)
  end.
Proof.
  unfold write_event. cbv zeta. unfold wthen at 1, wlift at 1. destruct (x_size s x) as [size| | | |]; try reflexivity.
  unfold wthen at 1, wguard at 1. destruct (size =? 0); cbn [negb]; [reflexivity|].
  unfold wthen at 1, wguard at 1. destruct (xe_size x =? size); [|reflexivity].
  destruct (deserialize ord s x) as [e| | | |]; try reflexivity.
Qed.

Lemma puts_event ord s x : event_fits x ->
  puts (negb ((xe_type x =? R_AUXTRACE) && (0 <? xat_size (get_auxtrace (xe_body x)))))
    (write_event ord s x) (event_ok ord s x) (event_bytes ord s x).
Proof.
  intros F pre rest H. rewrite write_event_run. cbn [fst snd]. unfold event_ok, event_bytes.
  destruct (x_size s x) as [size| | | |] eqn:X;
    try (split; [discriminate|intros (_ & H1 & _); discriminate]).
  destruct (N.eqb_spec size 0) as [-> |Hz].
  { split; [discriminate|]. intros (H1 & H2 & _). injection H2 as H2. congruence. }
  destruct (N.eqb_spec (xe_size x) size) as [<- |Hn].
  2: { split; [discriminate|]. intros (H1 & H2 & _). injection H2 as H2. congruence. }
  destruct (deserialize ord s x) as [e| | | |] eqn:D;
    try (split; [discriminate|intros (_ & _ & e & H1); discriminate]).
  destruct (len_event ord s x e F X D) as [L S].
  assert (M : mem_read e 0 (ev_size e) = Ok e).
  { unfold mem_read. rewrite S, L. rewrite N.add_0_l, N.leb_refl. f_equal. unfold slice. change (N.to_nat 0) with O.
    cbn [skipn]. rewrite <- L, to_nat_len. apply firstn_all. }
  rewrite M.
  assert (Ne : nonempty e = true) by (destruct e; [change (len []) with 0 in L; congruence|reflexivity]).
  set (aux := (xe_type x =? R_AUXTRACE) && (0 <? xat_size (get_auxtrace (xe_body x)))).
  assert (P : puts (negb aux) (wlet _ := write_data e in if aux then write_data (xat_trace (get_auxtrace (xe_body x))) else wret tt)
                True (e ++ (if aux then xat_trace (get_auxtrace (xe_body x)) else []))).
  { destruct aux; cbn [negb].
    - eapply puts_more; [apply puts_then; eapply emits_strict; apply puts_data|tauto].
    - apply puts_two; [rewrite <- Ne; apply puts_data|apply emits_ret]. }
  destruct (P pre rest H) as [P1 P2]. split.
  - intros a w E. destruct (P1 a w E) as (_ & Q). split; [|exact Q]. repeat split; [exact Hz|now exists e].
  - intros _. now apply P2.
Qed.

Lemma puts_events ord s l : Forall event_fits l ->
  puts false (weach (write_event ord s) l) (Forall (event_ok ord s) l) (concat (map (event_bytes ord s) l)).
Proof.
  intros F. apply puts_weach. intros x Hx. eapply emits_strict. apply puts_event.
  rewrite Forall_forall in F. now apply F.
Qed.

(** ** Features *)
Fixpoint part_sections (off : N) (parts : list (list N)) : list section :=
  match parts with
  | [] => []
  | d :: r => mkSection off (len d) :: part_sections (off + len d) r
  end.
Lemma sections_places parts : forall off, concat (map section_bytes (part_sections off parts)) = concat (places off parts).
Proof.
  induction parts as [|d r IH]; intros off; [reflexivity|]. cbn [part_sections places map concat]. now rewrite IH.
Qed.
Lemma len_part_sections parts : forall off, len (part_sections off parts) = len parts.
Proof. induction parts as [|d r IH]; intros off; [reflexivity|]. cbn [part_sections]. now rewrite !len_cons, IH. Qed.
Lemma len_places parts : forall off, len (concat (places off parts)) = 16 * len parts.
Proof.
  induction parts as [|d r IH]; intros off; [reflexivity|]. cbn [places concat].
  rewrite len_app, len_place, IH, len_cons. lia.
Qed.

Lemma emits_features f p F l : representable p ->
  (forall ty, In ty l -> N.testbit F ty = true -> In ty known_features /\ (f = true -> ends_full ty = true)) ->
  emits f (write_features p F l) (Forall (feature_ok p) (filter (N.testbit F) l))
    (fun o => (part_sections o (map (feature_bytes p) (filter (N.testbit F) l)),
               concat (map (feature_bytes p) (filter (N.testbit F) l)))).
Proof.
  intros R. induction l as [|ty l IH]; intros K; cbn [write_features filter].
  - cbn [map concat part_sections]. destruct f; [|apply emits_strict with true];
    (eapply emits_eq; [apply emits_ret| |]; [split; auto|reflexivity]).
  - destruct (N.testbit F ty) eqn:T.
    2: { apply IH. intros t Ht. apply K. now right. }
    cbn [map concat part_sections].
    destruct (K ty (or_introl eq_refl) T) as [K1 K2].
    assert (P : puts f (write_feature p ty) (feature_ok p ty) (feature_bytes p ty)).
    { destruct f; [|eapply emits_strict; now apply puts_feature].
      rewrite <- (K2 eq_refl). now apply puts_feature. }
    specialize (IH (fun t Ht => K t (or_intror Ht))).
    set (D := map (feature_bytes p) (filter (N.testbit F) l)) in *.
    set (d := feature_bytes p ty) in *.
    intros pre rest H. cbn [fst snd].
    destruct (P pre rest H) as [P1 P2]. cbn [fst snd] in P1, P2. split.
    + intros a w. unfold wthen at 1, wtell at 1. unfold wthen at 1.
      destruct (write_feature p ty (at_end pre rest)) as [[u| | | |] w1]; try discriminate.
      destruct (P1 _ _ eq_refl) as (Q1 & _ & Q2 & ->). unfold wthen at 1, wtell at 1. unfold wthen at 1.
      assert (B : len (pre ++ d) + len (drop (len d) rest) < two63) by (rewrite len_app, len_drop; lia).
      destruct (IH _ _ B) as [I1 _]. cbn [fst snd] in I1.
      destruct (write_features p F l _) as [[r| | | |] w2]; try discriminate.
      destruct (I1 _ _ eq_refl) as (Q3 & -> & Q4 & ->). unfold wret. intros E. injection E as <- <-.
      rewrite len_drop in Q4. cbn [at_end woff].
      split; [now constructor|]. split; [|split; [rewrite len_app; lia|]].
      * rewrite len_app. do 2 f_equal. unfold sub64. rewrite <- (w64_small (len d)) at 2 by (unfold two63, two64 in *; lia).
        unfold w64, two63, two64 in *. lia.
      * rewrite drop_drop, !len_app, !app_assoc. reflexivity.
    + intros Q Rm. inversion Q as [|? ? Q1 Q2]; subst. rewrite len_app in Rm.
      unfold wthen at 1, wtell at 1. unfold wthen at 1. cbn [at_end woff]. fold (at_end pre rest).
      rewrite P2; [|exact Q1|destruct f; lia]. unfold wthen at 1, wtell at 1. unfold wthen at 1.
      assert (B : len (pre ++ d) + len (drop (len d) rest) < two63) by (rewrite len_app, len_drop; destruct f; lia).
      destruct (IH _ _ B) as [_ I2]. cbn [fst snd] in I2.
      rewrite I2; [|exact Q2|rewrite len_drop; destruct f; lia]. unfold wret. cbn [at_end woff].
      f_equal.
      * rewrite len_app. do 3 f_equal. unfold sub64. rewrite <- (w64_small (len d)) at 2 by (destruct f; unfold two63, two64 in *; lia).
        destruct f; unfold w64, two63, two64 in *; lia.
      * rewrite drop_drop, !len_app, !app_assoc. reflexivity.
Qed.
