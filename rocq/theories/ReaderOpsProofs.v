From Coq Require Import Permutation.
From Verif Require Import Base BytesModel TextModel TextSpec TextProofs BytesProofs BytesMoreProofs Assoc ReaderOpsModel ReaderOpsSpec.
Local Open Scope N_scope.

(** ** Sorting *)

Lemma insert_perm e l : Permutation (e :: l) (insert_event e l).
Proof.
  induction l as [|x l IH]; [apply Permutation_refl|]. cbn [insert_event].
  destruct (event_before x e); [|apply Permutation_refl].
  eapply perm_trans; [apply perm_swap|]. now apply perm_skip.
Qed.

Lemma sort_perm l : Permutation l (stable_sort l).
Proof.
  induction l as [|e l IH]; [apply Permutation_refl|]. cbn [stable_sort].
  eapply perm_trans; [apply perm_skip, IH|apply insert_perm].
Qed.

Inductive osorted : list revent -> Prop :=
| os_nil : osorted []
| os_cons e l : (forall x, In x l -> rv_time e <= rv_time x) -> osorted l -> osorted (e :: l).

Lemma osorted_spec l : osorted l <-> in_time_order l.
Proof.
  split.
  - induction 1 as [|e l H S IH]; intros l1 a l2 b l3 E.
    + destruct l1; discriminate.
    + destruct l1 as [|y l1]; cbn [app] in E; injection E as -> E.
      * apply H. subst. apply in_or_app. right. now left.
      * now apply (IH l1 a l2 b l3).
  - induction l as [|e l IH]; intros H; constructor.
    + intros x Hx. apply in_split in Hx as (l1 & l2 & ->).
      apply (H [] e l1 x l2). reflexivity.
    + apply IH. intros l1 a l2 b l3 ->. apply (H (e :: l1) a l2 b l3). reflexivity.
Qed.

Lemma insert_sorted e l : osorted l -> osorted (insert_event e l).
Proof.
  induction 1 as [|x l H S IH]; cbn [insert_event].
  - constructor; [intros ? []|constructor].
  - unfold event_before. destruct (N.ltb_spec (rv_time x) (rv_time e)).
    + constructor; [|exact IH]. intros y Hy.
      apply (Permutation_in y (Permutation_sym (insert_perm e l))) in Hy.
      destruct Hy as [<-|Hy]; [lia|auto].
    + constructor; [|now constructor]. intros y [<-|Hy]; [lia|]. specialize (H y Hy). lia.
Qed.

Lemma sort_sorted l : in_time_order (stable_sort l).
Proof.
  apply osorted_spec. induction l as [|e l IH]; [constructor|]. now apply insert_sorted.
Qed.

Lemma insert_stable e l t : osorted l ->
  filter (fun x => rv_time x =? t) (insert_event e l) =
  filter (fun x => rv_time x =? t) (e :: l).
Proof.
  induction 1 as [|x l H S IH]; [reflexivity|]. cbn [insert_event].
  unfold event_before. destruct (N.ltb_spec (rv_time x) (rv_time e)); [|reflexivity].
  cbn [filter]. rewrite IH. cbn [filter].
  destruct (N.eqb_spec (rv_time x) t); destruct (N.eqb_spec (rv_time e) t); try reflexivity. lia.
Qed.

Lemma sort_stable l : same_order_per_time l (stable_sort l).
Proof.
  intros t. induction l as [|e l IH]; [reflexivity|]. cbn [stable_sort].
  rewrite insert_stable by (apply osorted_spec, sort_sorted).
  cbn [filter]. now rewrite IH.
Qed.

Lemma sorted_unique l l' :
  osorted l -> osorted l' -> same_order_per_time l l' -> l = l'.
Proof.
  intros H. revert l'. induction H as [|e l H S IH]; intros l' S' P.
  - destruct S' as [|x l' ? ?]; [reflexivity|]. specialize (P (rv_time x)).
    cbn [filter] in P. rewrite N.eqb_refl in P. discriminate.
  - destruct S' as [|x l' H' S'].
    { specialize (P (rv_time e)). cbn [filter] in P. rewrite N.eqb_refl in P. discriminate. }
    assert (T : rv_time e = rv_time x).
    { apply N.le_antisymm.
      - assert (I : In x (e :: l)).
        { apply (proj1 (filter_In (fun y => rv_time y =? rv_time x) x (e :: l))).
          rewrite P. cbn [filter]. rewrite N.eqb_refl. now left. }
        destruct I as [<-|I]; [lia|auto].
      - assert (I : In e (x :: l')).
        { apply (proj1 (filter_In (fun y => rv_time y =? rv_time e) e (x :: l'))).
          rewrite <- P. cbn [filter]. rewrite N.eqb_refl. now left. }
        destruct I as [<-|I]; [lia|auto]. }
    assert (E : e = x).
    { specialize (P (rv_time e)). cbn [filter] in P. rewrite T, N.eqb_refl in P. now inversion P. }
    subst x. f_equal. apply IH; [exact S'|].
    intros t. specialize (P t). cbn [filter] in P.
    destruct (rv_time e =? t); [now inversion P|exact P].
Qed.

Lemma forallb_time p :
  forallb (fun st => N.testbit st 2) (rp_sample_types p) = true <-> all_record_time p.
Proof. unfold all_record_time. rewrite forallb_forall, Forall_forall. tauto. Qed.

(** ** Maps *)

Lemma list_eqb_refl a : list_eqb a a = true.
Proof. now apply list_eqb_spec. Qed.

Lemma list_eqb_neq a b : a <> b -> list_eqb a b = false.
Proof. intros H. destruct (list_eqb a b) eqn:E; [|reflexivity]. now apply list_eqb_spec in E. Qed.

Lemma aget_in {V} f (v : V) m : aget list_eqb f m = Some v -> In (f, v) m.
Proof.
  induction m as [|(k & x) m IH]; [discriminate|]. cbn [aget].
  destruct (list_eqb f k) eqn:E.
  - apply list_eqb_spec in E as ->. intros [= ->]. now left.
  - intros H. right. auto.
Qed.

Lemma aget_none {V} f (m : list (list N * V)) :
  aget list_eqb f m = None <-> ~ In f (map fst m).
Proof.
  induction m as [|(k & x) m IH]; cbn [aget map fst In]; [tauto|].
  destruct (list_eqb f k) eqn:E.
  - apply list_eqb_spec in E as ->. split; [discriminate|]. intros H. exfalso. auto.
  - rewrite IH. assert (k <> f) by (intros ->; rewrite list_eqb_refl in E; discriminate). tauto.
Qed.

Lemma aget_nodup {V} f (v : V) m :
  NoDup (map fst m) -> In (f, v) m -> aget list_eqb f m = Some v.
Proof.
  induction m as [|(k & x) m IH]; [intros _ []|]. cbn [map fst aget]. intros ND I.
  inversion ND as [|? ? N1 N2]; subst. destruct I as [I|I].
  - injection I as -> ->. now rewrite list_eqb_refl.
  - rewrite list_eqb_neq; [auto|]. intros ->. apply N1. now apply (in_map fst) in I.
Qed.

Lemma mem_by_spec f l : mem_by list_eqb f l = true <-> In f l.
Proof.
  unfold mem_by. rewrite existsb_exists. split.
  - intros (x & I & E). apply list_eqb_spec in E as ->. exact I.
  - intros I. exists f. split; [exact I|apply list_eqb_refl].
Qed.

Lemma fold_aset {A V} (k : A -> list N) (v : A -> V) l acc f :
  aget list_eqb f (fold_left (fun acc b => aset (k b) (v b) acc) l acc) =
  match find (fun b => list_eqb f (k b)) (rev l) with
  | Some b => Some (v b)
  | None => aget list_eqb f acc
  end.
Proof.
  induction l as [|b l IH] using rev_ind; [reflexivity|].
  rewrite fold_left_app, rev_app_distr. cbn [fold_left rev app find aset aget].
  destruct (list_eqb f (k b)); [reflexivity|exact IH].
Qed.

(** ** Injection *)

Definition raw_id (id : list N) : list N :=
  snd (hex_to_raw id (repeat 0 (Nat.div (length id) 2))).

Definition update_build (m : list (list N * list N)) (b : rbuild) : rbuild :=
  match aget list_eqb (rb_file b) m with
  | None => b
  | Some id => set_injected (set_hash (raw_id id) b)
  end.

Definition valid_ids (m : list (list N * list N)) : Prop :=
  forall f id, In (f, id) m ->
    fst (hex_to_raw id (repeat 0 (Nat.div (length id) 2))) = true.

Lemma inject_existing_ok m bs :
  valid_ids m -> inject_existing m bs = (true, map (update_build m) bs).
Proof.
  intros V. induction bs as [|b bs IH]; [reflexivity|]. cbn [inject_existing map].
  unfold update_build at 1. destruct (aget list_eqb (rb_file b) m) as [id|] eqn:E.
  - specialize (V _ _ (aget_in _ _ _ E)). unfold raw_id.
    destruct (hex_to_raw id _) as (ok & raw). cbn [fst snd] in *. subst ok.
    now rewrite IH.
  - now rewrite IH.
Qed.

Lemma update_idem m b : update_build m (update_build m b) = update_build m b.
Proof.
  unfold update_build at 2 3. destruct (aget list_eqb (rb_file b) m) as [id|] eqn:E.
  - unfold update_build. cbn [set_injected set_hash rb_file]. rewrite E. reflexivity.
  - unfold update_build. now rewrite E.
Qed.

Lemma update_file m b : rb_file (update_build m b) = rb_file b.
Proof. unfold update_build. now destruct (aget _ _ _). Qed.

Lemma updated_spec m bs f :
  In f (updated_filenames m bs) <->
  aget list_eqb f m <> None /\ In f (map rb_file bs).
Proof.
  unfold updated_filenames. rewrite in_flat_map, in_map_iff. split.
  - intros (b & I & H). destruct (aget list_eqb (rb_file b) m) eqn:E; [|destruct H].
    destruct H as [<-|[]]. rewrite E. split; [discriminate|eauto].
  - intros (H & b & <- & I). exists b. split; [exact I|].
    destruct (aget list_eqb (rb_file b) m); [now left|contradiction].
Qed.

(** Serialising never fails: the text that is converted is hex of bytes. *)
Lemma raw_to_hex_app a b : raw_to_hex (a ++ b) = raw_to_hex a ++ raw_to_hex b.
Proof. apply flat_map_app. Qed.

Lemma raw_to_hex_zeros n : raw_to_hex (repeat 0 n) = zeros (2 * n).
Proof.
  unfold zeros. induction n as [|n IH]; [reflexivity|].
  change (raw_to_hex (repeat 0 (S n))) with ([48; 48] ++ raw_to_hex (repeat 0 n)).
  rewrite IH. replace (2 * S n)%nat with (2 + 2 * n)%nat by lia. reflexivity.
Qed.

Lemma hex_firstn n d : firstn (2 * n) (raw_to_hex d) = raw_to_hex (firstn n d).
Proof.
  revert n; induction d as [|b d IH]; intros [|n]; try reflexivity.
  replace (2 * S n)%nat with (S (S (2 * n))) by lia.
  change (raw_to_hex (b :: d)) with (hex_digit (b / 16) :: hex_digit (b mod 16) :: raw_to_hex d).
  cbn [firstn]. rewrite IH. reflexivity.
Qed.

Lemma bytes_ok_firstn n d : bytes_ok d = true -> bytes_ok (firstn n d) = true.
Proof.
  unfold bytes_ok. rewrite !forallb_forall. intros H x I. apply H.
  rewrite <- (firstn_skipn n d). apply in_or_app. now left.
Qed.

Lemma bytes_ok_app a b : bytes_ok (a ++ b) = bytes_ok a && bytes_ok b.
Proof. apply forallb_app. Qed.

Lemma bytes_ok_repeat n : bytes_ok (repeat 0 n) = true.
Proof. induction n; [reflexivity|exact IHn]. Qed.

Lemma trim_hex d : bytes_ok d = true ->
  exists k, trim_zeroes_build_id (raw_to_hex d) = raw_to_hex (firstn (length d - 4 * k) d) /\
    d = firstn (length d - 4 * k) d ++ repeat 0 (4 * k) /\ (4 * k <= length d)%nat /\
    forall t, firstn (length d - 4 * k) d <> t ++ repeat 0 4.
Proof.
  intros B. destruct (trim_spec (raw_to_hex d)) as (k & E & P). exists k.
  assert (L := f_equal (@length N) E). rewrite hex_length, app_length in L.
  unfold zeros in L. rewrite repeat_length in L.
  assert (T : trim_zeroes_build_id (raw_to_hex d) = raw_to_hex (firstn (length d - 4 * k) d)).
  { rewrite <- hex_firstn. rewrite E at 2.
    replace (2 * (length d - 4 * k))%nat with (length (trim_zeroes_build_id (raw_to_hex d))) by lia.
    rewrite firstn_app, firstn_all, Nat.sub_diag. cbn [firstn]. now rewrite app_nil_r. }
  split; [exact T|]. split; [|split; [lia|]].
  - apply hex_injective; [exact B| |].
    + rewrite bytes_ok_app, bytes_ok_firstn, bytes_ok_repeat by exact B. reflexivity.
    + rewrite raw_to_hex_app, raw_to_hex_zeros, <- T.
      replace (2 * (4 * k))%nat with (8 * k)%nat by lia. exact E.
  - intros t Et. rewrite T, Et, raw_to_hex_app in P.
    change (raw_to_hex (repeat 0 4)) with (zeros 8) in P.
    rewrite ends_with_padding_zeros8 in P. discriminate.
Qed.

Lemma strtol_byte v : Z.to_N (v mod 256)%Z < 256.
Proof. assert (H := Z.mod_pos_bound v 256 eq_refl). lia. Qed.

Lemma hex_to_raw_shape n s arr : (length s <= n)%nat -> bytes_ok arr = true ->
  bytes_ok (snd (hex_to_raw s arr)) = true /\ length (snd (hex_to_raw s arr)) = length arr.
Proof.
  revert s arr. induction n as [|n IH]; intros s arr H B.
  - destruct s; [|cbn in H; lia]. now split.
  - destruct s as [|a [|b s]]; [now split|now split|]. destruct arr as [|x arr]; [now split|].
    cbn [hex_to_raw]. destruct (strtol 16 (c_str [a; b])) as (v & err).
    cbn [bytes_ok forallb] in B. apply andb_prop in B as [B1 B2].
    assert (Bv : byte_ok (Z.to_N (v mod 256)%Z) = true)
      by (apply N.ltb_lt, strtol_byte).
    destruct err.
    + specialize (IH s arr). destruct (hex_to_raw s arr) as (ok & rest). cbn [snd length] in *.
      destruct IH as [I1 I2]; [cbn in H; lia|exact B2|]. rewrite I2.
      cbn [bytes_ok forallb]. rewrite Bv. split; [exact I1|reflexivity].
    + cbn [snd bytes_ok forallb length]. rewrite Bv. split; [exact B2|reflexivity].
Qed.

Definition new_raw (id : list N) : list N := snd (hex_to_raw id (repeat 0 build_id_array)).

Lemma new_raw_shape id : bytes_ok (new_raw id) = true /\ length (new_raw id) = 20%nat.
Proof.
  unfold new_raw. destruct (hex_to_raw_shape (length id) id (repeat 0 build_id_array)) as [A B];
    [lia|apply bytes_ok_repeat|]. rewrite B. split; [exact A|reflexivity].
Qed.

(** The entry that is created. *)
Lemma serialize_new id f mi :
  exists k,
    let h := firstn (20 - 4 * k) (new_raw id) in
    serialize_build_id_event (create_build_id_event id f mi) =
      (true, mkRBuild mi 4294967295 (c_str f) (Some (c_str f))
               (if N.testbit mi 15 then Some 0 else None) h false) /\
    new_raw id = h ++ repeat 0 (4 * k) /\ (4 * k <= 20)%nat /\
    (forall t, h <> t ++ repeat 0 4) /\
    raw_to_hex h = trim_zeroes_build_id (raw_to_hex (new_raw id)).
Proof.
  destruct (new_raw_shape id) as [B L].
  destruct (trim_hex (new_raw id) B) as (k & T & D & K & M). rewrite L in *.
  exists k. cbn zeta. split; [|split; [exact D|split; [exact K|split; [exact M|now symmetry]]]].
  unfold serialize_build_id_event, create_build_id_event.
  cbn [be_build_id be_misc be_pid be_filename be_size]. fold (new_raw id).
  rewrite T. rewrite hex_roundtrip_gen by (now apply bytes_ok_firstn).
  rewrite hex_length. replace (2 * length (firstn (20 - 4 * k) (new_raw id)))%nat
    with (length (firstn (20 - 4 * k) (new_raw id)) * 2)%nat by lia.
  rewrite Nat.div_mul by lia. rewrite repeat_length. unfold build_id_array.
  do 2 f_equal.
  set (h := firstn (20 - 4 * k) (new_raw id)).
  assert (Lh : (length h <= 20)%nat) by (unfold h; rewrite firstn_length; lia).
  rewrite (firstn_all2 (n := 20) h) by exact Lh.
  rewrite firstn_app, firstn_all, Nat.sub_diag. cbn [firstn]. apply app_nil_r.
Qed.

Lemma inject_new_ok misc upd m :
  exists new, inject_new misc upd m = (true, new) /\
    Forall2 (fun fi b =>
      exists k mi, mi = match aget list_eqb (fst fi) misc with Some x => x | None => 1 end /\
        b = mkRBuild mi 4294967295 (c_str (fst fi)) (Some (c_str (fst fi)))
              (if N.testbit mi 15 then Some 0 else None)
              (firstn (20 - 4 * k) (new_raw (snd fi))) true /\
        new_raw (snd fi) = rb_hash b ++ repeat 0 (4 * k) /\
        (forall t, rb_hash b <> t ++ repeat 0 4) /\
        raw_to_hex (rb_hash b) = trim_zeroes_build_id (raw_to_hex (new_raw (snd fi))))
      (filter (fun fi => negb (mem_by list_eqb (fst fi) upd)) m) new.
Proof.
  induction m as [|(f & id) m (new & IH & F)]; [exists []; split; [reflexivity|constructor]|].
  cbn [inject_new filter fst]. destruct (mem_by list_eqb f upd); cbn [negb]; [exists new; now split|].
  set (mi := match aget list_eqb f misc with Some x => x | None => 1 end).
  destruct (serialize_new id f mi) as (k & E & D & _ & M & X). rewrite E, IH.
  eexists. split; [reflexivity|]. constructor; [|exact F].
  exists k, mi. split; [reflexivity|]. split; [reflexivity|]. auto.
Qed.

Lemma injectable_valid m : injectable m -> valid_ids m.
Proof.
  intros [_ H] f id I. destruct (H _ _ I) as (_ & d & B & ->).
  rewrite hex_roundtrip_gen by exact B. reflexivity.
Qed.

Lemma raw_id_hex d : bytes_ok d = true -> raw_id (raw_to_hex d) = d.
Proof.
  intros B. unfold raw_id. rewrite hex_roundtrip_gen by exact B. cbn [snd].
  rewrite hex_length. replace (2 * length d)%nat with (length d * 2)%nat by lia.
  rewrite Nat.div_mul by lia. rewrite repeat_length, firstn_all, skipn_all2 by (rewrite repeat_length; lia).
  apply app_nil_r.
Qed.

Lemma new_raw_hex d : bytes_ok d = true ->
  new_raw (raw_to_hex d) = firstn 20 d ++ repeat 0 (20 - length d).
Proof.
  intros B. unfold new_raw. rewrite hex_roundtrip_gen by exact B. cbn [snd].
  unfold build_id_array. rewrite repeat_length. f_equal.
  generalize (length d). generalize 20%nat.
  induction n as [|n IH]; intros [|j]; try reflexivity. cbn [repeat skipn Nat.sub]. apply IH.
Qed.

(** The full effect of a successful injection. *)
Lemma inject_shape m p : valid_ids m ->
  exists new, inject_build_ids m p =
    (true, mkRProto (N.lor (rp_mask p) 4) (rp_sample_types p) (rp_info_reader p) (rp_events p)
             (map (update_build m) (rp_builds p) ++ new)) /\
    inject_new (filename_to_misc (rp_events p)) (updated_filenames m (rp_builds p)) m = (true, new).
Proof.
  intros V. unfold inject_build_ids, set_mask_bit. cbn [rp_builds rp_events].
  rewrite inject_existing_ok by exact V.
  destruct (inject_new_ok (filename_to_misc (rp_events p)) (updated_filenames m (rp_builds p)) m)
    as (new & E & _). rewrite E. exists new. split; [|reflexivity].
  unfold set_builds. cbn [rp_mask rp_sample_types rp_info_reader rp_events].
  reflexivity.
Qed.

Lemma c_str_nonul f : ~ In 0 f -> c_str f = f.
Proof. apply c_str_id. Qed.

(** New entries, in the words of the specification. *)
Lemma new_entries m p : injectable m ->
  exists new, inject_build_ids m p =
    (true, mkRProto (N.lor (rp_mask p) 4) (rp_sample_types p) (rp_info_reader p) (rp_events p)
             (map (update_build m) (rp_builds p) ++ new)) /\
    Forall2 (fun fi b =>
        rb_file b = fst fi /\ rb_injected b = true /\ rb_pid b = 4294967295 /\
        rb_md5 b = Some (fst fi) /\
        rb_misc b = match aget list_eqb (fst fi) (filename_to_misc (rp_events p)) with
                    | Some x => x | None => 1 end /\
        (forall d, bytes_ok d = true -> snd fi = raw_to_hex d ->
           (exists k, firstn 20 d ++ repeat 0 (20 - length d) = rb_hash b ++ repeat 0 (4 * k)) /\
           (forall t, rb_hash b <> t ++ repeat 0 4)) /\
        perfize_build_id (raw_to_hex (rb_hash b)) = perfize_build_id (snd fi))
      (filter (fun fi => negb (mem_by list_eqb (fst fi) (map rb_file (rp_builds p)))) m) new.
Proof.
  intros J. destruct (inject_shape m p (injectable_valid m J)) as (new & E & I).
  exists new. split; [exact E|].
  destruct (inject_new_ok (filename_to_misc (rp_events p)) (updated_filenames m (rp_builds p)) m)
    as (new' & I' & F). rewrite I in I'. injection I' as <-.
  assert (EQ : filter (fun fi => negb (mem_by list_eqb (fst fi) (updated_filenames m (rp_builds p)))) m =
               filter (fun fi => negb (mem_by list_eqb (fst fi) (map rb_file (rp_builds p)))) m).
  { apply filter_ext_in. intros (f & id) Hm. cbn [fst]. f_equal.
    apply eq_true_iff_eq. rewrite !mem_by_spec, updated_spec. split; [tauto|]. intros Hf.
    split; [|exact Hf]. rewrite aget_none. intros N1. apply N1. now apply (in_map fst) in Hm. }
  rewrite EQ in F. clear EQ I E.
  set (L := filter _ m) in *.
  assert (Lm : forall x, In x L -> In x m) by (intros x Hx; apply filter_In in Hx; tauto).
  clearbody L. revert Lm. induction F as [|(f & id) b L new H F IH]; intros Lm; constructor.
  - destruct H as (k & mi & -> & -> & D & M & X). cbn [fst snd rb_file rb_injected rb_pid rb_md5 rb_misc rb_hash] in *.
    destruct J as (_ & J). destruct (J f id) as (NZ & d & B & ->); [apply Lm; now left|].
    rewrite (c_str_nonul f NZ). split; [reflexivity|]. split; [reflexivity|]. split; [reflexivity|].
    split; [reflexivity|]. split; [reflexivity|]. split.
    + intros d' B' E'. split; [|exact M]. exists k. rewrite <- (new_raw_hex d' B'), <- E'. exact D.
    + rewrite X. rewrite <- (perfize_of_40 (raw_to_hex (new_raw (raw_to_hex d)))).
      2:{ rewrite hex_length, (proj2 (new_raw_shape _)). reflexivity. }
      rewrite perfize_trim_perfize. rewrite perfize_of_40.
      2:{ rewrite hex_length, (proj2 (new_raw_shape _)). reflexivity. }
      rewrite new_raw_hex by exact B. rewrite raw_to_hex_app, <- hex_firstn, raw_to_hex_zeros.
      unfold perfize_build_id, resize, build_id_string_length, zeros.
      rewrite hex_length. do 2 f_equal. lia.
  - apply IH. intros x Hx. apply Lm. now right.
Qed.

Lemma lookup_builds p f :
  aget list_eqb f (filenames_to_build_ids p) =
  match find (fun b => list_eqb f (rb_file b)) (rev (rp_builds p)) with
  | Some b => Some (perfize_build_id (raw_to_hex (rb_hash b)))
  | None => None
  end.
Proof.
  unfold filenames_to_build_ids.
  rewrite (fold_aset rb_file (fun b => perfize_build_id (raw_to_hex (rb_hash b)))). reflexivity.
Qed.

Lemma find_app {A} (g : A -> bool) l l' :
  find g (l ++ l') = match find g l with Some x => Some x | None => find g l' end.
Proof. induction l as [|x l IH]; [reflexivity|]. cbn [app find]. destruct (g x); auto. Qed.

Lemma find_update m f bs :
  find (fun b => list_eqb f (rb_file b)) (rev (map (update_build m) bs)) =
  option_map (update_build m) (find (fun b => list_eqb f (rb_file b)) (rev bs)).
Proof.
  rewrite <- map_rev. induction (rev bs) as [|b l IH]; [reflexivity|]. cbn [map find].
  rewrite update_file. destruct (list_eqb f (rb_file b)); [reflexivity|exact IH].
Qed.

Lemma lookup_after m p p' : injectable m -> inject_build_ids m p = (true, p') ->
  forall f, aget list_eqb f (filenames_to_build_ids p') =
    match aget list_eqb f m with
    | Some id => Some (perfize_build_id id)
    | None => aget list_eqb f (filenames_to_build_ids p)
    end.
Proof.
  intros J E f. destruct (new_entries m p J) as (new & E' & F). rewrite E in E'.
  injection E' as ->. rewrite lookup_builds. cbn [rp_builds]. rewrite rev_app_distr, find_app.
  destruct (find (fun b => list_eqb f (rb_file b)) (rev new)) as [b|] eqn:Fn.
  - apply find_some in Fn as [I EF]. apply list_eqb_spec in EF as ->. apply in_rev in I.
    assert (exists fi, In fi m /\ rb_file b = fst fi /\
              perfize_build_id (raw_to_hex (rb_hash b)) = perfize_build_id (snd fi))
      as ((g & id) & Im & Ef & Ep).
    { clear - F I. set (L := filter _ m) in *.
      assert (Lm : forall x, In x L -> In x m) by (intros x Hx; apply filter_In in Hx; tauto).
      clearbody L. induction F as [|fi c L new H F IH]; [destruct I|].
      destruct I as [->|I]; [|apply IH; [exact I|intros; apply Lm; now right]].
      exists fi. split; [apply Lm; now left|]. tauto. }
    cbn [fst snd] in *. rewrite Ef, (aget_nodup g id m (proj1 J) Im), Ep. reflexivity.
  - rewrite find_update, lookup_builds.
    destruct (find (fun b => list_eqb f (rb_file b)) (rev (rp_builds p))) as [b|] eqn:Fo.
    + cbn [option_map]. apply find_some in Fo as [I EF]. apply list_eqb_spec in EF as ->.
      unfold update_build. destruct (aget list_eqb (rb_file b) m) as [id|] eqn:A; [|reflexivity].
      cbn [set_injected set_hash rb_hash]. destruct (proj2 J _ _ (aget_in _ _ _ A)) as (_ & d & B & ->).
      now rewrite raw_id_hex.
    + cbn [option_map]. destruct (aget list_eqb f m) as [id|] eqn:A; [exfalso|reflexivity].
      apply aget_in in A.
      assert (K : In (f, id) (filter (fun fi => negb (mem_by list_eqb (fst fi) (map rb_file (rp_builds p)))) m)).
      { apply filter_In. split; [exact A|]. cbn [fst]. apply negb_true_iff.
        destruct (mem_by list_eqb f (map rb_file (rp_builds p))) eqn:Me; [exfalso|reflexivity].
        apply mem_by_spec, in_map_iff in Me as (b & Eb & Ib).
        rewrite in_rev in Ib. apply (find_none _ _ Fo) in Ib.
        rewrite Eb, list_eqb_refl in Ib. discriminate. }
      assert (exists b, In b new /\ rb_file b = f) as (b & Ib & Eb).
      { clear - F K. induction F as [|fi c L new H F IH]; [destruct K|].
        destruct K as [->|K]; [exists c; split; [now left|tauto]|].
        destruct (IH K) as (b & Ib & Eb). exists b. split; [now right|exact Eb]. }
      rewrite in_rev in Ib. apply (find_none _ _ Fn) in Ib. rewrite Eb, list_eqb_refl in Ib. discriminate.
Qed.

(** After one injection every name of the map has an entry, so another one
    creates nothing. *)
Lemma inject_again m p p1 : injectable m -> inject_build_ids m p = (true, p1) ->
  exists p2, inject_build_ids m p1 = (true, p2) /\
    rp_builds p2 = map (update_build m) (rp_builds p1) /\
    same_but_builds p1 p2 /\ rp_mask p2 = rp_mask p1.
Proof.
  intros J E. assert (V := injectable_valid m J).
  assert (LK := lookup_after m p p1 J E).
  destruct (inject_shape m p V) as (new & E1 & _). rewrite E in E1. injection E1 as P1.
  destruct (new_entries m p1 J) as (new1 & E2 & F2).
  assert (Z : filter (fun fi => negb (mem_by list_eqb (fst fi) (map rb_file (rp_builds p1)))) m = []).
  { destruct (filter _ m) as [|(f & id) L] eqn:X; [reflexivity|exfalso].
    assert (In (f, id) ((f, id) :: L)) as Y by now left. rewrite <- X in Y.
    apply filter_In in Y as (Im & Y). cbn [fst] in Y. apply negb_true_iff in Y.
    specialize (LK f). rewrite (aget_nodup f id m (proj1 J) Im), lookup_builds in LK.
    destruct (find _ _) as [b|] eqn:Fb; [|discriminate].
    apply find_some in Fb as (Ib & Eb). apply list_eqb_spec in Eb as ->. apply in_rev in Ib.
    assert (mem_by list_eqb (rb_file b) (map rb_file (rp_builds p1)) = true).
    { apply mem_by_spec. now apply in_map. } congruence. }
  rewrite Z in F2. inversion F2; subst new1. rewrite app_nil_r in E2.
  eexists. split; [exact E2|]. cbn [rp_builds rp_mask]. split; [reflexivity|].
  split; [repeat split|]. rewrite P1. cbn [rp_mask]. rewrite <- N.lor_assoc. reflexivity.
Qed.

Lemma inject_stable m p p1 p2 : injectable m ->
  inject_build_ids m p = (true, p1) -> inject_build_ids m p1 = (true, p2) ->
  inject_build_ids m p2 = (true, p2).
Proof.
  intros J E1 E2. destruct (inject_again m p p1 J E1) as (p2' & E2' & B2 & (S1 & S2 & S3) & M).
  rewrite E2 in E2'. injection E2' as <-.
  destruct (inject_again m p1 p2 J E2) as (p3 & E3 & B3 & (T1 & T2 & T3) & M3).
  rewrite E3. f_equal. rewrite B2, map_map in B3.
  rewrite (map_ext _ (update_build m)) in B3 by (intros; apply update_idem). rewrite <- B2 in B3.
  destruct p2, p3. cbn in *. congruence.
Qed.

(** What an injection leaves alone, whatever it is given. *)
Lemma inject_existing_keeps m bs ok bs' :
  inject_existing m bs = (ok, bs') ->
  Forall2 (fun b b' => same_but_id b b' /\ (aget list_eqb (rb_file b) m = None -> b' = b)) bs bs'.
Proof.
  revert ok bs'. induction bs as [|b bs IH]; intros ok bs' E; cbn [inject_existing] in E.
  - injection E as _ <-. constructor.
  - destruct (aget list_eqb (rb_file b) m) as [id|] eqn:A.
    + destruct (hex_to_raw id _) as (o & raw). destruct o.
      * destruct (inject_existing m bs) as (ok' & r'). injection E as _ <-.
        constructor; [|now apply (IH ok')]. split; [now repeat split|]. intros X. rewrite A in X. discriminate X.
      * injection E as _ <-. constructor; [split; [now repeat split|reflexivity]|].
        clear. induction bs as [|b bs IH]; constructor; [split; [now repeat split|reflexivity]|exact IH].
    + destruct (inject_existing m bs) as (ok' & r'). injection E as _ <-.
      constructor; [|now apply (IH ok')]. split; [now repeat split|reflexivity].
Qed.

Lemma inject_keeps m p ok p' : inject_build_ids m p = (ok, p') ->
  same_but_builds p p' /\ rp_mask p' = N.lor (rp_mask p) 4 /\
  exists old new, rp_builds p' = old ++ new /\
    Forall2 (fun b b' => same_but_id b b' /\ (aget list_eqb (rb_file b) m = None -> b' = b))
            (rp_builds p) old.
Proof.
  unfold inject_build_ids, set_mask_bit. cbn [rp_builds rp_events]. intros E.
  destruct (inject_existing m (rp_builds p)) as (o & bs) eqn:X.
  apply inject_existing_keeps in X. destruct o.
  - destruct (inject_new _ _ m) as (o' & new). injection E as _ <-.
    split; [now repeat split|]. split; [reflexivity|]. exists bs, new. now split.
  - injection E as _ <-. split; [now repeat split|]. split; [reflexivity|].
    exists bs, []. rewrite app_nil_r. now split.
Qed.

Lemma misc_of evs f :
  aget list_eqb f (filename_to_misc evs) =
  option_map (fun e => w16 (rv_misc e)) (last_mapping_of f evs).
Proof.
  unfold filename_to_misc.
  assert (G : forall acc, aget list_eqb f
     (fold_left (fun acc e => if is_mapping e then aset (rv_file e) (w16 (rv_misc e)) acc else acc) evs acc) =
     match last_mapping_of f evs with Some e => Some (w16 (rv_misc e)) | None => aget list_eqb f acc end).
  { induction evs as [|e evs IH]; intros acc; [reflexivity|]. cbn [fold_left last_mapping_of].
    rewrite IH. destruct (last_mapping_of f evs); [reflexivity|].
    change (announces_mapping e) with (is_mapping e).
    destruct (is_mapping e); [|reflexivity]. cbn [aset aget andb].
    now destruct (list_eqb f (rv_file e)). }
  rewrite G. now destruct (last_mapping_of f evs).
Qed.

(** ** Renaming *)

Lemma text_space_aligned n : n + 8 < two64 -> aligned_string_length n = text_space n.
Proof. intros H. rewrite aligned_string_length_value by exact H. unfold text_space. lia. Qed.

Lemma localize_event_spec m e :
  same_but_name e (localize_event m e) /\
  (is_mapping e = false -> localize_event m e = e) /\
  (aget list_eqb (rv_file e) m = None -> localize_event m e = e) /\
  (forall f, is_mapping e = true -> aget list_eqb (rv_file e) m = Some f ->
     rv_file (localize_event m e) = f /\
     (sizes_fit m e ->
      rv_size (localize_event m e) + text_space (len (rv_file e)) =
      rv_size e + text_space (len f))).
Proof.
  unfold localize_event. destruct (is_mapping e).
  - destruct (aget list_eqb (rv_file e) m) as [f|] eqn:A.
    + split; [now repeat split|]. split; [discriminate|]. split; [discriminate|].
      intros f' _ [= ->]. split; [reflexivity|]. intros ((S1 & S2) & S3).
      assert (Lf : len f' < 2 ^ 30).
      { apply S3. apply aget_in in A. now apply (in_map snd) in A. }
      cbn [set_hsize rv_size].
      change (2 ^ 31) with 2147483648 in *. change (2 ^ 30) with 1073741824 in *.
      assert (len (rv_file e) < 2147483648) by (unfold text_space in S1; lia).
      rewrite !text_space_aligned by (unfold two64; lia).
      unfold sub64, w64, w32, two64, two32.
      assert (text_space (len f') < 1073741840) by (unfold text_space; lia).
      replace (rv_size e + 18446744073709551616 - text_space (len (rv_file e)))
        with (rv_size e - text_space (len (rv_file e)) + 1 * 18446744073709551616) by lia.
      rewrite N.mod_add by discriminate.
      rewrite (N.mod_small (rv_size e - _)) by lia.
      rewrite (N.mod_small (_ - _ + _) 18446744073709551616) by lia.
      rewrite N.mod_small by lia. lia.
    + split; [now repeat split|]. split; [discriminate|]. split; [reflexivity|]. discriminate.
  - split; [now repeat split|]. split; [reflexivity|]. split; [reflexivity|]. discriminate.
Qed.

Lemma localize_build_spec m b :
  (aget list_eqb (rb_file b) m = None -> localize_build m b = b) /\
  (forall f, aget list_eqb (rb_file b) m = Some f ->
     localize_build m b = mkRBuild (rb_misc b) (rb_pid b) f (rb_md5 b) (rb_size b) (rb_hash b) (rb_injected b)).
Proof.
  unfold localize_build. destruct (aget list_eqb (rb_file b) m) as [g|]; split; try discriminate; try reflexivity.
  intros f [= ->]. reflexivity.
Qed.

Lemma Forall2_map_r {A B} (R : A -> B -> Prop) (g : A -> B) l :
  (forall x, R x (g x)) -> Forall2 R l (map g l).
Proof. intros H. induction l; constructor; auto. Qed.

Lemma localize_map_spec ids bs f g :
  aget list_eqb f (localize_map ids bs) = Some g <->
  exists l1 b l2, bs = l1 ++ b :: l2 /\ rb_file b = f /\
    aget list_eqb (perfize_build_id (raw_to_hex (rb_hash b))) ids = Some g /\
    (forall b', In b' l2 -> rb_file b' = f ->
       aget list_eqb (perfize_build_id (raw_to_hex (rb_hash b'))) ids = None).
Proof.
  unfold localize_map. induction bs as [|x bs IH] using rev_ind.
  { cbn. split; [discriminate|]. intros (l1 & b & l2 & E & _). destruct l1; discriminate. }
  rewrite fold_left_app. cbn [fold_left].
  set (M := fold_left _ bs []) in *.
  destruct (aget list_eqb (perfize_build_id (raw_to_hex (rb_hash x))) ids) as [h|] eqn:A.
  - cbn [aset aget]. destruct (list_eqb f (rb_file x)) eqn:E.
    + apply list_eqb_spec in E. split.
      * intros [= ->]. exists bs, x, []. rewrite A. split; [reflexivity|].
        split; [now symmetry|]. split; [reflexivity|]. intros ? [].
      * intros (l1 & b & l2 & Eq & Ef & Ai & Nl).
        destruct l2 as [|y l2 _] using rev_ind.
        -- apply app_inj_tail in Eq as (_ & ->). congruence.
        -- rewrite app_comm_cons, app_assoc in Eq. apply app_inj_tail in Eq as (_ & ->).
           rewrite (Nl y) in A; [discriminate|apply in_or_app; right; now left|now symmetry].
    + rewrite IH. split.
      * intros (l1 & b & l2 & -> & Ef & Ai & Nl). exists l1, b, (l2 ++ [x]).
        rewrite <- app_assoc. split; [reflexivity|]. split; [exact Ef|]. split; [exact Ai|].
        intros b' Ib Eb. apply in_app_or in Ib as [Ib|[<-|[]]]; [auto|].
        rewrite Eb, list_eqb_refl in E. discriminate.
      * intros (l1 & b & l2 & Eq & Ef & Ai & Nl).
        destruct l2 as [|y l2 _] using rev_ind.
        -- apply app_inj_tail in Eq as (_ & ->). rewrite Ef, list_eqb_refl in E. discriminate.
        -- rewrite app_comm_cons, app_assoc in Eq. apply app_inj_tail in Eq as (-> & ->).
           exists l1, b, l2. split; [reflexivity|]. split; [exact Ef|]. split; [exact Ai|].
           intros b' Ib. apply Nl. apply in_or_app. now left.
  - rewrite IH. split.
    + intros (l1 & b & l2 & -> & Ef & Ai & Nl). exists l1, b, (l2 ++ [x]).
      rewrite <- app_assoc. split; [reflexivity|]. split; [exact Ef|]. split; [exact Ai|].
      intros b' Ib Eb. apply in_app_or in Ib as [Ib|[<-|[]]]; [auto|exact A].
    + intros (l1 & b & l2 & Eq & Ef & Ai & Nl).
      destruct l2 as [|y l2 _] using rev_ind.
      * apply app_inj_tail in Eq as (_ & ->). congruence.
      * rewrite app_comm_cons, app_assoc in Eq. apply app_inj_tail in Eq as (-> & ->).
        exists l1, b, l2. split; [reflexivity|]. split; [exact Ef|]. split; [exact Ai|].
        intros b' Ib. apply Nl. apply in_or_app. now left.
Qed.

Lemma alternate_spec m p :
  exists new, rp_builds (alternate_build_id_filenames m p) = rp_builds p ++ new /\
    (forall b', In b' new <->
       exists b f, In b (rp_builds p) /\ In (rb_file b, f) m /\ b' = set_bfile f b) /\
    length new = list_sum (map (fun b =>
       length (filter (fun kv => list_eqb (fst kv) (rb_file b)) m)) (rp_builds p)).
Proof.
  unfold alternate_build_id_filenames. cbn [set_builds rp_builds]. eexists. split; [reflexivity|].
  split.
  - intros b'. rewrite in_flat_map. split.
    + intros (b & Ib & H). apply in_map_iff in H as ((k & f) & <- & H).
      apply filter_In in H as (H & E). cbn [fst snd] in *. apply list_eqb_spec in E as ->. eauto.
    + intros (b & f & Ib & Im & ->). exists b. split; [exact Ib|].
      apply in_map_iff. exists (rb_file b, f). split; [reflexivity|].
      apply filter_In. split; [exact Im|]. cbn [fst]. apply list_eqb_refl.
  - induction (rp_builds p) as [|b bs IH]; [reflexivity|].
    cbn [flat_map map list_sum fold_right]. rewrite app_length, map_length. f_equal. exact IH.
Qed.

(** ** Files *)

Lemma string_less_irrefl a : string_less a a = false.
Proof. induction a as [|x a IH]; [reflexivity|]. cbn. now rewrite N.ltb_irrefl. Qed.

Lemma string_less_trans a b c :
  string_less a b = true -> string_less b c = true -> string_less a c = true.
Proof.
  revert b c; induction a as [|x a IH]; intros [|y b] [|z c]; cbn [string_less]; try discriminate; try reflexivity.
  destruct (N.ltb_spec x y); destruct (N.ltb_spec y z); destruct (N.ltb_spec x z);
    try (destruct (N.ltb_spec y x)); try (destruct (N.ltb_spec z y)); try (destruct (N.ltb_spec z x));
    try discriminate; try reflexivity; try lia. apply IH.
Qed.

Lemma string_less_total a b :
  string_less a b = false -> string_less b a = false -> a = b.
Proof.
  revert b; induction a as [|x a IH]; intros [|y b]; cbn [string_less]; try discriminate; try reflexivity.
  destruct (N.ltb_spec x y); [discriminate|]. destruct (N.ltb_spec y x); [discriminate|].
  intros. f_equal; [lia|auto].
Qed.

Inductive ssorted : list (list N) -> Prop :=
| ss_nil : ssorted []
| ss_cons e l : (forall x, In x l -> string_less e x = true) -> ssorted l -> ssorted (e :: l).

Lemma ssorted_spec l : ssorted l -> sorted_strings l.
Proof.
  induction 1 as [|e l H S IH]; intros l1 a l2 b l3 E.
  - destruct l1; discriminate.
  - destruct l1 as [|y l1]; cbn [app] in E; injection E as -> E.
    + apply H. subst. apply in_or_app. right. now left.
    + now apply (IH l1 a l2 b l3).
Qed.

Lemma set_insert_in s l x : In x (set_insert s l) <-> x = s \/ In x l.
Proof.
  induction l as [|y l IH]; cbn [set_insert In]; [intuition congruence|].
  destruct (string_less s y) eqn:A; [cbn [In]; intuition congruence|].
  destruct (string_less y s) eqn:B; cbn [In]; [rewrite IH; tauto|].
  assert (s = y) by now apply string_less_total. subst. intuition congruence.
Qed.

Lemma set_insert_sorted s l : ssorted l -> ssorted (set_insert s l).
Proof.
  induction 1 as [|y l H S IH]; cbn [set_insert]; [constructor; [intros ? []|constructor]|].
  destruct (string_less s y) eqn:A.
  - constructor; [|now constructor]. intros x [<-|I]; [exact A|].
    eapply string_less_trans; [exact A|auto].
  - destruct (string_less y s) eqn:B; [|now constructor].
    constructor; [|exact IH]. intros x I. apply set_insert_in in I as [->|I]; auto.
Qed.

Lemma get_filenames_spec p :
  sorted_strings (get_filenames p) /\
  forall f, In f (get_filenames p) <->
    exists e, In e (rp_events p) /\ is_mapping e = true /\ rv_file e = f.
Proof.
  unfold get_filenames.
  assert (G : forall evs acc, ssorted acc ->
    let r := fold_left (fun acc e => if is_mapping e then set_insert (rv_file e) acc else acc) evs acc in
    ssorted r /\ forall f, In f r <-> In f acc \/ exists e, In e evs /\ is_mapping e = true /\ rv_file e = f).
  { induction evs as [|e evs IH]; intros acc S; cbn [fold_left].
    - split; [exact S|]. intros f. split; [auto|]. intros [H|(e & [] & _)]; exact H.
    - destruct (is_mapping e) eqn:M.
      + destruct (IH (set_insert (rv_file e) acc)) as (S' & I); [now apply set_insert_sorted|].
        split; [exact S'|]. intros f. rewrite I, set_insert_in. split.
        * intros [[->|H]|(x & Ix & Mx & Fx)]; [right; exists e; split; [now left|auto]|auto|].
          right. exists x. split; [now right|auto].
        * intros [H|(x & [<-|Ix] & Mx & Fx)]; [auto|auto|]. right. eauto.
      + destruct (IH acc S) as (S' & I). split; [exact S'|]. intros f. rewrite I. split.
        * intros [H|(x & Ix & Mx & Fx)]; [auto|]. right. exists x. split; [now right|auto].
        * intros [H|(x & [<-|Ix] & Mx & Fx)]; [auto|congruence|]. right. eauto. }
  destruct (G (rp_events p) [] ss_nil) as (S & I). split; [now apply ssorted_spec|].
  intros f. rewrite I. split; [intros [[]|H]; exact H|auto].
Qed.

Lemma lookup_last p f id :
  aget list_eqb f (filenames_to_build_ids p) = Some id <->
  exists l1 b l2, rp_builds p = l1 ++ b :: l2 /\ rb_file b = f /\
    (forall b', In b' l2 -> rb_file b' <> f) /\
    id = firstn 40 (raw_to_hex (rb_hash b)) ++ zeros (40 - 2 * length (rb_hash b)).
Proof.
  assert (P : forall b, perfize_build_id (raw_to_hex (rb_hash b)) =
     firstn 40 (raw_to_hex (rb_hash b)) ++ zeros (40 - 2 * length (rb_hash b))).
  { intros b. unfold perfize_build_id, resize, build_id_string_length, zeros. now rewrite hex_length. }
  rewrite lookup_builds. induction (rp_builds p) as [|x bs IH] using rev_ind.
  { cbn. split; [discriminate|]. intros (l1 & b & l2 & E & _). destruct l1; discriminate. }
  rewrite rev_app_distr. cbn [rev app find].
  destruct (list_eqb f (rb_file x)) eqn:E.
  - apply list_eqb_spec in E. split.
    + intros [= <-]. exists bs, x, []. split; [reflexivity|]. split; [now symmetry|].
      split; [intros ? []|]. apply P.
    + intros (l1 & b & l2 & Eq & Ef & Nl & ->).
      destruct l2 as [|y l2 _] using rev_ind.
      * apply app_inj_tail in Eq as (_ & ->). now rewrite P.
      * rewrite app_comm_cons, app_assoc in Eq. apply app_inj_tail in Eq as (_ & ->).
        exfalso. apply (Nl y); [apply in_or_app; right; now left|now symmetry].
  - rewrite IH. split.
    + intros (l1 & b & l2 & -> & Ef & Nl & Ei). exists l1, b, (l2 ++ [x]).
      rewrite <- app_assoc. split; [reflexivity|]. split; [exact Ef|]. split; [|exact Ei].
      intros b' Ib Eb. apply in_app_or in Ib as [Ib|[<-|[]]]; [now apply (Nl b')|].
      rewrite Eb, list_eqb_refl in E. discriminate.
    + intros (l1 & b & l2 & Eq & Ef & Nl & Ei).
      destruct l2 as [|y l2 _] using rev_ind.
      * apply app_inj_tail in Eq as (_ & ->). rewrite Ef, list_eqb_refl in E. discriminate.
      * rewrite app_comm_cons, app_assoc in Eq. apply app_inj_tail in Eq as (-> & ->).
        exists l1, b, l2. split; [reflexivity|]. split; [exact Ef|]. split; [|exact Ei].
        intros b' Ib. apply Nl. apply in_or_app. now left.
Qed.

Lemma Forall2_weaken {A B} (R R' : A -> B -> Prop) l l' :
  (forall a b, R a b -> R' a b) -> Forall2 R l l' -> Forall2 R' l l'.
Proof. intros H F. induction F; constructor; auto. Qed.
