(** Proofs about the size of the data part of raw events. *)
From Verif Require Import Base BytesModel BytesProofs BytesMoreProofs BufferSpec BufferProofs
  EventSizeModel EventSizeSpec.
Local Open Scope N_scope.

Lemma ev_size_bound e : bytes_ok e = true -> ev_size e < two16.
Proof.
  intros H. unfold ev_size.
  assert (B := of_le_bound (slice e 6 2) (bytes_ok_slice _ _ _ H)).
  assert (L : len (slice e 6 2) <= 2) by (unfold slice, len; rewrite firstn_length; lia).
  eapply N.lt_le_trans; [exact B|].
  change two16 with (256 ^ 2). apply N.pow_le_mono_r; lia.
Qed.

Lemma number_at_bound e off : bytes_ok e = true -> number_at e off < two64.
Proof.
  intros H. unfold number_at.
  assert (B := of_le_bound (slice e off 8) (bytes_ok_slice _ _ _ H)).
  assert (L : len (slice e off 8) <= 8).
  { unfold slice, len. rewrite firstn_length. lia. }
  eapply N.lt_le_trans; [exact B|].
  change two64 with (256 ^ 8). apply N.pow_le_mono_r; lia.
Qed.

Lemma ev_u64_ok e off : off + 8 <= len e -> ev_u64 e off = Ok (number_at e off).
Proof.
  intros H. unfold ev_u64, mem_read. destruct (N.leb_spec (off + 8) (len e)); [reflexivity|lia].
Qed.

Lemma strnlen_nul d : strnlen d < len d <-> In 0 d.
Proof.
  induction d as [|b d IH]; cbn [strnlen In].
  - split; [intros H; exfalso; apply (N.lt_irrefl _ H)|tauto].
  - rewrite len_cons. destruct (N.eqb_spec b 0) as [->|Hb].
    + split; [auto|lia].
    + rewrite <- IH. split; [lia|]. intros [->|?]; [congruence|lia].
Qed.


Lemma strnlen_app s t : ~ In 0 s -> strnlen (s ++ 0 :: t) = len s.
Proof.
  induction s as [|b s IH]; intros Hs; [reflexivity|].
  cbn [app strnlen]. destruct (N.eqb_spec b 0) as [->|Hb]; [exfalso; apply Hs; now left|].
  rewrite len_cons, IH; [reflexivity|]. intros H; apply Hs; now right.
Qed.

Lemma slice_firstn {A} (l : list A) off n m : m <= n -> firstn (N.to_nat m) (slice l off n) = slice l off m.
Proof. intros H. unfold slice. rewrite firstn_firstn. f_equal. lia. Qed.

Lemma ev_strnlen_ok e off max :
  off + max <= len e -> ev_strnlen e off max = Ok (strnlen (slice e off max)).
Proof.
  intros H. unfold ev_strnlen. cbv zeta. rewrite len_slice by exact H.
  destruct (N.ltb_spec (strnlen (slice e off max)) max); [|reflexivity].
  destruct (N.leb_spec max (strnlen (slice e off max))); [lia|reflexivity].
Qed.

Lemma ev_text_spec e off max :
  off + max <= len e -> max < two32 ->
  match ev_text e off max with
  | Ok n => text_at e off max n
  | Fail => forall n, ~ text_at e off max n
  | _ => False
  end.
Proof.
  intros H Hm. unfold ev_text. rewrite ev_strnlen_ok by exact H. cbn [obind].
  set (d := slice e off max). assert (Ld : len d = max) by (apply len_slice; exact H).
  assert (Hle := strnlen_le d).
  assert (X : forall n, text_at e off max n ->
    strnlen d < max /\ n = 8 * (strnlen d / 8 + 1) /\ n <= max).
  { intros n (s & Hs & E & En & Hn). assert (Hl : len s + 1 <= max) by lia.
    assert (Es : strnlen d = len s).
    { rewrite <- (firstn_skipn (N.to_nat (len s + 1)) d). unfold d at 1.
      rewrite slice_firstn by exact Hl. rewrite E, <- app_assoc. apply strnlen_app. exact Hs. }
    rewrite Es. repeat split; auto; lia. }
  destruct (N.eqb_spec (strnlen d) max) as [E|E].
  { intros n Hn. apply X in Hn. lia. }
  rewrite aligned_string_length_value by (unfold two32, two64 in *; lia).
  destruct (N.ltb_spec max (8 * (strnlen d / 8 + 1))) as [Hlt|Hge].
  { intros n Hn. apply X in Hn. lia. }
  destruct (until_nul_strnlen d) as (Hn & rest & Er & Hr).
  set (s := firstn (N.to_nat (strnlen d)) d) in *.
  assert (Ls : len s = strnlen d) by (apply len_firstn; exact Hle).
  assert (Hd : len d = len s + len rest) by (rewrite Er at 1; apply len_app).
  destruct Hr as [->|(t & ->)]; [rewrite len_nil in Hd; lia|].
  exists s. split; [exact Hn|]. split.
  - rewrite <- (slice_firstn e off max) by lia. fold d. rewrite Er.
    replace (s ++ 0 :: t) with ((s ++ [0]) ++ t) by (now rewrite <- app_assoc).
    replace (len s + 1) with (len (s ++ [0])) by (now rewrite len_app).
    apply firstn_len_app.
  - rewrite Ls. split; [reflexivity|exact Hge].
Qed.

Lemma text_at_bounds e off room n : text_at e off room n -> 8 <= n <= room /\ n mod 8 = 0.
Proof. intros (s & _ & _ & -> & H). lia. Qed.

Lemma exact_entries_spec e at_ entry rem :
  bytes_ok e = true -> at_ + 8 <= len e -> 0 < entry -> rem < two32 ->
  exact_entries e at_ entry rem = if number_at e at_ * entry =? rem then Ok rem else Fail.
Proof.
  intros Hb H He Hr. unfold exact_entries. rewrite ev_u64_ok by exact H. cbn [obind].
  set (nr := number_at e at_).
  destruct (N.eqb_spec nr (rem / entry)) as [E|E]; cbn [negb].
  - assert (nr * entry <= rem).
    { rewrite E, N.mul_comm. apply N.mul_div_le. lia. }
    rewrite w64_small by (unfold two32, two64 in *; lia).
    destruct (N.eqb_spec (nr * entry) rem); cbn [negb]; congruence.
  - destruct (N.eqb_spec (nr * entry) rem) as [E2|]; [|reflexivity].
    exfalso. apply E. rewrite <- E2. symmetry. apply N.div_mul. lia.
Qed.

Lemma thread_names_spec e count : forall i,
  16 + 24 * (i + N.of_nat count) <= len e ->
  match thread_names e i count with
  | Ok _ => forall j, i <= j < i + N.of_nat count -> In 0 (slice e (16 + 24 * j + 8) 16)
  | Fail => exists j, i <= j < i + N.of_nat count /\ ~ In 0 (slice e (16 + 24 * j + 8) 16)
  | _ => False
  end.
Proof.
  induction count as [|c IH]; intros i H.
  { cbn. intros j Hj. lia. }
  cbn [thread_names].
  assert (B : 16 + 24 * i + 8 + 16 <= len e) by lia.
  assert (T := ev_text_spec e (16 + 24 * i + 8) 16 B ltac:(reflexivity)).
  assert (L : len (slice e (16 + 24 * i + 8) 16) = 16) by (apply len_slice; exact B).
  destruct (ev_text e (16 + 24 * i + 8) 16) as [n| | | |]; cbn [obind]; try contradiction.
  - specialize (IH (i + 1) ltac:(lia)).
    destruct (thread_names e (i + 1) c) as [u| | | |]; try contradiction.
    + intros j Hj. destruct (N.eq_dec j i) as [->|Hji]; [|apply IH; lia].
      destruct T as (s & Hs & E & En & Hn).
      rewrite <- (firstn_skipn (N.to_nat (len s + 1)) (slice e _ 16)).
      rewrite slice_firstn by lia. rewrite E. rewrite !in_app_iff. cbn. auto.
    + destruct IH as (j & Hj & Hnj). exists j. split; [lia|exact Hnj].
  - exists i. split; [lia|]. intros Hin. apply strnlen_nul in Hin.
    destruct (until_nul_strnlen (slice e (16 + 24 * i + 8) 16)) as (Hn & rest & Er & Hr).
    set (d := slice e (16 + 24 * i + 8) 16) in *.
    set (s := firstn (N.to_nat (strnlen d)) d) in *.
    assert (Ls : len s = strnlen d) by (apply len_firstn; apply strnlen_le).
    assert (Hd : len d = len s + len rest) by (rewrite Er at 1; apply len_app).
    destruct Hr as [->|(t & ->)]; [change (len (@nil N)) with 0 in Hd; lia|].
    apply (T (8 * (len s / 8 + 1))). exists s. split; [exact Hn|]. split; [|lia].
    rewrite <- (slice_firstn e _ 16) by lia. fold d. rewrite Er.
    replace (s ++ 0 :: t) with ((s ++ [0]) ++ t) by (now rewrite <- app_assoc).
    replace (len s + 1) with (len (s ++ [0])) by (now rewrite len_app).
    apply firstn_len_app.
Qed.

Lemma Ok_inj {A} (a b : A) : Ok a = Ok b -> a = b.
Proof. congruence. Qed.

(** ** One type at a time *)
Ltac pick_type :=
  repeat match goal with
  | |- context [?a =? ?b] =>
      let x := eval vm_compute in (a =? b) in
      match x with
      | true => change (a =? b) with true
      | false => change (a =? b) with false
      end
  end; cbn [orb negb]; cbv iota.

Ltac open_type H :=
  unfold event_data_size, fixed_payload, variable_payload, variable_payload_of;
  cbv zeta; rewrite H; pick_type.

Lemma text_event_size e ty fixed max n :
  raw_event e -> In (ty, fixed, max) text_events -> ev_type e = ty ->
  (event_data_size e = Ok n <->
   fixed <= ev_size e /\ exists v, n = fixed + v /\ text_at e fixed (N.min (ev_size e - fixed) max) v).
Proof.
  intros (Hb & Hh & Hs) Hin Ht.
  assert (G : event_data_size e =
    if ev_size e <? fixed then Fail else
      let! var := (let! size := ev_text e fixed (N.min (ev_size e - fixed) max) in
                   if negb (size mod 8 =? 0) then Fail else Ok size) in Ok (w64 (fixed + var))).
  { cbn in Hin. repeat (destruct Hin as [E|Hin]; [injection E as <- <- <-; open_type Ht; reflexivity|]).
    contradiction. }
  assert (Hm : max < two32 /\ fixed < 100).
  { cbn in Hin. repeat (destruct Hin as [E|Hin]; [injection E as <- <- <-; split; reflexivity|]). contradiction. }
  rewrite G. assert (Hsz := ev_size_bound e Hb).
  destruct (N.ltb_spec (ev_size e) fixed) as [Hlt|Hge].
  { split; [discriminate|lia]. }
  assert (T := ev_text_spec e fixed (N.min (ev_size e - fixed) max) ltac:(lia) ltac:(lia)).
  destruct (ev_text e fixed _) as [v| | | |]; cbn [obind]; try contradiction.
  - destruct (text_at_bounds _ _ _ _ T) as [B1 B2]. rewrite B2. cbn [negb N.eqb obind].
    rewrite w64_small by (unfold two16, two64 in *; lia).
    split.
    + intros E. injection E as <-. split; [exact Hge|]. now exists v.
    + intros (_ & v' & -> & T'). f_equal. f_equal.
      destruct T as (s & A1 & A2 & -> & A4). destruct T' as (s' & A1' & A2' & -> & A4').
      assert (len s = len s'); [|congruence].
      assert (F : forall a b, ~ In 0 a -> slice e fixed (len b + 1) = b ++ [0] ->
                slice e fixed (len a + 1) = a ++ [0] -> len a <= len b).
      { intros a b Ha Eb Ea. destruct (N.le_gt_cases (len a) (len b)) as [|Hgt]; [assumption|].
        exfalso. apply Ha.
        assert (Hx : firstn (N.to_nat (len b + 1)) (a ++ [0]) = b ++ [0]).
        { rewrite <- Ea, slice_firstn by lia. exact Eb. }
        rewrite firstn_app in Hx. replace (N.to_nat (len b + 1) - length a)%nat with O in Hx
          by (unfold len in *; lia). rewrite firstn_O, app_nil_r in Hx.
        rewrite <- (firstn_skipn (N.to_nat (len b + 1)) a), Hx, !in_app_iff. cbn. auto. }
      apply N.le_antisymm; eauto.
  - split; [discriminate|]. intros (_ & v & _ & T'). exfalso. exact (T v T').
Qed.

Lemma plain_event_size e ty fixed :
  In (ty, fixed) plain_events -> ev_type e = ty ->
  event_data_size e = if ev_size e <? fixed then Fail else Ok fixed.
Proof.
  intros Hin Ht. cbn in Hin.
  repeat (destruct Hin as [E|Hin]; [injection E as <- <-; open_type Ht; destruct (_ <? _); reflexivity|]).
  contradiction.
Qed.

Lemma closed_event_size e ty fixed :
  In (ty, fixed) closed_events -> ev_type e = ty ->
  event_data_size e = if ev_size e =? fixed then Ok fixed else Fail.
Proof.
  intros Hin Ht. cbn in Hin.
  assert (G : event_data_size e = if ev_size e <? fixed then Fail
     else if ev_size e - fixed =? 0 then Ok fixed else Fail).
  { repeat (destruct Hin as [E|Hin];
      [injection E as <- <-; open_type Ht; destruct (_ <? _); [reflexivity|];
       match goal with |- context [negb (?a =? 0)] => destruct (a =? 0) end; reflexivity|]).
    contradiction. }
  rewrite G. destruct (N.ltb_spec (ev_size e) fixed), (N.eqb_spec (ev_size e - fixed) 0),
    (N.eqb_spec (ev_size e) fixed); try reflexivity; lia.
Qed.

Lemma mod8_mul a k : (a * (8 * k)) mod 8 = 0.
Proof. replace (a * (8 * k)) with (a * k * 8) by lia. apply N.mod_mul. discriminate. Qed.

Lemma array_event_size e ty at_ fixed entry n :
  raw_event e -> In (ty, at_, fixed, entry) array_events -> ev_type e = ty ->
  (event_data_size e = Ok n <->
   n = ev_size e /\ ev_size e = fixed + number_at e at_ * entry /\
   (ty = R_THREAD_MAP -> names_terminated e)).
Proof.
  intros (Hb & Hh & Hs) Hin Ht. cbn in Hin. assert (Hsz := ev_size_bound e Hb).
  destruct Hin as [E|[E|[E|[]]]]; injection E as <- <- <- <-; open_type Ht.
  - destruct (N.ltb_spec (ev_size e) 16) as [Hlt|Hge]; [split; [discriminate|lia]|].
    rewrite exact_entries_spec by (auto; unfold two16, two32 in *; lia).
    destruct (N.eqb_spec (number_at e 8 * 32) (ev_size e - 16)) as [E|E]; cbn [obind].
    + replace ((ev_size e - 16) mod 8) with 0 by (rewrite <- E; symmetry; apply (mod8_mul _ 4)).
      cbn [N.eqb negb obind]. rewrite w64_small by (unfold two16, two64 in *; lia).
      split.
      * intros X; apply Ok_inj in X; subst n. split; [lia|]. split; [lia|discriminate].
      * intros (-> & _). f_equal. lia.
    + split; [discriminate|lia].
  - destruct (N.ltb_spec (ev_size e) 16) as [Hlt|Hge]; [split; [discriminate|lia]|].
    rewrite exact_entries_spec by (auto; unfold two16, two32 in *; lia).
    destruct (N.eqb_spec (number_at e 8 * 16) (ev_size e - 16)) as [E|E]; cbn [obind].
    + replace ((ev_size e - 16) mod 8) with 0 by (rewrite <- E; symmetry; apply (mod8_mul _ 2)).
      cbn [N.eqb negb obind]. rewrite w64_small by (unfold two16, two64 in *; lia).
      split.
      * intros X; apply Ok_inj in X; subst n. split; [lia|]. split; [lia|discriminate].
      * intros (-> & _). f_equal. lia.
    + split; [discriminate|lia].
  - destruct (N.ltb_spec (ev_size e) 16) as [Hlt|Hge]; [split; [discriminate|lia]|].
    rewrite exact_entries_spec by (auto; unfold two16, two32 in *; lia).
    destruct (N.eqb_spec (number_at e 8 * 24) (ev_size e - 16)) as [E|E]; cbn [obind].
    + rewrite ev_u64_ok by lia. cbn [obind].
      assert (T := thread_names_spec e (N.to_nat (number_at e 8)) 0 ltac:(lia)).
      destruct (thread_names e 0 (N.to_nat (number_at e 8))) as [u| | | |]; try contradiction; cbn [obind].
      * replace ((ev_size e - 16) mod 8) with 0 by (rewrite <- E; symmetry; apply (mod8_mul _ 3)).
        cbn [N.eqb negb obind]. rewrite w64_small by (unfold two16, two64 in *; lia).
        split.
        -- intros X; apply Ok_inj in X; subst n. split; [lia|]. split; [lia|]. intros _ i Hi. apply T. lia.
        -- intros (-> & _). f_equal. lia.
      * split; [discriminate|]. intros (_ & _ & Hn). exfalso.
        destruct T as (j & Hj & Hnj). apply Hnj. apply Hn; [reflexivity|lia].
    + split; [discriminate|lia].
Qed.

Lemma namespaces_size e n :
  raw_event e -> ev_type e = R_NAMESPACES ->
  (event_data_size e = Ok n <->
   24 <= ev_size e /\ n = 24 + 16 * number_at e 16 /\ n <= ev_size e).
Proof.
  intros (Hb & Hh & Hs) Ht. assert (Hsz := ev_size_bound e Hb). open_type Ht.
  destruct (N.ltb_spec (ev_size e) 24) as [Hlt|Hge]; [split; [discriminate|lia]|].
  rewrite ev_u64_ok by lia. cbn [obind].
  destruct (N.ltb_spec ((ev_size e - 24) / 16) (number_at e 16)) as [Hlt|Hle]; cbn [obind].
  { split; [discriminate|lia]. }
  assert (B : number_at e 16 * 16 <= ev_size e - 24) by lia.
  rewrite (w64_small (number_at e 16 * 16)) by (unfold two16, two64 in *; lia).
  replace ((number_at e 16 * 16) mod 8) with 0 by (symmetry; apply (mod8_mul _ 2)).
  cbn [N.eqb negb obind]. rewrite w64_small by (unfold two16, two64 in *; lia).
  split.
  - intros X; apply Ok_inj in X; subst n. lia.
  - intros (_ & -> & _). f_equal. lia.
Qed.

Lemma auxtrace_info_size e :
  raw_event e -> ev_type e = R_AUXTRACE_INFO ->
  event_data_size e = if (16 <=? ev_size e) && (ev_size e mod 8 =? 0) then Ok (ev_size e) else Fail.
Proof.
  intros (Hb & Hh & Hs) Ht. assert (Hsz := ev_size_bound e Hb). open_type Ht.
  destruct (N.ltb_spec (ev_size e) 16) as [Hlt|Hge].
  { destruct (N.leb_spec 16 (ev_size e)); [lia|reflexivity]. }
  destruct (N.leb_spec 16 (ev_size e)); [|lia]. cbn [andb obind].
  replace ((ev_size e - 16) mod 8) with (ev_size e mod 8) by lia.
  destruct (N.eqb_spec (ev_size e mod 8) 0); cbn [negb obind]; [|reflexivity].
  rewrite w64_small by (unfold two16, two64 in *; lia). f_equal. lia.
Qed.

Lemma time_conv_size e :
  raw_event e -> ev_type e = R_TIME_CONV ->
  event_data_size e = if (ev_size e =? 32) || (ev_size e =? 56) then Ok (ev_size e) else Fail.
Proof.
  intros (Hb & Hh & Hs) Ht. open_type Ht.
  destruct (N.ltb_spec (ev_size e) 32) as [Hlt|Hge].
  { destruct (N.eqb_spec (ev_size e) 32), (N.eqb_spec (ev_size e) 56); cbn [orb]; try reflexivity; lia. }
  destruct (N.eqb_spec (ev_size e - 32) 0), (N.eqb_spec (ev_size e - 32) 24); cbn [orb];
    destruct (N.eqb_spec (ev_size e) 32), (N.eqb_spec (ev_size e) 56); cbn [orb]; try lia; try reflexivity.
  - replace (ev_size e) with 32 by lia. reflexivity.
  - replace (ev_size e) with 56 by lia. reflexivity.
Qed.

Lemma auxtrace_error_size e n :
  raw_event e -> ev_type e = R_AUXTRACE_ERROR ->
  (event_data_size e = Ok n <->
   n = ev_size e /\ 40 <= ev_size e <= 104 /\ text_at e 40 64 (ev_size e - 40)).
Proof.
  intros (Hb & Hh & Hs) Ht. assert (Hsz := ev_size_bound e Hb). open_type Ht.
  destruct (N.ltb_spec (ev_size e) 40) as [Hlt|Hge]; [split; [discriminate|lia]|].
  set (room := N.min (ev_size e - 40) 64).
  assert (T := ev_text_spec e 40 room ltac:(unfold room; lia) ltac:(unfold room, two32; lia)).
  destruct (ev_text e 40 room) as [v| | | |]; try contradiction; cbn [obind].
  - destruct (text_at_bounds _ _ _ _ T) as [B1 B2].
    destruct (N.eqb_spec v (ev_size e - 40)) as [E|E]; cbn [negb obind].
    + rewrite B2. cbn [N.eqb negb obind]. rewrite w64_small by (unfold two16, two64 in *; lia).
      split.
      * intros X; apply Ok_inj in X; subst n. split; [lia|]. split; [unfold room in *; lia|].
        rewrite <- E. destruct T as (s & A1 & A2 & A3 & A4). exists s. repeat split; auto.
        unfold room in *; lia.
      * intros (-> & _). f_equal. lia.
    + split; [discriminate|]. intros (_ & Hl & s & A1 & A2 & A3 & A4). exfalso. apply E.
      destruct T as (s' & A1' & A2' & A3' & A4').
      assert (F : forall a b, ~ In 0 a -> slice e 40 (len b + 1) = b ++ [0] ->
                slice e 40 (len a + 1) = a ++ [0] -> len a <= len b).
      { intros a b Ha Eb Ea. destruct (N.le_gt_cases (len a) (len b)) as [|Hgt]; [assumption|].
        exfalso. apply Ha.
        assert (Hx : firstn (N.to_nat (len b + 1)) (a ++ [0]) = b ++ [0]).
        { rewrite <- Ea, slice_firstn by lia. exact Eb. }
        rewrite firstn_app in Hx. replace (N.to_nat (len b + 1) - length a)%nat with O in Hx
          by (unfold len in *; lia). rewrite firstn_O, app_nil_r in Hx.
        rewrite <- (firstn_skipn (N.to_nat (len b + 1)) a), Hx, !in_app_iff. cbn. auto. }
      rewrite A3, A3'. f_equal. f_equal. f_equal. apply N.le_antisymm; eauto.
  - split; [discriminate|]. intros (_ & Hl & s & A1 & A2 & A3 & A4). exfalso.
    apply (T (ev_size e - 40)). exists s. repeat split; auto. unfold room. lia.
Qed.

Lemma bpf_size e :
  raw_event e -> ev_type e = R_BPF_METADATA ->
  event_data_size e =
    if (528 <=? ev_size e) && (w64 (number_at e 520 * 320) <=? ev_size e - 528)
    then Ok (528 + w64 (number_at e 520 * 320)) else Fail.
Proof.
  intros (Hb & Hh & Hs) Ht. assert (Hsz := ev_size_bound e Hb). open_type Ht.
  destruct (N.ltb_spec (ev_size e) 528) as [Hlt|Hge].
  { destruct (N.leb_spec 528 (ev_size e)); [lia|reflexivity]. }
  destruct (N.leb_spec 528 (ev_size e)); [|lia]. cbn [andb].
  rewrite ev_u64_ok by lia. cbn [obind].
  set (v := w64 (number_at e 520 * 320)).
  assert (Hv : v mod 8 = 0).
  { unfold v, w64. clear.
    set (x := number_at e 520). clearbody x.
    assert (Hd := N.div_mod (x * 320) two64 ltac:(discriminate)).
    set (q := x * 320 / two64) in *. set (r := (x * 320) mod two64) in *. clearbody q r.
    unfold two64 in Hd. lia. }
  destruct (N.ltb_spec (ev_size e - 528) v), (N.leb_spec v (ev_size e - 528)); cbn [obind]; try lia; auto.
  rewrite Hv. cbn [N.eqb negb obind]. now rewrite w64_small by (unfold two16, two64 in *; lia).
Qed.

Lemma known_types ty fixed : fixed_payload ty = Some fixed <-> In (ty, fixed) known_events.
Proof.
  split.
  - unfold fixed_payload.
    repeat match goal with
    | |- context [ty =? ?b] =>
        destruct (N.eqb_spec ty b) as [E|?];
        [subst ty; pick_type; intros H; injection H as <-; cbn; repeat (first [left; reflexivity|right])|]
    end.
    cbn [orb]. discriminate.
  - intros H. cbn in H.
    repeat (destruct H as [E|H]; [injection E as <- <-; reflexivity|]). contradiction.
Qed.

Lemma unknown_type e : (forall fixed, ~ In (ev_type e, fixed) known_events) -> event_data_size e = Fail.
Proof.
  intros H. unfold event_data_size. destruct (fixed_payload (ev_type e)) as [f|] eqn:E; [|reflexivity].
  apply known_types in E. exfalso. exact (H f E).
Qed.

Lemma variable_payload_total e f :
  raw_event e -> fixed_payload (ev_type e) = Some f -> f <= ev_size e ->
  variable_payload_of e (ev_size e - f) = Fail \/
  exists v, variable_payload_of e (ev_size e - f) = Ok v /\ v <= ev_size e - f.
Proof.
  intros (Hb & Hh & Hs) E Hge. assert (Hk := proj1 (known_types _ _) E).
  assert (Hsz := ev_size_bound e Hb). set (rem := ev_size e - f).
  assert (TX : forall off m, off = f -> ev_text e off (N.min rem m) = Fail \/
              exists v, ev_text e off (N.min rem m) = Ok v /\ v <= rem).
    { intros off m ->. assert (T := ev_text_spec e f (N.min rem m) ltac:(unfold rem; lia) ltac:(unfold rem, two16, two32 in *; lia)).
      destruct (ev_text e f (N.min rem m)) as [v| | | |]; try contradiction; [right|now left].
      exists v. split; [reflexivity|]. apply text_at_bounds in T. lia. }
    assert (EX : forall en, 0 < en -> 16 <= f -> exact_entries e 8 en rem = Fail \/
              (exact_entries e 8 en rem = Ok rem /\ number_at e 8 * en = rem)).
    { intros en Hen Hf. rewrite exact_entries_spec by (auto; unfold rem, two16, two32 in *; lia).
      destruct (N.eqb_spec (number_at e 8 * en) rem); [right; auto|now left]. }
    assert (U : forall off, off + 8 <= f -> ev_u64 e off = Ok (number_at e off)).
    { intros off Ho. apply ev_u64_ok. lia. }
    unfold variable_payload_of. cbv zeta.
    cbn in Hk.
    repeat (destruct Hk as [X|Hk];
      [injection X as X1 X2; rewrite <- X1; pick_type; subst f; try (now apply TX);
       try (right; eexists; split; [reflexivity|lia])|]); [..|contradiction].
    all: try (destruct (rem =? 0); cbn [negb]; [right; eexists; split; [reflexivity|lia]|now left]).
    - destruct (EX 32 ltac:(lia) ltac:(lia)) as [->|[-> _]]; [now left|right; eexists; split; [reflexivity|lia]].
    - destruct (EX 16 ltac:(lia) ltac:(lia)) as [->|[-> _]]; [now left|right; eexists; split; [reflexivity|lia]].
    - destruct (EX 24 ltac:(lia) ltac:(lia)) as [->|[-> En]]; [now left|]. cbn [obind].
      rewrite U by lia. cbn [obind].
      assert (T := thread_names_spec e (N.to_nat (number_at e 8)) 0 ltac:(unfold rem in *; lia)).
      destruct (thread_names e 0 (N.to_nat (number_at e 8))) as [u| | | |]; try contradiction; cbn [obind];
        [right; eexists; split; [reflexivity|lia]|now left].
    - rewrite U by lia. cbn [obind].
      destruct (N.ltb_spec (rem / 16) (number_at e 16)); [now left|right].
      eexists; split; [reflexivity|]. rewrite w64_small; unfold rem, two16, two64 in *; lia.
    - destruct (TX 40 64 eq_refl) as [->|(v & -> & Hv)]; cbn [obind]; [now left|].
      destruct (v =? rem); cbn [negb]; [right; eexists; split; [reflexivity|lia]|now left].
    - destruct ((rem =? 0) || (rem =? 24)); [right; eexists; split; [reflexivity|lia]|now left].
    - rewrite U by lia. cbn [obind].
      destruct (N.ltb_spec rem (w64 (number_at e 520 * 320))); [now left|right].
      eexists; split; [reflexivity|]. lia.
Qed.

Lemma data_size_total e :
  raw_event e ->
  event_data_size e = Fail \/
  exists n fixed, event_data_size e = Ok n /\ In (ev_type e, fixed) known_events /\
    8 <= fixed <= n /\ n <= ev_size e /\ n mod 8 = 0.
Proof.
  intros He.
  destruct (fixed_payload (ev_type e)) as [f|] eqn:E.
  2:{ left. unfold event_data_size. now rewrite E. }
  assert (Hk := proj1 (known_types _ _) E).
  assert (W : event_data_size e = Fail \/ (exists n, event_data_size e = Ok n /\ f <= n /\ n <= ev_size e /\ n mod 8 = 0)).
  2:{ destruct W as [W|(n & W1 & W2 & W3 & W4)]; [now left|right]. exists n, f. repeat split; auto.
      cbn in Hk. repeat (destruct Hk as [X|Hk]; [injection X as _ <-; lia|]). contradiction. }
  destruct He as (Hb & Hh & Hs). assert (Hsz := ev_size_bound e Hb). 
  unfold event_data_size. rewrite E.
  destruct (N.ltb_spec (ev_size e) f) as [Hlt|Hge]; [now left|].
  set (rem := ev_size e - f).
  assert (V : variable_payload_of e rem = Fail \/ exists v, variable_payload_of e rem = Ok v /\ v <= rem).
  { apply variable_payload_total; auto. now repeat split. }
  assert (F8 : f mod 8 = 0).
  { cbn in Hk. repeat (destruct Hk as [X|Hk]; [injection X as _ <-; reflexivity|]). contradiction. }
  unfold variable_payload.
  destruct V as [->|(v & -> & Hv)]; cbn [obind]; [now left|].
  destruct (N.eqb_spec (v mod 8) 0) as [E8|E8]; cbn [negb obind]; [right|now left].
  exists (f + v). rewrite w64_small by (unfold rem, two16, two64 in *; lia).
  split; [reflexivity|]. split; [lia|]. split; [unfold rem in *; lia|].
  rewrite N.add_mod, F8, E8; [reflexivity|discriminate].
Qed.
