(** More about combining mappings: devices are kept, split mappings are joined. *)
From Coq Require Import String.
From Verif Require Import Base BytesModel TextModel TextProofs Assoc HugePageModel HugePageSpec HugePageProofs.
Local Open Scope N_scope.
Local Open Scope list_scope.


Lemma replace_filter {A} (p : A -> bool) (l : list A) i x y :
  nth_error l i = Some y -> p y = false -> p x = false -> filter p (replace_nth i x l) = filter p l.
Proof.
  revert i. induction l as [|z l IH]; intros [|i] E Py Px; cbn in *; try discriminate E; try reflexivity.
  - injection E as ->. now rewrite Py, Px.
  - now rewrite (IH i).
Qed.

Lemma merge_not_device ea a b : mergeable a b = true -> deviceb (merge_into ea a b) = false.
Proof.
  unfold mergeable. rewrite !andb_true_iff. intros (((((C1 & C2) & _) & _) & _) & _).
  unfold combinable in *. rewrite negb_true_iff in *. unfold merge_into, deviceb.
  destruct (is_huge a && negb (is_huge b)); cbn; assumption.
Qed.

Lemma combine_devices evs : forall out prev res,
  combine_loop evs out prev = Ok res -> filter deviceb res = filter deviceb out ++ filter deviceb evs.
Proof.
  induction evs as [|e evs IH]; intros out prev res E; cbn [combine_loop] in E.
  - injection E as <-. cbn. now rewrite app_nil_r.
  - assert (APP : forall pr, combine_loop evs (out ++ [e]) pr = Ok res -> filter deviceb res = filter deviceb out ++ filter deviceb (e :: evs)).
    { intros pr H. rewrite (IH _ _ _ H), filter_app, <- app_assoc. f_equal. cbn. now destruct (deviceb e). }
    destruct (e_map e) as [m|] eqn:EM; [|now apply APP in E]. cbn zeta in E.
    destruct (aget N.eqb (key_of m) prev) as [i|]; [|now apply APP in E].
    destruct (nth_error out i) as [ea|] eqn:NE; [|discriminate E]. destruct (e_map ea) as [a|] eqn:EA; [|discriminate E].
    destruct (mergeable a m) eqn:MG; [|now apply APP in E].
    rewrite (IH _ _ _ E). rewrite (replace_filter _ _ _ _ ea); auto using merge_not_device.
    + f_equal. cbn. unfold deviceb at 2. rewrite EM. unfold mergeable in MG. rewrite !andb_true_iff in MG.
      destruct MG as (((((C1 & _) & _) & _) & _) & _). unfold combinable in C1. rewrite negb_true_iff in C1. now rewrite C1.
    + unfold deviceb. rewrite EA. unfold mergeable in MG. rewrite !andb_true_iff in MG.
      destruct MG as (((((_ & C1) & _) & _) & _) & _). unfold combinable in C1. now rewrite negb_true_iff in C1.
Qed.

(** Joining the pieces of a mapping. *)
Lemma combine_pieces k rest : forall e0 m n,
  e_map e0 = Some m -> is_anon m = false -> starts_with (str "/dev/") (v_file m) = false -> key_of m = k ->
  v_len m = n -> v_start m + n + fold_right (fun x a => snd x + a) 0 rest < 2 ^ 64 ->
  v_pgoff m + n + fold_right (fun x a => snd x + a) 0 rest < 2 ^ 64 ->
  combine_loop (pieces (set_len 0 m) n rest) [e0] [(k, 0%nat)] =
  Ok [set_map (set_len (n + fold_right (fun x a => snd x + a) 0 rest) m) e0].
Proof.
  induction rest as [|(e, x) rest IH]; intros e0 m n E A D K L B1 B2; cbn [pieces combine_loop fold_right snd] in *.
  - rewrite N.add_0_r, <- L. f_equal. f_equal. destruct e0 as [t s mm o], m. cbn in *. now rewrite E.
  - cbn [e_map set_map]. set (p := piece (set_len 0 m) n x).
    assert (KP : key_of p = k) by exact K. rewrite KP. cbn [aget]. rewrite N.eqb_refl. cbn [nth_error]. rewrite E.
    assert (MG : mergeable m p = true).
    { unfold mergeable. unfold combinable. change (v_file p) with (v_file m). rewrite D. cbn [negb andb].
      unfold equivalent_file. change (v_file p) with (v_file m). rewrite (proj2 (list_eqb_spec _ _) eq_refl). cbn [orb andb].
      unfold equivalent_protection. change (v_flags p) with (v_flags m). change (v_prot p) with (v_prot m). rewrite !N.eqb_refl. cbn [orb andb].
      unfold file_contiguous, vma_contiguous. rewrite A. change (pid_of p) with (pid_of m). rewrite N.eqb_refl.
      change (v_pgoff p) with (v_pgoff m + n). change (v_start p) with (v_start m + n). rewrite L.
      unfold w64, two64. change (2 ^ 64) with 18446744073709551616 in *. rewrite !N.mod_small by lia. rewrite !N.eqb_refl. reflexivity. }
    rewrite MG. cbn [replace_nth].
    assert (MI : merge_into e0 m p = set_map (set_len (n + x) m) e0).
    { unfold merge_into. assert (H : is_huge p = is_huge m) by reflexivity. rewrite H, andb_negb_r.
      change (v_len p) with x. rewrite L. unfold w64, two64. change (2 ^ 64) with 18446744073709551616 in *.
      rewrite N.mod_small by lia. reflexivity. }
    rewrite MI. change (set_len 0 m) with (set_len 0 (set_len (n + x) m)).
    rewrite IH.
    + rewrite N.add_assoc. reflexivity.
    + reflexivity.
    + exact A.
    + exact D.
    + exact K.
    + reflexivity.
    + cbn. change (2 ^ 64) with 18446744073709551616 in *. lia.
    + cbn. change (2 ^ 64) with 18446744073709551616 in *. lia.
Qed.
