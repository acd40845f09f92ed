(** More of C10 and C46: what any list of CPUs means, and paths of special kinds. *)
From Coq Require Import String.
From Verif Require Import Base BytesModel TextModel TextSpec TextProofs.
Local Open Scope N_scope.
Local Open Scope list_scope.

(** An item of a list of CPUs: a number or a range, both ends in it. *)
Inductive cpu_item := One (n : N) | FromTo (a b : N).
Definition written (i : cpu_item) : list N :=
  match i with One n => print_dec n | FromTo a b => print_dec a ++ [45] ++ print_dec b end.
Definition is_proper (i : cpu_item) : bool := match i with One n => true | FromTo a b => a <? b end.
Definition small (i : cpu_item) : Prop := match i with One n => n < max32 | FromTo a b => a < max32 /\ b < max32 end.
(** [l] is the CPUs of the item, in increasing order. *)
Definition lists (i : cpu_item) (l : list N) : Prop :=
  strictly_increasing l = true /\ forall x, In x l <-> match i with One n => x = n | FromTo a b => a <= x <= b end.

Lemma upto_in k : forall a x, In x (upto a k) <-> a <= x < a + N.of_nat k.
Proof.
  induction k as [|k IH]; intros a x; [cbn; lia|]. rewrite upto_S. cbn [In]. rewrite IH. lia.
Qed.
Lemma upto_increasing k : forall a, strictly_increasing (upto a k) = true.
Proof.
  induction k as [|k IH]; intros a; [reflexivity|]. rewrite upto_S. destruct k as [|k]; [reflexivity|].
  pose proof (IH (a + 1)) as H. rewrite upto_S in H |- *. cbn [strictly_increasing] in *. rewrite andb_true_iff. split; [apply N.ltb_lt; lia|exact H].
Qed.
Lemma written_clean i : ~ In 44 (written i) /\ written i <> [].
Proof.
  destruct i as [n|a b]; cbn [written].
  - split; [intros H; apply print_dec_digits in H; discriminate H|]. destruct (print_dec_cons n) as (c & r & -> & _). discriminate.
  - split.
    + rewrite !in_app_iff. intros [H|[[H|[]]|H]]; try discriminate H; apply print_dec_digits in H; discriminate H.
    + destruct (print_dec_cons a) as (c & r & -> & _). discriminate.
Qed.
Lemma item_ok i : small i -> is_proper i = true -> exists l, parse_cpu_token (written i) = Ok l /\ lists i l.
Proof.
  destruct i as [n|a b]; cbn [small is_proper written].
  - intros H _. exists [n]. split; [now apply parse_token_single|]. split; [reflexivity|]. intros x. cbn. intuition.
  - intros (Ha & Hb) L. apply N.ltb_lt in L. exists (upto a (S (N.to_nat (b - a)))). split; [now apply parse_token_range|].
    split; [apply upto_increasing|]. intros x. rewrite upto_in. lia.
Qed.
Lemma item_bad i : small i -> is_proper i = false -> parse_cpu_token (written i) = Fail.
Proof.
  destruct i as [n|a b]; cbn [small is_proper written]; [discriminate|]. intros (Ha & Hb) L. apply N.ltb_ge in L.
  unfold parse_cpu_token. change (print_dec a ++ [45] ++ print_dec b) with (join 45 [print_dec a; print_dec b]).
  rewrite split_join.
  - rewrite !stou32_print_dec by (unfold max32, two32 in *; lia). destruct (N.leb_spec b a); [reflexivity|lia].
  - assert (C : forall n, ~ In 45 (print_dec n) /\ print_dec n <> []).
    { intros n. split; [intros H; apply print_dec_digits in H; discriminate H|]. destruct (print_dec_cons n) as (c & r & -> & _). discriminate. }
    constructor; [apply C|constructor; [apply C|constructor]].
Qed.

(** *** A list of numbers and ranges, in any order, is accepted just if each range has its
    end above its beginning, and means the CPUs of each item in turn. *)
Theorem C10_list_meaning items :
  items <> [] -> Forall small items ->
  match parse_cpu_numbers (join 44 (map written items)) with
  | Ok l => forallb is_proper items = true /\ exists ls, Forall2 lists items ls /\ l = concat ls
  | Fail => forallb is_proper items = false
  | _ => False
  end.
Proof.
  intros N S. unfold parse_cpu_numbers. rewrite split_join by (rewrite Forall_map; apply Forall_forall; intros i _; apply written_clean).
  destruct items as [|i0 items0]; [contradiction|]. cbn [map]. change (written i0 :: map written items0) with (map written (i0 :: items0)).
  clear N. generalize dependent (i0 :: items0). clear i0 items0. intros items S. induction S as [|i items Hi S IH]; cbn [map parse_cpu_tokens forallb].
  - split; [reflexivity|]. exists []. now split.
  - destruct (is_proper i) eqn:P; cbn [andb].
    + destruct (item_ok i Hi P) as (l & -> & L). cbn [obind].
      destruct (parse_cpu_tokens (map written items)) as [r| | | |]; cbn [obind]; try exact IH.
      destruct IH as (IH & ls & F & ->). split; [exact IH|]. exists (l :: ls). split; [now constructor|reflexivity].
    + now rewrite (item_bad i Hi P).
Qed.
Print Assumptions C10_list_meaning.
Example C10_list_meaning_met :
  join 44 (map written [FromTo 4 6; One 2; FromTo 0 1]) = str "4-6,2,0-1" /\ parse_cpu_numbers (str "4-6,2,0-1") = Ok [4; 5; 6; 2; 0; 1] /\
  join 44 (map written [One 2; FromTo 3 3]) = str "2,3-3" /\ parse_cpu_numbers (str "2,3-3") = Fail.
Proof. repeat split; vm_compute; reflexivity. Qed.

(** *** Named anonymous memory, memory files and temporary files have a root of their own;
    what is no absolute path has none. *)
Lemma begins p : forall t, starts_with p (p ++ t) = true.
Proof. induction p as [|c p IH]; intros t; [reflexivity|]. cbn. now rewrite N.eqb_refl, IH. Qed.
Theorem C46_root_path_special t :
  root_path (str "[anon:" ++ t) = str "[anon:" /\ root_path (str "/memfd:" ++ t) = str "/memfd:" /\ root_path (str "/tmp/" ++ t) = str "/tmp".
Proof.
  unfold root_path. split; [now rewrite begins|]. split; rewrite ?begins; reflexivity.
Qed.
Print Assumptions C46_root_path_special.
Theorem C46_root_path_relative c t :
  c <> 47 -> (forall r, c :: t <> str "[anon:" ++ r) -> root_path (c :: t) = [] /\ root_path [] = [].
Proof.
  intros C A. split; [|reflexivity]. unfold root_path.
  destruct (starts_with (str "[anon:") (c :: t)) eqn:E.
  - assert (K : forall p s, starts_with p s = true -> exists r, s = p ++ r).
    { clear. induction p as [|x p IH]; intros s H; [now exists s|]. destruct s as [|y s]; [discriminate H|]. cbn in H.
      apply andb_true_iff in H as [H1 H2]. apply N.eqb_eq in H1 as ->. destruct (IH s H2) as (r & ->). now exists r. }
    destruct (K _ _ E) as (r & H). now elim (A r).
  - assert (F : 47 =? c = false) by (apply N.eqb_neq; congruence). assert (G : c =? 47 = false) by (apply N.eqb_neq; congruence).
    change (starts_with (str "/memfd:") (c :: t)) with ((47 =? c) && starts_with (str "memfd:") t).
    change (starts_with (str "/tmp/") (c :: t)) with ((47 =? c) && starts_with (str "tmp/") t). rewrite F, G. reflexivity.
Qed.
Print Assumptions C46_root_path_relative.
Example C46_special_met :
  root_path (str "/tmp/a/b/c") = str "/tmp" /\ root_path (str "a/b/c") = [] /\ root_path (str "/memfd:jit (deleted)") = str "/memfd:".
Proof. repeat split; vm_compute; reflexivity. Qed.

(** *** Text that does not end in a digit is not taken for a number. *)
Lemma digits_all base : forall s acc v k, parse_digits base acc s = (v, k, []) -> Forall (fun c => digit_val base c <> None) s.
Proof.
  induction s as [|c s IH]; intros acc v k H; [constructor|]. cbn [parse_digits] in H. destruct (digit_val base c) as [d|] eqn:D.
  - destruct (parse_digits base (acc * base + d) s) as [[v' k'] r] eqn:P. injection H as _ _ ->. constructor; [now rewrite D|exact (IH _ _ _ P)].
  - discriminate H.
Qed.
Lemma skip_suffix s : exists a, s = a ++ skip_spaces s.
Proof. induction s as [|c s IH]; [now exists []|]. cbn. destruct (is_space c); [|now exists []]. destruct IH as (a & E). exists (c :: a). cbn. now rewrite <- E. Qed.
Lemma strto_end base p x n v : strto base (p ++ [x]) = (n, v, []) -> digit_val base x <> None.
Proof.
  unfold strto. set (s := p ++ [x]). destruct (skip_suffix s) as (a & Ea). generalize dependent (skip_spaces s). intros s1 E1.
  match goal with |- context [let '(neg, s2) := ?m in _] => destruct m as [neg s2] eqn:E2 end.
  assert (S2 : exists a2, s = a2 ++ s2).
  { destruct s1 as [|c r]; [injection E2 as _ <-; now exists a|]. destruct (c =? 45); [injection E2 as _ <-|destruct (c =? 43); injection E2 as _ <-].
    - exists (a ++ [c]). now rewrite <- app_assoc.
    - exists (a ++ [c]). now rewrite <- app_assoc.
    - now exists a. }
  match goal with |- context [parse_digits base 0 ?m] => assert (S3 : exists a3, s = a3 ++ m); [|generalize dependent m] end.
  { destruct S2 as (a2 & ->). destruct s2 as [|z [|y [|d r]]]; try (now exists a2).
    destruct (_ && _ && _ && _); [exists (a2 ++ [z; y]); now rewrite <- app_assoc|now exists a2]. }
  intros s3 (a3 & E3). destruct (parse_digits base 0 s3) as [[v' k] r] eqn:P. destruct k as [|k].
  - intros H. injection H as _ _ H. unfold s in H. now destruct p.
  - intros H. injection H as _ _ ->. pose proof (digits_all _ _ _ _ _ P) as F.
    destruct (exists_last (l := s3)) as (q & y & ->).
    + intros ->. cbn in P. discriminate P.
    + apply Forall_app in F as [_ F]. apply Forall_inv in F. unfold s in E3. rewrite app_assoc in E3. now apply app_inj_tail in E3 as [_ ->].
Qed.

Theorem C10_no_number toks t x :
  Forall (fun t => ~ In 44 t /\ t <> []) toks -> In (t ++ [x]) toks ->
  ~ In 0 (t ++ [x]) -> ~ In 45 (t ++ [x]) -> ~ (48 <= x <= 57) ->
  forall l, parse_cpu_numbers (join 44 toks) <> Ok l.
Proof.
  intros F I Z M X l. unfold parse_cpu_numbers. rewrite split_join by exact F.
  assert (B : parse_cpu_token (t ++ [x]) = Fail).
  { unfold parse_cpu_token. change (t ++ [x]) with (join 45 [t ++ [x]]) at 1. rewrite split_join.
    - unfold stou32, strtoul. rewrite c_str_id by exact Z. destruct (strto 10 (t ++ [x])) as [[n v] r] eqn:S.
      assert (R : r <> []).
      { intros ->. apply strto_end in S. unfold digit_val in S.
        destruct (N.leb_spec 48 x), (N.leb_spec x 57); cbn [andb] in S; try lia;
          destruct (N.leb_spec 97 x), (N.leb_spec x 122), (N.leb_spec 65 x), (N.leb_spec x 90); cbn [andb] in S; try (now apply S); try lia;
          match type of S with context [?d <? 10] => destruct (N.ltb_spec d 10); [lia|now apply S] end. }
      destruct (max64 <? v), n; cbv beta iota; destruct r; try reflexivity; now elim R.
    - constructor; [|constructor]. split; [exact M|]. now destruct t. }
  destruct toks as [|t0 toks0]; [destruct I|]. generalize dependent (t0 :: toks0). intros toks _ I. revert l.
  induction toks as [|u toks IH]; intros l; [destruct I|]. cbn [parse_cpu_tokens]. destruct I as [->|I]; [now rewrite B|].
  destruct (parse_cpu_token u); cbn [obind]; try discriminate. specialize (IH I). destruct (parse_cpu_tokens toks) as [r| | | |]; cbn [obind]; try discriminate.
  now elim (IH r).
Qed.
Print Assumptions C10_no_number.
Example C10_no_number_met : parse_cpu_numbers (join 44 [str "1"; str "2x"; str "3"]) = Fail.
Proof. vm_compute. reflexivity. Qed.

(** *** A pair of characters of which the second is no hexadecimal digit is refused, where
    the array has room for it. *)
Theorem C09_refused a x b before after arr :
  List.length before = (2 * a)%nat -> (a < List.length arr)%nat ->
  x <> 0 -> b <> 0 -> ~ (48 <= b <= 57 \/ 65 <= b <= 70 \/ 97 <= b <= 102) ->
  fst (hex_to_raw (before ++ x :: b :: after) arr) = false.
Proof.
  intros L A X0 B0 B. revert before arr L A. induction a as [|a IH]; intros before arr L A.
  - destruct before; [|discriminate L]. destruct arr as [|y arr]; [cbn in A; lia|]. cbn [app hex_to_raw].
    unfold strtol. rewrite c_str_id by (cbn; intuition). destruct (strto 16 [x; b]) as [[n v] r] eqn:S.
    assert (R : r <> []).
    { intros ->. apply (strto_end 16 [x] b) in S. unfold digit_val in S.
      destruct (N.leb_spec 48 b), (N.leb_spec b 57); cbn [andb] in S; try (exfalso; lia);
        destruct (N.leb_spec 97 b), (N.leb_spec b 122), (N.leb_spec 65 b), (N.leb_spec b 90); cbn [andb] in S; try (now apply S); try lia;
        match type of S with context [?d <? 16] => destruct (N.ltb_spec d 16); [exfalso; lia|now apply S] end. }
    destruct n; cbv beta iota zeta; destruct r; try reflexivity; now elim R.
  - destruct before as [|c [|d before]]; try (cbn in L; lia). destruct arr as [|y arr]; [cbn in A; lia|]. cbn [app hex_to_raw].
    destruct (strtol 16 (c_str [c; d])) as [v e]. destruct e; [|reflexivity].
    assert (E : fst (hex_to_raw (before ++ x :: b :: after) arr) = false) by (apply IH; cbn in *; lia).
    destruct (hex_to_raw (before ++ x :: b :: after) arr). exact E.
Qed.
Print Assumptions C09_refused.
Example C09_refused_met : hex_to_raw (str "12" ++ 51 :: 103 :: str "56") [0; 0; 0] = (false, [18; 3; 0]).
Proof. vm_compute. reflexivity. Qed.

(** *** The blanks that TrimWhitespace (C46_trim_whitespace) removes. *)
Theorem C46_blanks c : is_trim_ws c = true <-> In c [32; 9; 10; 13].
Proof.
  unfold is_trim_ws. rewrite !orb_true_iff, !N.eqb_eq. cbn. intuition.
Qed.
Print Assumptions C46_blanks.
