From Coq Require Import String.
From Verif Require Import Base BytesModel BytesProofs TextModel TextSpec.
Local Open Scope N_scope.
Local Open Scope list_scope.

(** ** Hex *)
Lemma hex_pair_sweep :
  forallb (fun i => let b := N.of_nat i in
     match strtol 16 (c_str [hex_digit (b / 16); hex_digit (b mod 16)]) with
     | (v, []) => (Z.to_N (v mod 256)%Z =? b)
     | _ => false
     end && (is_lower_hex (hex_digit (b / 16)) && is_lower_hex (hex_digit (b mod 16))))
    (seq 0 256) = true.
Proof. vm_compute. reflexivity. Qed.

Lemma hex_pair b : b < 256 ->
  (exists v, strtol 16 (c_str [hex_digit (b / 16); hex_digit (b mod 16)]) = (v, []) /\
             Z.to_N (v mod 256)%Z = b) /\
  is_lower_hex (hex_digit (b / 16)) = true /\ is_lower_hex (hex_digit (b mod 16)) = true.
Proof.
  intros Hb. assert (H := hex_pair_sweep). rewrite forallb_forall in H.
  specialize (H (N.to_nat b)). rewrite in_seq in H. specialize (H ltac:(lia)).
  cbv zeta in H. rewrite N2Nat.id in H.
  destruct (strtol 16 _) as [v [|c r]]; [|discriminate].
  apply andb_prop in H as [H1 H2]. apply andb_prop in H2 as [H2 H3].
  split; [exists v; split; [reflexivity|lia]|auto].
Qed.

Lemma hex_roundtrip_gen d arr :
  bytes_ok d = true ->
  hex_to_raw (raw_to_hex d) arr =
    (true, firstn (List.length arr) d ++ skipn (List.length d) arr).
Proof.
  revert arr; induction d as [|b d IH]; intros arr Hd.
  { cbn. now rewrite firstn_nil. }
  cbn [bytes_ok forallb] in Hd. apply andb_prop in Hd as [Hb Hd].
  unfold byte_ok in Hb. apply N.ltb_lt in Hb.
  destruct arr as [|x arr].
  { cbn [List.length firstn skipn app]. cbn. reflexivity. }
  cbn [raw_to_hex flat_map app hex_to_raw].
  destruct (hex_pair b Hb) as [(v & E & Ev) _]. rewrite E.
  fold (raw_to_hex d). rewrite (IH arr Hd). rewrite Ev. reflexivity.
Qed.

Lemma hex_length d : List.length (raw_to_hex d) = (2 * List.length d)%nat.
Proof. induction d as [|b d IH]; [reflexivity|]. cbn [raw_to_hex flat_map app List.length] in *. unfold raw_to_hex in IH. lia. Qed.

Lemma hex_digits d : bytes_ok d = true -> forallb is_lower_hex (raw_to_hex d) = true.
Proof.
  induction d as [|b d IH]; intros Hd; [reflexivity|].
  cbn [bytes_ok forallb] in Hd. apply andb_prop in Hd as [Hb Hd].
  unfold byte_ok in Hb. apply N.ltb_lt in Hb.
  destruct (hex_pair b Hb) as [_ [H1 H2]].
  cbn [raw_to_hex flat_map app forallb]. rewrite H1, H2. apply IH. exact Hd.
Qed.

Lemma hex_injective d d' :
  bytes_ok d = true -> bytes_ok d' = true -> raw_to_hex d = raw_to_hex d' -> d = d'.
Proof.
  intros Hd Hd' E.
  assert (L : List.length d = List.length d').
  { assert (H := hex_length d). rewrite E, hex_length in H. lia. }
  assert (H := hex_roundtrip_gen d d Hd). rewrite E, hex_roundtrip_gen in H by auto.
  assert (H' : firstn (List.length d) d' ++ skipn (List.length d') d =
               firstn (List.length d) d ++ skipn (List.length d) d) by congruence.
  rewrite L in H' at 1. rewrite <- L in H' at 1.
  rewrite firstn_skipn in H'.
  rewrite firstn_all2 in H' by lia. rewrite skipn_all2 in H' by lia.
  rewrite app_nil_r in H'. congruence.
Qed.

(** ** Decimal *)
Definition is_digit (c : N) : bool := (48 <=? c) && (c <=? 57).

Lemma dec_go_digits f n : forallb is_digit (dec_go f n) = true.
Proof.
  revert n; induction f as [|f IH]; intros n; [reflexivity|]. cbn [dec_go].
  destruct (N.ltb_spec n 10).
  - cbn [forallb]. unfold is_digit. lia.
  - rewrite forallb_app, IH. cbn [forallb]. unfold is_digit. lia.
Qed.

Lemma parse_digits_app base acc a b :
  (forall c, In c a -> exists d, digit_val base c = Some d) ->
  parse_digits base acc (a ++ b) =
    let '(v, k, rest) := parse_digits base acc a in
    let '(v', k', rest') := parse_digits base v b in
    (v', (k + k')%nat, rest').
Proof.
  revert acc; induction a as [|c a IH]; intros acc H.
  { cbn. destruct (parse_digits base acc b) as [[? ?] ?]. reflexivity. }
  cbn [app parse_digits]. destruct (H c (or_introl eq_refl)) as [d ->].
  rewrite IH by (intros; apply H; right; assumption).
  destruct (parse_digits base (acc * base + d) a) as [[v k] rest].
  destruct (parse_digits base v b) as [[v' k'] rest']. reflexivity.
Qed.

Lemma digit_val_digit d : d < 10 -> digit_val 10 (48 + d) = Some d.
Proof.
  intros H. unfold digit_val.
  destruct (N.leb_spec 48 (48 + d)); [|lia]. destruct (N.leb_spec (48 + d) 57); [|lia].
  cbn [andb]. replace (48 + d - 48) with d by lia. destruct (N.ltb_spec d 10); [reflexivity|lia].
Qed.

Lemma is_digit_val c : is_digit c = true -> exists d, digit_val 10 c = Some d.
Proof.
  unfold is_digit. intros H. exists (c - 48).
  replace c with (48 + (c - 48)) at 1 by lia. apply digit_val_digit. lia.
Qed.

Lemma dec_go_parse f n :
  n < 2 ^ N.of_nat f ->
  parse_digits 10 0 (dec_go f n) = (n, List.length (dec_go f n), []).
Proof.
  revert n; induction f as [|f IH]; intros n H.
  { cbn in *. replace n with 0 by lia. reflexivity. }
  cbn [dec_go]. destruct (N.ltb_spec n 10) as [Hn|Hn].
  - cbn [parse_digits]. rewrite digit_val_digit by lia.
    replace (0 * 10 + n) with n by lia. reflexivity.
  - rewrite Nat2N.inj_succ, N.pow_succ_r' in H.
    assert (Hq : n / 10 < 2 ^ N.of_nat f) by (apply N.div_lt_upper_bound; lia).
    rewrite parse_digits_app.
    + rewrite (IH _ Hq). cbn [parse_digits].
      assert (Hm : n mod 10 < 10) by (apply N.mod_lt; lia).
      rewrite digit_val_digit by exact Hm.
      rewrite app_length. cbn [List.length]. f_equal. f_equal. lia.
    + intros c Hc. apply is_digit_val.
      assert (D := dec_go_digits f (n / 10)). rewrite forallb_forall in D. auto.
Qed.

Lemma dec_go_nonempty f n : dec_go (S f) n <> [].
Proof. cbn [dec_go]. destruct (n <? 10); [discriminate|]. now destruct (dec_go f (n / 10)). Qed.

Lemma size_nat_bound n : n < 2 ^ N.of_nat (S (N.size_nat n)).
Proof.
  assert (H := N.size_gt n). assert (E : N.of_nat (N.size_nat n) = N.size n).
  { clear H. destruct n as [|p]; [reflexivity|]. cbn [N.size_nat N.size].
    induction p as [p IH|p IH|]; cbn [Pos.size_nat Pos.size]; lia. }
  rewrite Nat2N.inj_succ, N.pow_succ_r', E. lia.
Qed.

Lemma print_dec_parse n :
  parse_digits 10 0 (print_dec n) = (n, List.length (print_dec n), []).
Proof. apply dec_go_parse, size_nat_bound. Qed.

Lemma print_dec_cons n : exists c r, print_dec n = c :: r /\ is_digit c = true.
Proof.
  unfold print_dec. assert (H := dec_go_nonempty (N.size_nat n) n).
  assert (D := dec_go_digits (S (N.size_nat n)) n).
  destruct (dec_go (S (N.size_nat n)) n) as [|c r]; [contradiction|].
  cbn [forallb] in D. apply andb_prop in D as [D _]. eauto.
Qed.

Lemma print_dec_digits n c : In c (print_dec n) -> is_digit c = true.
Proof. assert (D := dec_go_digits (S (N.size_nat n)) n). rewrite forallb_forall in D. apply D. Qed.

Lemma c_str_id s : ~ In 0 s -> c_str s = s.
Proof.
  induction s as [|c s IH]; intros H; [reflexivity|]. cbn [c_str].
  destruct (N.eqb_spec c 0); [subst; exfalso; apply H; left; reflexivity|].
  rewrite IH; [reflexivity|]. intros Hc; apply H; right; exact Hc.
Qed.

Lemma strto_print_dec n : strto 10 (print_dec n) = (false, n, []).
Proof.
  assert (P := print_dec_parse n).
  destruct (print_dec_cons n) as (c & r & E & D). rewrite E in *.
  unfold strto. unfold is_digit in D.
  assert (S1 : skip_spaces (c :: r) = c :: r).
  { cbn [skip_spaces]. unfold is_space.
    replace (((9 <=? c) && (c <=? 13)) || (c =? 32)) with false by lia. reflexivity. }
  rewrite S1. replace (c =? 45) with false by lia. replace (c =? 43) with false by lia.
  assert (S3 : match c :: r with
    | z :: x :: d :: r' =>
        if (10 =? 16) && (z =? 48) && ((x =? 120) || (x =? 88))
           && match digit_val 16 d with Some _ => true | None => false end
        then d :: r' else c :: r
    | _ => c :: r
    end = c :: r) by (destruct r as [|x [|d r']]; reflexivity).
  rewrite S3, P. cbn [List.length]. reflexivity.
Qed.

Lemma stou32_print_dec n : n < two32 -> stou32 (print_dec n) = Some n.
Proof.
  intros H. unfold stou32, strtoul. rewrite c_str_id.
  2:{ intros Hc. apply print_dec_digits in Hc. discriminate. }
  rewrite strto_print_dec. unfold max64, two32 in *.
  destruct (N.ltb_spec 18446744073709551615 n); [lia|].
  unfold w32, two32. now rewrite N.mod_small.
Qed.

(** ** Splitting *)
Lemma split_go_token d cur t s :
  ~ In d t ->
  split_go d cur (t ++ d :: s) = (rev cur ++ t) :: split_go d [] s.
Proof.
  revert cur; induction t as [|c t IH]; intros cur H; cbn [app split_go].
  - rewrite N.eqb_refl. now rewrite app_nil_r.
  - destruct (N.eqb_spec c d); [subst; exfalso; apply H; left; reflexivity|].
    rewrite IH by (intros Hc; apply H; right; exact Hc).
    cbn [rev]. now rewrite <- app_assoc.
Qed.

Lemma split_go_last d cur t :
  ~ In d t -> rev cur ++ t <> [] -> split_go d cur t = [rev cur ++ t].
Proof.
  revert cur; induction t as [|c t IH]; intros cur H Hne; cbn [app split_go].
  - rewrite app_nil_r in *. destruct cur; [contradiction|reflexivity].
  - destruct (N.eqb_spec c d); [subst; exfalso; apply H; left; reflexivity|].
    rewrite IH.
    + cbn [rev]. now rewrite <- app_assoc.
    + intros Hc; apply H; right; exact Hc.
    + cbn [rev]. rewrite <- app_assoc. cbn [app]. now destruct (rev cur).
Qed.

Lemma split_join d toks :
  Forall (fun t => ~ In d t /\ t <> []) toks ->
  split_string (join d toks) d = toks.
Proof.
  unfold split_string. induction toks as [|t toks IH]; intros H; [reflexivity|].
  inversion H as [|? ? [H1 H2] H3]; subst.
  cbn [join]. destruct toks as [|t2 toks].
  - now rewrite split_go_last.
  - rewrite split_go_token by exact H1. cbn [rev app]. f_equal. apply IH. exact H3.
Qed.

(** Tokens never contain the delimiter, and they rebuild the input up to one
    trailing delimiter. *)
Lemma split_go_spec d cur s :
  ~ In d cur ->
  (Forall (fun t => ~ In d t) (split_go d cur s)) /\
  (rev cur ++ s = join d (split_go d cur s) \/
   rev cur ++ s = join d (split_go d cur s) ++ [d]).
Proof.
  revert cur; induction s as [|c s IH]; intros cur H; cbn [split_go].
  - destruct cur as [|x cur].
    + split; [constructor|left; reflexivity].
    + split.
      * constructor; [|constructor]. intros Hin. apply H. now apply in_rev.
      * left. cbn [join]. now rewrite app_nil_r.
  - destruct (N.eqb_spec c d) as [->|Hc].
    + destruct (IH [] (fun x => x)) as [F J]. cbn [rev app] in J. split.
      * constructor; [|exact F]. intros Hin. apply H. now apply in_rev.
      * destruct (split_go d [] s) as [|t r] eqn:E.
        -- cbn [join] in *. destruct s as [|x s]; [right; reflexivity|].
           exfalso. destruct J as [J|J]; [discriminate|].
           cbn [app] in J. injection J as -> ->. cbn [split_go] in E.
           rewrite N.eqb_refl in E. discriminate.
        -- cbn [join] in *. destruct r as [|t2 r].
           ++ destruct J as [->| ->]; [left|right]; rewrite <- ?app_assoc; reflexivity.
           ++ destruct J as [->| ->]; [left|right]; rewrite <- ?app_assoc; cbn [app];
                rewrite <- ?app_assoc; reflexivity.
    + destruct (IH (c :: cur)) as [F J]; [intros [->|Hin]; auto|].
      split; [exact F|]. cbn [rev] in J. rewrite <- app_assoc in J. exact J.
Qed.

(** ** CPU lists *)
Lemma strictly_increasing_cons a l :
  strictly_increasing (a :: l) = true ->
  strictly_increasing l = true /\ (forall x, In x l -> a < x).
Proof.
  revert a; induction l as [|b l IH]; intros a H; [split; [reflexivity|intros ? []]|].
  cbn [strictly_increasing] in H. apply andb_prop in H as [H1 H2].
  split; [exact H2|]. intros x [<-|Hx]; [lia|].
  destruct (IH b H2) as [_ H3]. specialize (H3 x Hx). lia.
Qed.

Definition upto (s : N) (k : nat) : list N := map (fun i => s + N.of_nat i) (seq 0 k).

Lemma upto_S s k : upto s (S k) = s :: upto (s + 1) k.
Proof.
  unfold upto. cbn [seq map]. f_equal; [lia|].
  rewrite <- seq_shift, map_map. apply map_ext. intros; lia.
Qed.

Lemma cpu_run_spec x l :
  strictly_increasing (x :: l) = true -> (forall y, In y (x :: l) -> y < max32) ->
  let '(last, k, rest) := cpu_run x l in
  x :: l = upto x (S k) ++ rest /\ last = x + N.of_nat k /\
  (List.length rest <= List.length l)%nat /\
  strictly_increasing rest = true /\ (forall y, In y rest -> y < max32) /\ last < max32.
Proof.
  revert x; induction l as [|b l IH]; intros x Hs Hb; cbn [cpu_run].
  { split; [cbn [upto seq map app]; f_equal; lia|]. repeat split; auto; try lia.
    - intros ? [].
    - apply Hb; left; reflexivity. }
  assert (Hx : x < max32) by (apply Hb; left; reflexivity).
  assert (Hbb : b < max32) by (apply Hb; right; left; reflexivity).
  destruct (strictly_increasing_cons x (b :: l) Hs) as [Hs' Hlt].
  assert (x < b) by (apply Hlt; left; reflexivity).
  unfold w32. rewrite N.mod_small by (unfold max32, two32 in *; lia).
  destruct (N.ltb_spec (x + 1) b) as [Hc|Hc].
  - split; [cbn [upto seq map app]; f_equal; lia|]. repeat split; auto; try lia.
    intros y Hy; apply Hb; right; exact Hy.
  - assert (b = x + 1) by lia. subst b.
    specialize (IH (x + 1) Hs' (fun y Hy => Hb y (or_intror Hy))).
    destruct (cpu_run (x + 1) l) as [[last k] rest].
    destruct IH as (E & El & Hl & Hr & Hr2 & Hr3).
    split; [rewrite (upto_S x (S k)), E; reflexivity|].
    cbn [List.length]. repeat split; auto; lia.
Qed.

Fixpoint cpu_tokens (fuel : nat) (l : list N) : list (list N) :=
  match fuel, l with
  | S f, x :: r =>
      let '(last, k, rest) := cpu_run x r in
      (match k with O => print_dec x | S _ => print_dec x ++ [45] ++ print_dec last end)
      :: cpu_tokens f rest
  | _, _ => []
  end.

Lemma format_tokens fuel l first :
  (List.length l <= fuel)%nat -> strictly_increasing l = true ->
  (forall y, In y l -> y < max32) ->
  format_cpu_go fuel first l =
    (if first then [] else match l with [] => [] | _ => [44] end) ++ join 44 (cpu_tokens fuel l).
Proof.
  revert l first; induction fuel as [|f IH]; intros l first Hf Hs Hb.
  { destruct l; [destruct first; reflexivity|cbn in Hf; lia]. }
  destruct l as [|x r]; [destruct first; reflexivity|].
  cbn [format_cpu_go cpu_tokens].
  assert (H := cpu_run_spec x r Hs Hb). destruct (cpu_run x r) as [[last k] rest].
  destruct H as (E & El & Hl & Hr & Hr2 & Hr3).
  cbn [List.length] in Hf. rewrite (IH rest false) by (auto; lia).
  apply (f_equal2 (@app N)); [destruct first; reflexivity|].
  set (t := match k with O => print_dec x | S _ => print_dec x ++ [45] ++ print_dec last end).
  cbn [join]. destruct rest as [|y rest].
  - destruct f; cbn [cpu_tokens join app]; now rewrite app_nil_r.
  - destruct f as [|f]; [cbn in *; lia|].
    cbn [cpu_tokens]. destruct (cpu_run y rest) as [[last2 k2] rest2]. cbn [app]. reflexivity.
Qed.

Lemma parse_token_single x : x < max32 -> parse_cpu_token (print_dec x) = Ok [x].
Proof.
  intros H. unfold parse_cpu_token.
  assert (E : split_string (print_dec x) 45 = [print_dec x]).
  { change (print_dec x) with (join 45 [print_dec x]) at 1. apply split_join.
    constructor; [|constructor]. split.
    - intros Hc. apply print_dec_digits in Hc. discriminate.
    - destruct (print_dec_cons x) as (c & r & -> & _). discriminate. }
  rewrite E, stou32_print_dec by (unfold max32, two32 in *; lia). reflexivity.
Qed.

Lemma parse_token_range x y :
  x < y -> y < max32 ->
  parse_cpu_token (print_dec x ++ [45] ++ print_dec y) = Ok (upto x (S (N.to_nat (y - x)))).
Proof.
  intros Hxy Hy. unfold parse_cpu_token.
  assert (E : split_string (print_dec x ++ [45] ++ print_dec y) 45 = [print_dec x; print_dec y]).
  { change (print_dec x ++ [45] ++ print_dec y) with (join 45 [print_dec x; print_dec y]).
    apply split_join. repeat constructor.
    - intros Hc. apply print_dec_digits in Hc. discriminate.
    - destruct (print_dec_cons x) as (c & r & -> & _). discriminate.
    - intros Hc. apply print_dec_digits in Hc. discriminate.
    - destruct (print_dec_cons y) as (c & r & -> & _). discriminate. }
  unfold max32 in *. rewrite E, !stou32_print_dec by (unfold two32; lia).
  destruct (N.leb_spec y x); [lia|].
  unfold cpu_range, max32. destruct (N.eqb_spec y 4294967295); [lia|].
  unfold upto. do 3 f_equal. lia.
Qed.

Lemma cpu_tokens_parse fuel l :
  (List.length l <= fuel)%nat -> strictly_increasing l = true ->
  (forall y, In y l -> y < max32) ->
  parse_cpu_tokens (cpu_tokens fuel l) = Ok l /\
  Forall (fun t => ~ In 44 t /\ t <> []) (cpu_tokens fuel l).
Proof.
  revert l; induction fuel as [|f IH]; intros l Hf Hs Hb.
  { destruct l; [split; [reflexivity|constructor]|cbn in Hf; lia]. }
  destruct l as [|x r]; [split; [reflexivity|constructor]|].
  cbn [cpu_tokens].
  assert (H := cpu_run_spec x r Hs Hb). destruct (cpu_run x r) as [[last k] rest].
  destruct H as (E & El & Hl & Hr & Hr2 & Hr3). cbn [List.length] in Hf.
  destruct (IH rest) as [IH1 IH2]; auto; [lia|].
  split.
  - cbn [parse_cpu_tokens]. rewrite IH1, E.
    destruct k as [|k].
    + rewrite parse_token_single; [|apply Hb; left; reflexivity].
      cbn [obind app upto seq map]. do 2 f_equal. lia.
    + rewrite parse_token_range by lia. cbn [obind].
      replace (N.to_nat (last - x)) with (S k) by lia. reflexivity.
  - constructor; [|exact IH2]. destruct k as [|k].
    + split; [intros Hc; apply print_dec_digits in Hc; discriminate|].
      destruct (print_dec_cons x) as (c & t & -> & _). discriminate.
    + split.
      * rewrite !in_app_iff. intros [Hc|[Hc|Hc]].
        -- apply print_dec_digits in Hc; discriminate.
        -- destruct Hc as [Hc|[]]; discriminate.
        -- apply print_dec_digits in Hc; discriminate.
      * destruct (print_dec_cons x) as (c & t & -> & _). discriminate.
Qed.

Lemma cpu_roundtrip l :
  l <> [] -> strictly_increasing l = true -> (forall y, In y l -> y < max32) ->
  parse_cpu_numbers (format_cpu_numbers l) = Ok l.
Proof.
  intros Hne Hs Hb. unfold parse_cpu_numbers, format_cpu_numbers.
  rewrite format_tokens by auto. cbn [app].
  destruct (cpu_tokens_parse (List.length l) l) as [H1 H2]; auto.
  rewrite split_join by exact H2.
  destruct (cpu_tokens (List.length l) l) as [|t ts] eqn:E; [|exact H1].
  cbn in H1. congruence.
Qed.

(** ** Trim *)
Lemma drop_ws_spec s :
  exists w, s = w ++ drop_ws s /\ forallb is_trim_ws w = true /\
    match drop_ws s with c :: _ => is_trim_ws c = false | [] => True end.
Proof.
  induction s as [|c s IH]; [exists []; cbn; auto|].
  destruct IH as (w & E & Hw & Hd). cbn [drop_ws]. destruct (is_trim_ws c) eqn:Ec.
  - exists (c :: w). cbn [app forallb]. rewrite Ec. repeat split; auto. now rewrite <- E.
  - exists []. repeat split; auto.
Qed.

Lemma trim_whitespace_spec s :
  exists a b, s = a ++ trim_whitespace s ++ b /\
    forallb is_trim_ws a = true /\ forallb is_trim_ws b = true /\
    (forall c t, trim_whitespace s = c :: t -> is_trim_ws c = false) /\
    (forall c t, trim_whitespace s = t ++ [c] -> is_trim_ws c = false).
Proof.
  unfold trim_whitespace.
  destruct (drop_ws_spec (rev s)) as (wb & E1 & Hb & D1).
  set (u := drop_ws (rev s)) in *.
  destruct (drop_ws_spec (rev u)) as (wa & E2 & Ha & D2).
  set (t := drop_ws (rev u)) in *.
  exists wa, (rev wb). repeat split.
  - rewrite <- (rev_involutive s), E1, rev_app_distr, E2, <- app_assoc. reflexivity.
  - exact Ha.
  - rewrite forallb_forall in *. intros x Hx. apply Hb. now apply in_rev.
  - intros c r Er. rewrite Er in D2. exact D2.
  - intros c r Er. rewrite Er in E2.
    assert (E3 : u = c :: rev (wa ++ r)).
    { rewrite <- (rev_involutive u), E2, app_assoc, rev_app_distr. reflexivity. }
    rewrite E3 in D1. exact D1.
Qed.

(** ** Build ids *)
Lemma list_eqb_spec a b : list_eqb a b = true <-> a = b.
Proof.
  revert b; induction a as [|x a IH]; intros [|y b]; cbn [list_eqb];
    try (split; [discriminate|discriminate]); [split; reflexivity|].
  rewrite andb_true_iff, IH, N.eqb_eq. split; [intros [-> ->]; reflexivity|].
  intros E; inversion E; auto.
Qed.

Lemma perfize_length s : List.length (perfize_build_id s) = 40%nat.
Proof.
  unfold perfize_build_id, resize, build_id_string_length.
  rewrite app_length, firstn_length, repeat_length. lia.
Qed.

Lemma perfize_of_40 s : List.length s = 40%nat -> perfize_build_id s = s.
Proof.
  intros H. unfold perfize_build_id, resize, build_id_string_length.
  rewrite H, Nat.sub_diag. cbn [repeat]. rewrite app_nil_r. apply firstn_all2. lia.
Qed.

Lemma perfize_pad s n :
  (List.length s + n <= 40)%nat -> perfize_build_id (s ++ zeros n) = perfize_build_id s.
Proof.
  intros H. unfold perfize_build_id, resize, build_id_string_length, zeros.
  rewrite firstn_all2 by (rewrite app_length, repeat_length; lia).
  rewrite (firstn_all2 s) by lia.
  rewrite app_length, repeat_length, <- app_assoc, <- repeat_app. do 2 f_equal. lia.
Qed.

Lemma ends_with_padding_spec s :
  ends_with_padding s = true ->
  s = firstn (List.length s - 8) s ++ zeros 8 /\ (8 <= List.length s)%nat.
Proof.
  unfold ends_with_padding. intros H. apply andb_prop in H as [H1 H2].
  apply Nat.leb_le in H1. apply list_eqb_spec in H2. split; [|exact H1].
  change (zeros 8) with (repeat 48 8). rewrite <- H2. symmetry. apply firstn_skipn.
Qed.

Lemma trim_go_spec f s :
  (List.length s <= f)%nat ->
  exists k, s = trim_go f s ++ zeros (8 * k) /\ ends_with_padding (trim_go f s) = false.
Proof.
  revert s; induction f as [|f IH]; intros s Hf.
  { destruct s; [|cbn in Hf; lia]. exists O. split; reflexivity. }
  cbn [trim_go]. destruct (ends_with_padding s) eqn:E.
  - destruct (ends_with_padding_spec s E) as [Es Hl].
    destruct (IH (firstn (List.length s - 8) s)) as (k & E1 & E2).
    { rewrite firstn_length. lia. }
    exists (S k). split; [|exact E2]. rewrite Es at 1. rewrite E1 at 1.
    rewrite <- app_assoc. unfold zeros. rewrite <- repeat_app. do 2 f_equal. lia.
  - exists O. split; [now rewrite app_nil_r|exact E].
Qed.

Lemma trim_spec s :
  exists k, s = trim_zeroes_build_id s ++ zeros (8 * k) /\
            ends_with_padding (trim_zeroes_build_id s) = false.
Proof. apply trim_go_spec. lia. Qed.

Lemma trim_go_fixpoint f s : ends_with_padding s = false -> trim_go f s = s.
Proof. intros H. destruct f; [reflexivity|]. cbn [trim_go]. now rewrite H. Qed.

Lemma trim_idempotent s :
  trim_zeroes_build_id (trim_zeroes_build_id s) = trim_zeroes_build_id s.
Proof. destruct (trim_spec s) as (k & _ & H). now apply trim_go_fixpoint. Qed.

Lemma perfize_trim_perfize s :
  perfize_build_id (trim_zeroes_build_id (perfize_build_id s)) = perfize_build_id s.
Proof.
  destruct (trim_spec (perfize_build_id s)) as (k & E & _).
  set (t := trim_zeroes_build_id (perfize_build_id s)) in *.
  assert (L : (List.length t + 8 * k)%nat = 40%nat).
  { assert (H := perfize_length s). rewrite E, app_length in H. unfold zeros in H.
    rewrite repeat_length in H. exact H. }
  rewrite <- (perfize_pad t (8 * k)) by lia. rewrite <- E.
  apply perfize_of_40, perfize_length.
Qed.

Lemma ends_with_padding_zeros8 t : ends_with_padding (t ++ zeros 8) = true.
Proof.
  unfold ends_with_padding. apply andb_true_intro. split.
  - apply Nat.leb_le. rewrite app_length. unfold zeros. rewrite repeat_length. lia.
  - apply list_eqb_spec. rewrite app_length. unfold zeros at 1. rewrite repeat_length.
    replace (List.length t + 8 - 8)%nat with (List.length t) by lia.
    rewrite skipn_app, skipn_all, Nat.sub_diag. reflexivity.
Qed.

(** ** RootPath *)
Lemma starts_with_spec p s : starts_with p s = true <-> exists t, s = p ++ t.
Proof.
  revert s; induction p as [|x p IH]; intros s; cbn [starts_with app].
  - split; [eauto|reflexivity].
  - destruct s as [|y s].
    + split; [discriminate|intros [t E]; discriminate].
    + rewrite andb_true_iff, IH, N.eqb_eq. split.
      * intros [-> [t ->]]. eauto.
      * intros [t E]. inversion E; subst. eauto.
Qed.

Lemma root_path_prefix f : exists t, f = root_path f ++ t.
Proof.
  unfold root_path.
  destruct (starts_with _ f) eqn:E1; [now apply starts_with_spec|].
  destruct (starts_with (str "/memfd:") f) eqn:E2; [now apply starts_with_spec|].
  destruct (starts_with (str "/tmp/") f) eqn:E3.
  { apply starts_with_spec in E3 as [t ->]. exists (str "/" ++ t). reflexivity. }
  destruct f as [|c r]; [exists []; reflexivity|].
  destruct (c =? 47); [|exists (c :: r); reflexivity].
  cbv zeta. eexists. symmetry. apply firstn_skipn.
Qed.

Definition noslash (a : list N) : Prop := ~ In 47 a.

Lemma count_slashes_app n a t :
  match a ++ t with c :: _ => c <> 47 | [] => True end ->
  count_slashes (repeat 47 n ++ a ++ t) = n.
Proof.
  intros H. induction n as [|n IH]; cbn [repeat app count_slashes].
  - destruct (a ++ t) as [|c r]; [reflexivity|]. cbn [count_slashes].
    destruct (N.eqb_spec c 47); [contradiction|reflexivity].
  - cbn. now rewrite IH.
Qed.

Lemma find_slash_some a t : noslash a -> find_slash (a ++ 47 :: t) = Some (List.length a).
Proof.
  intros H. induction a as [|c a IH]; [reflexivity|]. cbn [app find_slash List.length].
  destruct (N.eqb_spec c 47); [subst; exfalso; apply H; left; reflexivity|].
  rewrite IH; [reflexivity|]. intros Hc; apply H; right; exact Hc.
Qed.

Lemma find_slash_none a : noslash a -> find_slash a = None.
Proof.
  intros H. induction a as [|c a IH]; [reflexivity|]. cbn [find_slash].
  destruct (N.eqb_spec c 47); [subst; exfalso; apply H; left; reflexivity|].
  rewrite IH; [reflexivity|]. intros Hc; apply H; right; exact Hc.
Qed.

Lemma skipn_exact {A} (a b : list A) n : n = List.length a -> skipn n (a ++ b) = b.
Proof. intros ->. rewrite skipn_app, skipn_all, Nat.sub_diag. reflexivity. Qed.
Lemma firstn_exact {A} (a b : list A) n : n = List.length a -> firstn n (a ++ b) = a.
Proof. intros ->. rewrite firstn_app, firstn_all, Nat.sub_diag. cbn. apply app_nil_r. Qed.

Lemma noslash_head a t : noslash a -> a <> [] -> match a ++ t with c :: _ => c <> 47 | [] => True end.
Proof.
  destruct a as [|c a]; [contradiction|]. intros H _ E. apply H. left. exact E.
Qed.

Lemma root_path_generic n r :
  generic_path (repeat 47 (S n) ++ r) -> match r with c :: _ => c <> 47 | [] => True end ->
  root_path (repeat 47 (S n) ++ r) =
    firstn (root_path_loop 2 (repeat 47 (S n) ++ r) (S n) (S n)) (repeat 47 (S n) ++ r).
Proof.
  intros (H1 & H2 & H3) Hr. unfold root_path. rewrite H1, H2, H3. cbn [repeat app].
  change (47 =? 47) with true. cbv iota zeta.
  assert (E : count_slashes (repeat 47 n ++ r) = n).
  { rewrite <- (app_nil_r r). apply count_slashes_app. now rewrite app_nil_r. }
  rewrite E. reflexivity.
Qed.

Lemma count_slashes_head r : match r with c :: _ => c <> 47 | [] => True end -> count_slashes r = O.
Proof. destruct r as [|c r]; [reflexivity|]. intros H. cbn. destruct (N.eqb_spec c 47); [contradiction|reflexivity]. Qed.

Lemma loop_step k pos p m a t :
  a <> [] -> noslash a ->
  root_path_loop (S k) (p ++ repeat 47 m ++ a ++ 47 :: t) pos (List.length p) =
  root_path_loop k (p ++ repeat 47 m ++ a ++ 47 :: t)
    (List.length (p ++ repeat 47 m ++ a)) (List.length (p ++ repeat 47 m ++ a)).
Proof.
  intros Ha Na. cbn [root_path_loop].
  rewrite (skipn_exact p _ (List.length p)) by reflexivity.
  rewrite count_slashes_app by (apply noslash_head; auto).
  rewrite (app_assoc p (repeat 47 m)).
  rewrite (skipn_exact (p ++ repeat 47 m)) by (rewrite app_length, repeat_length; reflexivity).
  rewrite find_slash_some by exact Na.
  replace (List.length p + m + List.length a)%nat with (List.length (p ++ repeat 47 m ++ a))
    by (rewrite !app_length, repeat_length; lia).
  reflexivity.
Qed.

Lemma loop_stop k pos p m a :
  noslash a ->
  root_path_loop (S k) (p ++ repeat 47 m ++ a) pos (List.length p) = pos.
Proof.
  intros Na. cbn [root_path_loop].
  rewrite (skipn_exact p _ (List.length p)) by reflexivity.
  assert (E : count_slashes (repeat 47 m ++ a) = m).
  { rewrite <- (app_nil_r a). apply count_slashes_app. rewrite app_nil_r.
    destruct a as [|c a]; [exact I|]. intros ->. apply Na. left. reflexivity. }
  rewrite E, (app_assoc p (repeat 47 m)).
  rewrite (skipn_exact (p ++ repeat 47 m)) by (rewrite app_length, repeat_length; reflexivity).
  now rewrite find_slash_none.
Qed.

Lemma root_path_two n m a b t :
  generic_path (repeat 47 (S n) ++ a ++ repeat 47 (S m) ++ b ++ 47 :: t) ->
  a <> [] -> b <> [] -> noslash a -> noslash b ->
  root_path (repeat 47 (S n) ++ a ++ repeat 47 (S m) ++ b ++ 47 :: t) =
  repeat 47 (S n) ++ a ++ repeat 47 (S m) ++ b.
Proof.
  intros G Ha Hb Na Nb.
  assert (Hda := noslash_head a (repeat 47 (S m) ++ b ++ 47 :: t) Na Ha).
  rewrite root_path_generic by assumption.
  set (s1 := repeat 47 (S n)) in *.
  assert (L1 : S n = List.length s1) by (unfold s1; now rewrite repeat_length).
  rewrite L1.
  assert (H1 := loop_step 1 (List.length s1) s1 O a (repeat 47 m ++ b ++ 47 :: t) Ha Na).
  cbn [repeat app] in H1. cbn [repeat app]. rewrite H1. clear H1.
  assert (H2 := loop_step 0 (List.length (s1 ++ a)) (s1 ++ a) (S m) b t Hb Nb).
  cbn [repeat app] in H2. rewrite <- !app_assoc in H2. rewrite H2. cbn [root_path_loop].
  change (s1 ++ a ++ 47 :: repeat 47 m ++ b) with (s1 ++ a ++ (repeat 47 (S m)) ++ b).
  replace (s1 ++ a ++ 47 :: repeat 47 m ++ b ++ 47 :: t)
    with ((s1 ++ a ++ repeat 47 (S m) ++ b) ++ 47 :: t).
  - apply firstn_exact. reflexivity.
  - rewrite <- !app_assoc. reflexivity.
Qed.

Lemma root_path_one n m a b :
  generic_path (repeat 47 (S n) ++ a ++ repeat 47 (S m) ++ b) ->
  a <> [] -> noslash a -> noslash b ->
  root_path (repeat 47 (S n) ++ a ++ repeat 47 (S m) ++ b) = repeat 47 (S n) ++ a.
Proof.
  intros G Ha Na Nb.
  assert (Hda := noslash_head a (repeat 47 (S m) ++ b) Na Ha).
  rewrite root_path_generic by assumption.
  set (s1 := repeat 47 (S n)) in *.
  assert (L1 : S n = List.length s1) by (unfold s1; now rewrite repeat_length).
  rewrite L1.
  assert (H1 := loop_step 1 (List.length s1) s1 O a (repeat 47 m ++ b) Ha Na).
  cbn [repeat app] in H1. cbn [repeat app]. rewrite H1. clear H1.
  assert (H2 := loop_stop 0 (List.length (s1 ++ a)) (s1 ++ a) (S m) b Nb).
  cbn [repeat app] in H2. rewrite <- !app_assoc in H2. rewrite H2.
  rewrite app_assoc. now apply firstn_exact.
Qed.

Lemma root_path_zero n a :
  generic_path (repeat 47 (S n) ++ a) -> noslash a ->
  root_path (repeat 47 (S n) ++ a) = repeat 47 (S n).
Proof.
  intros G Na.
  assert (Hda : match a with c :: _ => c <> 47 | [] => True end).
  { destruct a as [|c a]; [exact I|]. intros ->. apply Na. left. reflexivity. }
  rewrite root_path_generic by assumption.
  set (s1 := repeat 47 (S n)) in *.
  assert (L1 : S n = List.length s1) by (unfold s1; now rewrite repeat_length).
  rewrite L1. assert (H2 := loop_stop 1 (List.length s1) s1 O a Na).
  cbn [repeat app] in H2. rewrite H2. now apply firstn_exact.
Qed.
