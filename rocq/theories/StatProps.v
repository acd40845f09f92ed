(** C61: the counts of perf stat. *)
From Verif Require Import Base BytesModel TextModel TextSpec TextProofs OptionProofs StatModel StatSpec.
From Coq Require Import String.
Local Open Scope N_scope.
Local Open Scope list_scope.

Lemma drop_ws_hd s : drop_ws s = [] \/ exists c r, drop_ws s = c :: r /\ is_trim_ws c = false.
Proof.
  induction s as [|c s IH]; cbn [drop_ws]; [now left|].
  destruct (is_trim_ws c) eqn:E; [exact IH|]. right. eauto.
Qed.

Lemma split_nonempty d cur s : cur <> [] -> exists f l, split_go d cur s = f :: l /\ f <> [].
Proof.
  assert (K : forall l : list N, l <> [] -> rev l <> []).
  { intros l H E. apply H. rewrite <- (rev_involutive l), E. reflexivity. }
  revert cur; induction s as [|c s IH]; intros cur N; cbn [split_go].
  - destruct cur as [|x cur]; [easy|]. exists (rev (x :: cur)), []. split; [reflexivity|]. now apply K.
  - destruct (c =? d); [|apply IH; discriminate]. do 2 eexists. split; [reflexivity|]. now apply K.
Qed.
Lemma split_first d c r : (c =? d) = false -> exists f l, split_go d [] (c :: r) = f :: l /\ f <> [].
Proof. intros E. cbn [split_go]. rewrite E. apply split_nonempty. discriminate. Qed.

(** *** C61 No input has undefined behaviour *)
Lemma stat_step_defined to_ms st line : exists st', stat_step to_ms st line = Ok st'.
Proof.
  unfold stat_step. destruct st as [out time].
  unfold trim_whitespace. set (s := rev (drop_ws (rev line))).
  destruct (drop_ws_hd s) as [->|(c & r & -> & W)]; [cbn; eauto|].
  assert (E32 : (c =? 32) = false).
  { unfold is_trim_ws in W. destruct (c =? 32); [discriminate|reflexivity]. }
  unfold split_string. destruct (split_first 32 c r E32) as (f & l0 & -> & K).
  destruct l0 as [|b [|x [|y [|z l]]]]; eauto.
  destruct (rev f) as [|q l] eqn:R.
  { exfalso. apply K. rewrite <- (rev_involutive f), R. reflexivity. }
  destruct (q =? 58).
  - destruct (strtoul 10 (c_str b)) as [n [|]]; [|eauto]. destruct (list_eqb b (str "seconds")); eauto.
  - destruct (list_eqb b (str "seconds")); eauto.
Qed.
Theorem C61_defined to_ms data : (exists l, parse_stat to_ms data = Ok l /\ l <> []) \/ parse_stat to_ms data = Fail.
Proof.
  unfold parse_stat. generalize (@nil stat_line, 0). induction (split_string data 10) as [|x l IH]; intros st; cbn [stat_loop obind].
  - destruct st as [out time]. destruct (time =? 0); destruct out as [|a out]; cbn [map]; try (now right);
      left; eexists; (split; [reflexivity|discriminate]).
  - destruct (stat_step_defined to_ms st x) as [st' ->]. cbn [obind]. apply IH.
Qed.
Print Assumptions C61_defined.

(** *** Lines *)
Lemma word_no d t : is_trim_ws d = true -> word t -> ~ In d t.
Proof. intros D [_ F] I. rewrite Forall_forall in F. rewrite (F _ I) in D. discriminate. Qed.

Lemma drop_ws_indent i t : indent i -> drop_ws (i ++ t) = drop_ws t.
Proof.
  intros F. induction F as [|c i H F IH]; [reflexivity|]. cbn [app drop_ws].
  destruct H as [->|[->| ->]]; exact IH.
Qed.
Lemma drop_ws_same c t : is_trim_ws c = false -> drop_ws (c :: t) = c :: t.
Proof. intros H. cbn [drop_ws]. now rewrite H. Qed.

Lemma trim_line i c t e : indent i -> is_trim_ws c = false -> is_trim_ws e = false ->
  trim_whitespace (i ++ (c :: t) ++ [e]) = (c :: t) ++ [e].
Proof.
  intros F C E. unfold trim_whitespace. rewrite app_assoc, rev_app_distr. cbn [rev app].
  rewrite drop_ws_same by exact E. cbn [rev]. rewrite rev_involutive, <- app_assoc, drop_ws_indent by exact F.
  now apply drop_ws_same.
Qed.
Lemma trim_line1 i c : indent i -> is_trim_ws c = false -> trim_whitespace (i ++ [c]) = [c].
Proof.
  intros F C. unfold trim_whitespace. rewrite rev_app_distr. cbn [rev app]. rewrite drop_ws_same by exact C.
  cbn [rev]. rewrite rev_involutive, drop_ws_indent by exact F. now apply drop_ws_same.
Qed.
Lemma trim_any i t : indent i -> t <> [] -> is_trim_ws (hd 32 t) = false -> is_trim_ws (last t 32) = false ->
  trim_whitespace (i ++ t) = t.
Proof.
  intros F N H L. destruct t as [|c t]; [easy|]. cbn [hd] in H.
  destruct t as [|x t].
  - now apply trim_line1.
  - destruct (@exists_last _ (x :: t) (fun E => nil_cons (eq_sym E))) as (u & e & E). rewrite E in *.
    change (c :: u ++ [e]) with ((c :: u) ++ [e]) in *. apply trim_line; [exact F|exact H|].
    rewrite last_last in L. exact L.
Qed.
Lemma trim_blank i : indent i -> trim_whitespace i = [].
Proof.
  intros F. unfold trim_whitespace.
  assert (E : drop_ws (rev i) = []).
  { assert (G : indent (rev i)) by (apply Forall_rev; exact F).
    rewrite <- (app_nil_r (rev i)), drop_ws_indent by exact G. reflexivity. }
  rewrite E. reflexivity.
Qed.

Lemma last_app_ne {A} (a b : list A) d : b <> [] -> last (a ++ b) d = last b d.
Proof.
  intros H. destruct (@exists_last _ b H) as (u & e & ->). rewrite app_assoc, !last_last. reflexivity.
Qed.
Lemma word_hd t d : word t -> is_trim_ws (hd d t) = false.
Proof. intros [N F]. destruct t; [easy|]. now inversion F. Qed.
Lemma word_last t d : word t -> is_trim_ws (last t d) = false.
Proof.
  intros [N F]. destruct (@exists_last _ t N) as (u & e & ->). rewrite last_last.
  apply Forall_app in F. destruct F as [_ F]. now inversion F.
Qed.

Lemma four_tokens i a b c d : indent i -> word a -> word b -> word c -> word d ->
  split_string (trim_whitespace (i ++ a ++ [32] ++ b ++ [32] ++ c ++ [32] ++ d)) 32 = [a; b; c; d].
Proof.
  intros F A B C D. rewrite trim_any.
  - change (a ++ [32] ++ b ++ [32] ++ c ++ [32] ++ d) with (join 32 [a; b; c; d]). apply split_join.
    repeat constructor; try (now apply word_no); (apply A || apply B || apply C || apply D).
  - exact F.
  - destruct A as [A _]. now destruct a.
  - destruct a as [|x a]; [destruct A; easy|]. cbn [app hd]. now apply (word_hd (x :: a) 32).
  - rewrite (last_app_ne a), (last_app_ne [32]), (last_app_ne b), (last_app_ne [32]), (last_app_ne c), (last_app_ne [32]);
      first [now apply word_last|apply D|discriminate|destruct c; discriminate|destruct b; discriminate].
Qed.

Lemma split_count cur t : (cur <> [] \/ t <> []) -> last (rev cur ++ t) 0 <> 32 ->
  List.length (split_go 32 cur t) = S (blanks t).
Proof.
  revert cur; induction t as [|c t IH]; intros cur N L; cbn [split_go].
  - destruct N as [N|N]; [|easy]. destruct cur; [easy|reflexivity].
  - unfold blanks. cbn [filter]. rewrite (N.eqb_sym 32 c). destruct (c =? 32) eqn:E.
    + cbn [List.length]. f_equal. apply (IH []).
      * right. intros ->. apply N.eqb_eq in E. subst c. rewrite last_last in L. now apply L.
      * cbn [rev app]. destruct t as [|x t]; [cbn; discriminate|].
        change (c :: x :: t) with ([c] ++ x :: t) in L. rewrite app_assoc, last_app_ne in L by discriminate. exact L.
    + apply IH; [left; discriminate|]. cbn [rev]. rewrite <- app_assoc. exact L.
Qed.

(** *** C61 The counts that perf stat prints are the counts of the message *)
Lemma one_line to_ms out time i p : indent i -> printable p ->
  stat_step to_ms (out, time) (i ++ line_text p) =
  Ok (out ++ map (fun x => mkStatLine (fst x) (snd x) None) (counts [p]),
      match p with PTime s => match to_ms s with Some x => x | None => 0 end | _ => time end).
Proof.
  intros F P. unfold stat_step. destruct p as [name count x y|s|a b c d|t]; cbn [printable line_text counts flat_map] in *.
  - destruct P as (W & L & X & Y).
    assert (Wd : word (print_dec count)).
    { split; [destruct (print_dec_cons count) as (q & r & -> & _); discriminate|]. apply Forall_forall. intros q I.
      apply print_dec_digits in I. unfold is_digit in I. unfold is_trim_ws.
      apply andb_true_iff in I. destruct I as [I1 I2]. apply N.leb_le in I1, I2.
      destruct (N.eqb_spec q 32); [lia|]. destruct (N.eqb_spec q 9); [lia|]. destruct (N.eqb_spec q 10); [lia|].
      destruct (N.eqb_spec q 13); [lia|]. reflexivity. }
    assert (Wn : word (name ++ [58])).
    { split; [destruct name; discriminate|]. apply Forall_app. split; [apply W|]. repeat constructor. }
    change (name ++ str ": " ++ print_dec count ++ [32] ++ x ++ [32] ++ y)
      with (name ++ [58; 32] ++ print_dec count ++ [32] ++ x ++ [32] ++ y).
    replace (name ++ [58; 32] ++ print_dec count ++ [32] ++ x ++ [32] ++ y)
      with ((name ++ [58]) ++ [32] ++ print_dec count ++ [32] ++ x ++ [32] ++ y) by (now rewrite <- app_assoc).
    rewrite (four_tokens i (name ++ [58]) (print_dec count) x y F Wn Wd X Y). rewrite rev_app_distr.
    change (rev [58] ++ rev name) with (58 :: rev name). cbn [N.eqb Pos.eqb].
    assert (Cs : c_str (print_dec count) = print_dec count).
    { apply c_str_id. intros I. apply print_dec_digits in I. discriminate. }
    unfold strtoul. rewrite Cs, strto_print_dec.
    assert (Lm : (max64 <? count) = false) by (apply N.ltb_ge; unfold max64, two64 in *; lia). rewrite Lm.
    assert (Es : list_eqb (print_dec count) (str "seconds") = false).
    { destruct (print_dec_cons count) as (q & r & -> & Q). change (str "seconds") with (115 :: str "econds").
      cbn [list_eqb]. destruct (N.eqb_spec q 115); [subst; discriminate|reflexivity]. }
    rewrite Es, removelast_last. reflexivity.
  - destruct P as (W & L).
    change (s ++ str " seconds time elapsed") with (s ++ [32] ++ str "seconds" ++ [32] ++ str "time" ++ [32] ++ str "elapsed").
    assert (K : forall w, forallb (fun c => negb (is_trim_ws c)) w = true -> w <> [] -> word w).
    { intros w H N. split; [exact N|]. apply Forall_forall. intros q I. rewrite forallb_forall in H.
      specialize (H _ I). now apply negb_true_iff in H. }
    rewrite four_tokens by first [exact F|exact W|apply K; [reflexivity|discriminate]].
    destruct W as [Ne _]. destruct (@exists_last _ s Ne) as (u & e & ->). rewrite last_last in L.
    rewrite rev_app_distr. cbn [rev app]. destruct (N.eqb_spec e 58); [easy|].
    rewrite list_eqb_refl, app_nil_r. reflexivity.
  - destruct P as (A & B & C & D & H). rewrite four_tokens by assumption. cbn [map]. rewrite !app_nil_r.
    destruct A as [Ne _]. destruct (@exists_last _ a Ne) as (u & e & ->). rewrite last_last in H.
    rewrite rev_app_distr. cbn [rev app]. destruct H as [[H1 H2]|H].
    + destruct (N.eqb_spec e 58); [easy|]. destruct (list_eqb b (str "seconds")) eqn:E; [|reflexivity].
      apply list_eqb_true in E. easy.
    + destruct b as [|q b]; [discriminate|]. cbn [hd] in H. subst q.
      assert (Sr : strtoul 10 (c_str (60 :: b)) = (0, c_str (60 :: b))).
      { cbn [c_str N.eqb Pos.eqb]. destruct (c_str b) as [|z1 [|z2 l]]; reflexivity. }
      change (list_eqb (60 :: b) (str "seconds")) with false. rewrite Sr. cbn [c_str N.eqb Pos.eqb]. now destruct (e =? 58).
  - destruct P as (N10 & [->|(H1 & H2 & H3)]).
    + rewrite app_nil_r, trim_blank by exact F. cbn. now rewrite app_nil_r.
    + destruct t as [|q t]; [discriminate H1|]. rewrite trim_any by (exact F || discriminate || assumption).
      assert (Hne : @nil N <> [] \/ q :: t <> []) by (right; discriminate).
      assert (Lc := split_count [] (q :: t) Hne). cbn [rev app] in Lc.
      unfold split_string. cbn [map]. rewrite app_nil_r.
      assert (Ll : last (q :: t) 0 <> 32).
      { intros E. assert (G : last (q :: t) 32 = last (q :: t) 0).
        { destruct (@exists_last _ (q :: t) (fun E => nil_cons (eq_sym E))) as (u & e & ->). now rewrite !last_last. }
        rewrite G, E in H2. discriminate. }
      specialize (Lc Ll).
      destruct (split_go 32 [] (q :: t)) as [|f [|b [|x [|y [|z l]]]]]; try reflexivity.
      exfalso. apply H3. cbn [List.length] in Lc. lia.
Qed.

Lemma no_newline p : printable p -> ~ In 10 (line_text p).
Proof.
  assert (K : forall t, word t -> ~ In 10 t) by (intros t; apply word_no; reflexivity).
  assert (G : forall w, existsb (N.eqb 10) w = false -> ~ In 10 w).
  { intros w H I. assert (existsb (N.eqb 10) w = true); [|congruence]. apply existsb_exists. exists 10. auto. }
  assert (A2 : forall u v : list N, ~ In 10 u -> ~ In 10 v -> ~ In 10 (u ++ v)).
  { intros u v U V I. apply in_app_or in I. tauto. }
  destruct p as [name count x y|s|a b c d|t]; cbn [printable line_text]; intros P.
  - destruct P as (W & _ & X & Y). apply A2; [now apply K|]. apply A2; [now apply G|].
    apply A2; [intros I; apply print_dec_digits in I; discriminate|]. apply A2; [now apply G|].
    apply A2; [now apply K|]. apply A2; [now apply G|now apply K].
  - destruct P as (W & _). apply A2; [now apply K|now apply G].
  - destruct P as (A & B & C & D & _). repeat (apply A2; [now apply K|apply A2; [now apply G|]]). now apply K.
  - apply P.
Qed.

Theorem C61_counts to_ms l :
  Forall (fun x => indent (fst x) /\ printable (snd x)) l -> counts (map snd l) <> [] ->
  parse_stat to_ms (output_text l) =
  Ok (map (fun x => mkStatLine (fst x) (snd x)
                      (if last_time to_ms (map snd l) =? 0 then None else Some (last_time to_ms (map snd l))))
        (counts (map snd l))).
Proof.
  intros F Ne. unfold parse_stat.
  assert (S : split_string (output_text l) 10 = map (fun x => fst x ++ line_text (snd x)) l).
  { unfold split_string, output_text. clear Ne. induction F as [|[i p] l [I P] F IH]; [reflexivity|].
    cbn [flat_map map fst snd] in *. rewrite <- !app_assoc. cbn [app]. rewrite app_assoc, split_go_token.
    - cbn [rev app]. now rewrite IH.
    - intros H. apply in_app_or in H. destruct H as [H|H]; [|now apply (no_newline _ P)].
      unfold indent in I. rewrite Forall_forall in I. destruct (I _ H) as [E|[E|E]]; discriminate. }
  rewrite S.
  assert (R : forall out time, stat_loop to_ms (out, time) (map (fun x => fst x ++ line_text (snd x)) l) =
    Ok (out ++ map (fun x => mkStatLine (fst x) (snd x) None) (counts (map snd l)),
        fold_left (fun t p => match p with PTime s => match to_ms s with Some x => x | None => 0 end | _ => t end) (map snd l) time)).
  { clear S Ne. induction F as [|[i p] l [I P] F IH]; intros out time; cbn [map stat_loop fold_left].
    - cbn. now rewrite app_nil_r.
    - cbn [fst snd] in *. rewrite one_line by assumption. cbn [obind]. rewrite IH, <- app_assoc, <- map_app.
      unfold counts. cbn [flat_map]. rewrite app_nil_r. reflexivity. }
  rewrite R. cbn [obind app]. fold (last_time to_ms (map snd l)).
  destruct (last_time to_ms (map snd l) =? 0).
  - destruct (counts (map snd l)); [easy|]. reflexivity.
  - rewrite map_map. cbn [sl_name sl_count]. destruct (counts (map snd l)); [easy|]. reflexivity.
Qed.
Print Assumptions C61_counts.

(** *** A concrete case *)
Definition an_output : list (list N * printed) :=
  [([], PCount (str "cycles") 19062079 (str "27149653") (str "27149653"));
   ([], PFour (str "iTLB:") (str "<not") (str "supported>") (str "x"));
   ([32; 9], PCount (str "cpu/config=1/u") 18446744073709551615 (str "1") (str "2"));
   ([], POther []); ([32], POther (str "Performance counter stats for 'sleep 2':"));
   ([32; 32], PTime (str "2.001402976")); ([], POther [])].
Definition some_ms (t : list N) : option N := if list_eqb t (str "2.001402976") then Some 2001 else None.
Example C61_hypotheses_met :
  Forall (fun x => indent (fst x) /\ printable (snd x)) an_output /\
  parse_stat some_ms (output_text an_output) =
    Ok [mkStatLine (str "cycles") 19062079 (Some 2001);
        mkStatLine (str "cpu/config=1/u") 18446744073709551615 (Some 2001)].
Proof.
  split; [|vm_compute; reflexivity].
  assert (K : forall w, forallb (fun c => negb (is_trim_ws c)) w = true -> w <> [] -> word w).
  { intros w H N. split; [exact N|]. apply Forall_forall. intros q I. rewrite forallb_forall in H.
    specialize (H _ I). now apply negb_true_iff in H. }
  assert (O : forall t, existsb (N.eqb 10) t = false -> ~ In 10 t).
  { intros t H I. assert (existsb (N.eqb 10) t = true); [|congruence]. apply existsb_exists. exists 10. auto. }
  repeat first [apply Forall_nil|apply Forall_cons]; (split; [repeat first [apply Forall_nil|apply Forall_cons]; auto|]); cbn [printable snd].
  - split; [apply K; [reflexivity|discriminate]|]. split; [vm_compute; reflexivity|].
    split; apply K; solve [reflexivity|discriminate].
  - repeat (split; [apply K; [reflexivity|discriminate]|]). now right.
  - split; [apply K; [reflexivity|discriminate]|]. split; [vm_compute; reflexivity|].
    split; apply K; solve [reflexivity|discriminate].
  - split; [now apply O|now left].
  - split; [now apply O|right]. repeat split. vm_compute. discriminate.
  - split; [apply K; [reflexivity|discriminate]|]. vm_compute. discriminate.
  - split; [now apply O|now left].
Qed.

(** A second blank behind the name makes the count 0; a negative number and one that
    is too large are taken as counts. *)
Theorem C61_fields_refuted :
  parse_stat (fun _ => None) (str "cycles:  500 600") = Ok [mkStatLine (str "cycles") 0 None] /\
  parse_stat (fun _ => None) (str "cycles: -1 5 6") = Ok [mkStatLine (str "cycles") (2 ^ 64 - 1) None] /\
  parse_stat (fun _ => None) (str "cycles: 99999999999999999999 5 6") = Ok [mkStatLine (str "cycles") (2 ^ 64 - 1) None].
Proof. repeat split; vm_compute; reflexivity. Qed.
