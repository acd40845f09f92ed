(** C78: the documentation URL of a profile. *)
From Coq Require Import String.
From Verif Require Import Base BytesModel TextModel Assoc ProfileModel BuilderModel BuilderSpec BuilderProofs.
Local Open Scope N_scope.
Local Open Scope list_scope.

(** What may be given as a URL: nothing, or an address of the web. *)
Definition web_url (u : list N) : Prop := u = [] \/ (exists t, u = str "http://" ++ t) \/ (exists t, u = str "https://" ++ t).

Lemma begins_with p : forall s, starts_with p s = true <-> exists r, s = p ++ r.
Proof.
  induction p as [|x p IH]; intros s; cbn; [split; [intros _; now exists s|reflexivity]|].
  destruct s as [|y s]; [split; [discriminate|intros (r & H); discriminate H]|].
  rewrite andb_true_iff, N.eqb_eq, IH. split.
  - intros (-> & r & ->). now exists r.
  - intros (r & H). injection H as -> ->. split; [reflexivity|now exists r].
Qed.
Lemma url_test u :
  negb (match u with [] => true | _ => false end) && negb (starts_with (str "http://") u) && negb (starts_with (str "https://") u) = false <->
  web_url u.
Proof.
  unfold web_url. rewrite <- !begins_with. destruct u as [|c u]; [split; [now left|reflexivity]|]. cbn [negb andb].
  destruct (starts_with (str "http://") (c :: u)); [split; [now right; left|reflexivity]|].
  destruct (starts_with (str "https://") (c :: u)); [split; [now right; right|reflexivity]|]. cbn.
  split; [discriminate|intros [H|[H|H]]; discriminate H].
Qed.
Lemma internal_error b s : b_error (fst (internal_string_id b s)) = b_error b.
Proof. unfold internal_string_id. destruct (aemplace _ _ _ _) as [[m v] [|]]; reflexivity. Qed.
Lemma string_error b s : b_error (fst (string_id b s)) = b_error b.
Proof. destruct s; [reflexivity|apply internal_error]. Qed.
Lemma function_error b n s f l : b_error (fst (function_id b n s f l)) = b_error b.
Proof.
  unfold function_id. destruct (string_id b n) as [b1 i1] eqn:E1. destruct (string_id b1 s) as [b2 i2] eqn:E2.
  destruct (string_id b2 f) as [b3 i3] eqn:E3.
  assert (E : b_error b3 = b_error b).
  { rewrite <- (string_error b n), E1. cbn [fst]. rewrite <- (string_error b1 s), E2. cbn [fst]. now rewrite <- (string_error b2 f), E3. }
  destruct (aemplace _ _ _ _) as [[m v] [|]]; exact E.
Qed.
Lemma step_error b o : b_error b = true -> b_error (bstep b o) = true.
Proof.
  intros H. destruct o as [s|n s f l|u|f|]; cbn [bstep].
  - now rewrite string_error.
  - now rewrite function_error.
  - unfold set_url. destruct (_ && _); [reflexivity|]. pose proof (internal_error b u) as I. destruct (internal_string_id b u) as [b1 i].
    cbn in I |- *. now rewrite I.
  - exact H.
  - unfold finalize. now rewrite H.
Qed.
Lemma run_error os : forall b, b_error b = true -> b_error (brun b os) = true.
Proof. unfold brun. induction os as [|o os IH]; intros b H; [exact H|]. apply (IH (bstep b o)). now apply step_error. Qed.

(** *** A good URL is what the field of the profile denotes then; the string table has
    only grown, and nothing else in the profile has changed. *)
Theorem C78_url_stored b u :
  reachable b -> web_url u ->
  let b' := set_url b u in
  string_at b' (pf_doc_url (b_profile b')) = Some u /\ b_error b' = b_error b /\
  exists more, b_profile b' = set_doc_url (pf_doc_url (b_profile b')) (set_string (pf_string (b_profile b) ++ more) (b_profile b)).
Proof.
  intros R W b'. apply url_test in W. subst b'. unfold set_url. rewrite W.
  destruct (internal_string_id b u) as [b1 i] eqn:E. pose proof (internal_error b u) as I. rewrite E in I. cbn in I.
  destruct (internal_string_id_spec b u b1 i (reachable_tables b R) E) as (T & _ & G & _).
  destruct (tb_strings _ T _ _ G) as [P Q]. split; [|split; [exact I|]].
  - unfold string_at. cbn. destruct (Z.leb_spec 0 i); [exact Q|lia].
  - unfold internal_string_id in E. destruct (aemplace _ _ _ _) as [[m v] [|]]; injection E as <- <-; cbn.
    + now exists [u].
    + exists []. rewrite app_nil_r. now destruct (b_profile b).
Qed.
Print Assumptions C78_url_stored.

(** *** Any other is refused: the profile does not change, and whatever is done then, it
    cannot be finalized. *)
Theorem C78_url_refused b u os :
  ~ web_url u ->
  b_profile (set_url b u) = b_profile b /\ snd (finalize (brun (bstep b (BUrl u)) os)) = false.
Proof.
  intros W. rewrite <- url_test in W. apply not_false_is_true in W. cbn [bstep]. unfold set_url. rewrite W. split; [reflexivity|].
  unfold finalize. now rewrite run_error.
Qed.
Print Assumptions C78_url_refused.

(** *** Nothing but a bad URL stops a profile that is consistent otherwise: without one
    there is no error. *)
Theorem C78_only_urls os :
  (forall u, In (BUrl u) os -> web_url u) -> b_error (brun builder0 os) = false.
Proof.
  intros H. unfold brun. assert (K : forall b, b_error b = false -> b_error (fold_left bstep os b) = false); [|now apply K].
  induction os as [|o os IH]; intros b E; [exact E|]. cbn [fold_left]. apply IH; [intros u I; apply H; now right|].
  destruct o as [s|n s f l|u|f|]; cbn [bstep].
  - now rewrite string_error.
  - now rewrite function_error.
  - assert (W : web_url u) by (apply H; now left). apply url_test in W. unfold set_url. rewrite W.
    pose proof (internal_error b u) as I. destruct (internal_string_id b u) as [b1 i]. cbn in I |- *. now rewrite I.
  - exact E.
  - unfold finalize. now rewrite E.
Qed.
Print Assumptions C78_only_urls.

(** *** A concrete case. *)
Example C78_hypotheses_met :
  web_url (str "https://a.b/c") /\ ~ web_url (str "ftp://a.b") /\ reachable (brun builder0 [BString (str "x")]) /\
  pf_doc_url (b_profile (set_url (brun builder0 [BString (str "x")]) (str "https://a.b/c"))) = 2%Z.
Proof.
  split; [right; right; now exists (str "a.b/c")|]. split.
  - rewrite <- url_test. vm_compute. discriminate.
  - split; [|vm_compute; reflexivity]. exists [BString (str "x")]. split; [now repeat constructor|reflexivity].
Qed.
