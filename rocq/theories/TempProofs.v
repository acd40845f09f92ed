(** Lemmas about the removal of temporary files. *)
From Verif Require Import Base TextModel TextProofs OptionProofs TempModel TempSpec.
Local Open Scope N_scope.
Local Open Scope list_scope.

Lemma leqb_refl a : list_eqb a a = true.
Proof. induction a as [|c a IH]; [reflexivity|]. cbn [list_eqb]. now rewrite N.eqb_refl. Qed.
Lemma leqb_neq a b : a <> b -> list_eqb a b = false.
Proof. intros H. destruct (list_eqb a b) eqn:E; [|reflexivity]. apply list_eqb_true in E. contradiction. Qed.

(** What is left of a list of entries. *)
Fixpoint left_of (deny : path -> bool) (e : entries) : entries :=
  match e with
  | ENone => ENone
  | EMore n k inside rest =>
      let inside' := if is_dir k then left_of (fun q => deny (n :: q)) inside else inside in
      if deny [n] || (is_dir k && negb (is_empty inside')) then EMore n k inside' (left_of deny rest) else left_of deny rest
  end.

Lemma walk_inside e q : In q (walk e) -> q <> [].
Proof.
  induction e as [|n k inside IH rest IHr]; cbn [walk]; [intros []|].
  rewrite !in_app_iff. intros [I|[I|I]]; [|destruct I as [<-|[]]; discriminate|now apply IHr].
  apply in_map_iff in I as (x & <- & _). discriminate.
Qed.
Lemma walk_names e x q : In (x :: q) (walk e) -> In x (names e).
Proof.
  induction e as [|n k inside IH rest IHr]; cbn [walk names]; [intros []|].
  rewrite !in_app_iff. intros [I|[I|I]]; [|destruct I as [E|[]]; injection E as -> _; now left|right; now apply IHr].
  apply in_map_iff in I as (y & E & _). injection E as -> _. now left.
Qed.

Lemma fold_inside deny n inside rest l : (forall q, In q l -> q <> []) ->
  fold_left (remove_if deny) (map (cons n) l) (EMore n KDir inside rest) =
  EMore n KDir (fold_left (remove_if (fun q => deny (n :: q))) l inside) rest.
Proof.
  revert inside; induction l as [|q l IH]; intros inside H; [reflexivity|]. cbn [map fold_left].
  assert (E : remove_if deny (EMore n KDir inside rest) (n :: q) =
              EMore n KDir (remove_if (fun q => deny (n :: q)) inside q) rest).
  { unfold remove_if. destruct (deny (n :: q)); [reflexivity|]. cbn [remove]. rewrite leqb_refl.
    destruct q as [|y q]; [now elim (H []); [left|]|]. reflexivity. }
  rewrite E. apply IH. intros x I. apply H. now right.
Qed.
Lemma fold_rest deny n k inside rest l : (forall x q, In (x :: q) l -> x <> n) -> (forall q, In q l -> q <> []) ->
  fold_left (remove_if deny) l (EMore n k inside rest) = EMore n k inside (fold_left (remove_if deny) l rest).
Proof.
  revert rest; induction l as [|q l IH]; intros rest H H0; [reflexivity|]. cbn [fold_left].
  assert (E : remove_if deny (EMore n k inside rest) q = EMore n k inside (remove_if deny rest q)).
  { unfold remove_if. destruct (deny q); [reflexivity|]. destruct q as [|x q]; [now elim (H0 []); [left|]|].
    cbn [remove]. rewrite leqb_neq; [reflexivity|]. intros ->. now elim (H x q); [left|]. }
  rewrite E. apply IH; intros; [eapply H|apply H0]; right; eassumption.
Qed.

Lemma fold_one deny n k inside rest : (is_dir k = false -> inside = ENone) ->
  (is_dir k = true -> forall d, fold_left (remove_if d) (walk inside) inside = left_of d inside) ->
  fold_left (remove_if deny) (map (cons n) (if is_dir k then walk inside else []) ++ [[n]]) (EMore n k inside rest) =
  let inside' := if is_dir k then left_of (fun q => deny (n :: q)) inside else inside in
  if deny [n] || (is_dir k && negb (is_empty inside')) then EMore n k inside' rest else rest.
Proof.
  intros Hk IH. rewrite fold_left_app. destruct k as [d|t|]; cbn [is_dir] in *.
  - cbn [map fold_left]. unfold remove_if. destruct (deny [n]); [reflexivity|]. cbn [remove orb andb is_dir]. now rewrite leqb_refl.
  - cbn [map fold_left]. unfold remove_if. destruct (deny [n]); [reflexivity|]. cbn [remove orb andb is_dir]. now rewrite leqb_refl.
  - rewrite fold_inside by apply walk_inside. rewrite (IH eq_refl). cbn [fold_left]. unfold remove_if.
    destruct (deny [n]); [reflexivity|]. cbn [remove orb andb is_dir]. now rewrite leqb_refl.
Qed.

Lemma fold_walk e : proper e -> forall deny, fold_left (remove_if deny) (walk e) e = left_of deny e.
Proof.
  induction e as [|n k inside IH rest IHr]; [reflexivity|]. intros (Nn & Hk & Pi & Pr) deny.
  cbn [walk]. rewrite (app_assoc (map (cons n) _) [[n]] (walk rest)), fold_left_app.
  assert (F := fold_one deny n k inside rest Hk (fun _ => IH Pi)). unfold path in *. rewrite F. clear F. cbn [left_of]. cbv zeta.
  destruct (deny [n] || _); [|now apply IHr].
  rewrite fold_rest; [now rewrite IHr| |apply walk_inside].
  intros x q I ->. apply walk_names in I. contradiction.
Qed.

(** The same at a path. *)
Fixpoint left_at (deny : path -> bool) (e : entries) (p : path) : entries :=
  match e, p with
  | EMore n k inside rest, x :: p' =>
      if list_eqb n x then
        match p' with
        | [] =>
            let inside' := if is_dir k then left_of (fun q => deny (n :: q)) inside else inside in
            if deny [n] || (is_dir k && negb (is_empty inside')) then EMore n k inside' rest else rest
        | _ => if is_dir k then EMore n k (left_at (fun q => deny (n :: q)) inside p') rest else e
        end
      else EMore n k inside (left_at deny rest p)
  | _, _ => e
  end.

Lemma walk_from_inside n inside rest x p : 
  walk_from (EMore n KDir inside rest) (n :: x :: p) = map (cons n) (walk_from inside (x :: p)).
Proof.
  unfold walk_from. cbn [node_at]. rewrite leqb_refl. cbn [is_dir].
  destruct (node_at inside (x :: p)) as [[k i]|]; [|reflexivity]. rewrite map_app, map_map. reflexivity.
Qed.
Lemma walk_from_nonempty e p q : In q (walk_from e p) -> p <> [] -> q <> [].
Proof.
  unfold walk_from. destruct (node_at e p) as [[k i]|]; [|intros []]. rewrite in_app_iff. intros [I|[<-|[]]] Np; [|exact Np].
  apply in_map_iff in I as (x & <- & _). destruct p; [contradiction|discriminate].
Qed.
Lemma walk_from_head e x p y q : In (y :: q) (walk_from e (x :: p)) -> y = x.
Proof.
  unfold walk_from. destruct (node_at e (x :: p)) as [[k i]|]; [|intros []]. rewrite in_app_iff. intros [I|[E|[]]]; [|now injection E].
  apply in_map_iff in I as (z & E & _). now injection E.
Qed.

Lemma destroy_left e : proper e -> forall deny p, p <> [] -> fold_left (remove_if deny) (walk_from e p) e = left_at deny e p.
Proof.
  induction e as [|n k inside IH rest IHr]; intros P deny p Np.
  { destruct p; reflexivity. }
  destruct P as (Nn & Hk & Pi & Pr). destruct p as [|x p]; [contradiction|]. cbn [left_at].
  destruct (list_eqb n x) eqn:E.
  - apply list_eqb_true in E. subst x. destruct p as [|y p].
    + unfold walk_from. cbn [node_at]. rewrite leqb_refl. change (map (app [n])) with (map (cons n)).
      apply fold_one; [exact Hk|]. intros _ d. now apply fold_walk.
    + destruct k as [d|t|]; cbn [is_dir].
      * unfold walk_from. cbn [node_at]. rewrite leqb_refl. reflexivity.
      * unfold walk_from. cbn [node_at]. rewrite leqb_refl. reflexivity.
      * rewrite walk_from_inside, fold_inside by (intros q I; eapply walk_from_nonempty; [exact I|discriminate]).
        now rewrite IH.
  - assert (Ew : walk_from (EMore n k inside rest) (x :: p) = walk_from rest (x :: p)).
    { unfold walk_from. cbn [node_at]. now rewrite E. }
    rewrite Ew, fold_rest; [now rewrite IHr| |].
    + intros y q I ->. apply walk_from_head in I. subst. now rewrite leqb_refl in E.
    + intros q I. eapply walk_from_nonempty; [exact I|discriminate].
Qed.

(** ** What is at a path *)
Lemma at_more n k inside rest x q :
  at_path (EMore n k inside rest) (x :: q) =
  if list_eqb n x then match q with [] => Some k | _ => if is_dir k then at_path inside q else None end
  else at_path rest (x :: q).
Proof.
  unfold at_path. cbn [node_at]. destruct (list_eqb n x); [|reflexivity].
  destruct q as [|y q]; [reflexivity|]. now destruct (is_dir k).
Qed.
Lemma at_nil e : at_path e [] = None.
Proof. now destruct e. Qed.
Lemma at_names e x q : at_path e (x :: q) <> None -> In x (names e).
Proof.
  induction e as [|n k inside _ rest IH]; [intros H; now elim H|]. rewrite at_more. cbn [names].
  destruct (list_eqb n x) eqn:E; [apply list_eqb_true in E; now left|]. intros H. right. now apply IH.
Qed.
Lemma at_prefix e a b : a <> [] -> at_path e (a ++ b) <> None -> at_path e a <> None.
Proof.
  revert a b. induction e as [|n k inside IHi rest IH]; intros [|x a] b Na; try contradiction.
  cbn [app]. rewrite !at_more. destruct (list_eqb n x); [|apply (IH (x :: a) b); discriminate].
  destruct a as [|y a]; [discriminate|]. cbn [app]. destruct (is_dir k); [|easy]. apply (IHi (y :: a) b). discriminate.
Qed.
Lemma some_entry e : is_empty e = false -> exists n k, at_path e [n] = Some k.
Proof. destruct e as [|n k i r]; [discriminate|]. intros _. exists n, k. now rewrite at_more, leqb_refl. Qed.

Definition kept (deny : path -> bool) (e : entries) (q : path) : Prop :=
  exists d, at_path e (q ++ d) <> None /\ deny (q ++ d) = true.

Lemma left_only e : proper e -> forall deny q k, at_path (left_of deny e) q = Some k -> at_path e q = Some k /\ kept deny e q.
Proof.
  induction e as [|n k inside IH rest IHr]; [intros _ deny q k'; now destruct q|]. intros (Nn & Hk & Pi & Pr) deny q k'.
  destruct q as [|x q]; [now rewrite at_nil|]. cbn [left_of]. cbv zeta.
  set (inside' := if is_dir k then left_of (fun q => deny (n :: q)) inside else inside).
  assert (Rest : list_eqb n x = false -> at_path (left_of deny rest) (x :: q) = Some k' ->
            at_path (EMore n k inside rest) (x :: q) = Some k' /\ kept deny (EMore n k inside rest) (x :: q)).
  { intros E H. apply (IHr Pr) in H as (H & d & Hd & D). rewrite at_more, E. split; [exact H|]. exists d. split; [|exact D].
    cbn [app] in *. now rewrite at_more, E. }
  destruct (deny [n] || (is_dir k && negb (is_empty inside'))) eqn:C.
  - rewrite at_more. destruct (list_eqb n x) eqn:E; [|now apply Rest]. apply list_eqb_true in E. subst x.
    destruct q as [|y q].
    + intros H. injection H as <-. rewrite at_more, leqb_refl. split; [reflexivity|].
      apply orb_prop in C as [C|C].
      * exists []. cbn [app]. rewrite at_more, leqb_refl. split; [discriminate|exact C].
      * apply andb_prop in C as [Dk C]. apply negb_true_iff in C. unfold inside' in C. rewrite Dk in C.
        apply some_entry in C as (m & k2 & H). apply (IH Pi) in H as (_ & d & Hd & D).
        exists (m :: d). cbn [app] in *. rewrite at_more, leqb_refl, Dk. split; [exact Hd|exact D].
    + unfold inside'. destruct (is_dir k) eqn:Dk; [|discriminate]. intros H. apply (IH Pi) in H as (H & d & Hd & D).
      rewrite at_more, leqb_refl, Dk. split; [exact H|]. exists d. cbn [app] in *. rewrite at_more, leqb_refl, Dk. split; [exact Hd|exact D].
  - intros H. destruct (list_eqb n x) eqn:E; [|now apply Rest]. apply list_eqb_true in E. subst x.
    apply (IHr Pr) in H as (H & _). elim Nn. apply (at_names rest n q). rewrite H. discriminate.
Qed.

Lemma left_kept e : proper e -> forall deny q, q <> [] -> kept deny e q -> at_path (left_of deny e) q = at_path e q.
Proof.
  induction e as [|n k inside IH rest IHr]; [reflexivity|]. intros (Nn & Hk & Pi & Pr) deny q Nq (d & Hd & D).
  destruct q as [|x q]; [contradiction|]. cbn [left_of]. cbv zeta.
  set (inside' := if is_dir k then left_of (fun q => deny (n :: q)) inside else inside).
  cbn [app] in Hd, D. rewrite at_more in Hd. destruct (list_eqb n x) eqn:E.
  - apply list_eqb_true in E. subst x.
    assert (C : deny [n] || (is_dir k && negb (is_empty inside')) = true).
    { destruct (q ++ d) as [|y r] eqn:Eq; [now rewrite D|]. destruct (is_dir k) eqn:Dk; [|now elim Hd].
      assert (K : at_path inside' [y] = at_path inside [y]).
      { unfold inside'. apply (IH Pi); [discriminate|]. exists r. split; [exact Hd|exact D]. }
      assert (Ny : at_path inside [y] <> None) by (apply (at_prefix inside [y] r); [discriminate|exact Hd]).
      rewrite <- K in Ny. destruct inside'; [now elim Ny|]. apply orb_true_r. }
    rewrite C, !at_more, leqb_refl. destruct q as [|y q]; [reflexivity|]. unfold inside'.
    destruct (is_dir k) eqn:Dk; [|reflexivity]. apply (IH Pi); [discriminate|]. exists d. split; [exact Hd|exact D].
  - assert (K : at_path (left_of deny rest) (x :: q) = at_path rest (x :: q)).
    { apply (IHr Pr); [discriminate|]. exists d. split; [exact Hd|exact D]. }
    destruct (deny [n] || _); rewrite !at_more, ?E; exact K.
Qed.

Lemma at_outside e : proper e -> forall deny p q, p <> [] -> ~ below p q -> at_path (left_at deny e p) q = at_path e q.
Proof.
  induction e as [|n k inside IH rest IHr]; intros P deny p q Np Nb; [now destruct p|].
  destruct P as (Nn & Hk & Pi & Pr). destruct p as [|x p]; [contradiction|]. destruct q as [|y q]; [now rewrite !at_nil|].
  cbn [left_at]. destruct (list_eqb n x) eqn:E.
  - apply list_eqb_true in E. subst x. destruct p as [|z p].
    + assert (Ny : list_eqb n y = false) by (apply leqb_neq; intros ->; apply Nb; now exists q).
      cbv zeta. destruct (deny [n] || _); rewrite ?at_more, ?Ny; reflexivity.
    + destruct (is_dir k) eqn:Dk; [|reflexivity]. rewrite !at_more, Dk. destruct (list_eqb n y) eqn:Ey; [|reflexivity].
      apply list_eqb_true in Ey. subst y. destruct q as [|w q]; [reflexivity|]. apply IH; [exact Pi|discriminate|].
      intros (r & Er). apply Nb. exists r. now rewrite Er.
  - rewrite !at_more. destruct (list_eqb n y); [reflexivity|]. now apply IHr.
Qed.

Lemma at_inside e : proper e -> forall deny p r, p <> [] ->
  (forall k, at_path (left_at deny e p) (p ++ r) = Some k -> at_path e (p ++ r) = Some k /\ kept deny e (p ++ r)) /\
  (kept deny e (p ++ r) -> at_path (left_at deny e p) (p ++ r) = at_path e (p ++ r)).
Proof.
  induction e as [|n k inside IH rest IHr]; intros P deny p r Np.
  { split; [intros k; destruct p; [contradiction|discriminate]|now destruct p]. }
  destruct P as (Nn & Hk & Pi & Pr). destruct p as [|x p]; [contradiction|]. cbn [left_at app].
  destruct (list_eqb n x) eqn:E.
  - apply list_eqb_true in E. subst x. destruct p as [|z p].
    + cbn [app]. set (one := EMore n k inside ENone).
      assert (P1 : proper one) by (repeat split; auto).
      assert (A1 : forall q, at_path one (n :: q) = at_path (EMore n k inside rest) (n :: q)) by (intros q; unfold one; now rewrite !at_more, leqb_refl).
      assert (A2 : at_path (let inside' := if is_dir k then left_of (fun q => deny (n :: q)) inside else inside in
                            if deny [n] || (is_dir k && negb (is_empty inside')) then EMore n k inside' rest else rest) (n :: r) =
                   at_path (left_of deny one) (n :: r)).
      { unfold one. cbn [left_of]. cbv zeta. destruct (deny [n] || _); [now rewrite !at_more, leqb_refl|].
        destruct (at_path rest (n :: r)) eqn:Er; [|reflexivity]. elim Nn. apply (at_names rest n r). rewrite Er. discriminate. }
      unfold path in *. cbv zeta in A2. cbv zeta. rewrite A2, <- A1.
      assert (A3 : kept deny (EMore n k inside rest) (n :: r) <-> kept deny one (n :: r)).
      { unfold kept. cbn [app]. split; intros (d & H & D); exists d; (split; [|exact D]); [now rewrite A1|now rewrite <- A1]. }
      split.
      * intros k' H. apply (left_only one P1) in H as (H & K). split; [exact H|]. now apply A3.
      * intros K. apply (left_kept one P1); [discriminate|]. now apply A3.
    + destruct (is_dir k) eqn:Dk.
      * rewrite !at_more, leqb_refl, Dk. cbn [app].
        assert (A3 : kept deny (EMore n k inside rest) (n :: z :: p ++ r) <-> kept (fun q => deny (n :: q)) inside ((z :: p) ++ r)).
        { unfold kept. cbn [app]. split; intros (d & H & D); exists d; (split; [|exact D]); rewrite at_more, leqb_refl, Dk in *; exact H. }
        destruct (IH Pi (fun q => deny (n :: q)) (z :: p) r) as [I1 I2]; [discriminate|]. cbn [app] in I1, I2. split.
        -- intros k' H. apply I1 in H as (H & K). split; [exact H|]. now apply A3.
        -- intros K. apply I2. now apply A3.
      * split; [|reflexivity]. intros k' H. rewrite at_more, leqb_refl, Dk in H. discriminate H.
  - rewrite !at_more, E.
    assert (A3 : kept deny (EMore n k inside rest) (x :: p ++ r) <-> kept deny rest ((x :: p) ++ r)).
    { unfold kept. cbn [app]. split; intros (d & H & D); exists d; (split; [|exact D]); rewrite at_more, E in *; exact H. }
    destruct (IHr Pr deny (x :: p) r) as [I1 I2]; [discriminate|]. cbn [app] in I1, I2. split.
    + intros k' H. apply I1 in H as (H & K). split; [exact H|]. now apply A3.
    + intros K. apply I2. now apply A3.
Qed.
