(** C75, from the making of a temporary file or directory to its end. *)
From Coq Require Import String.
From Verif Require Import Base TextModel TextProofs OptionProofs TempModel TempSpec TempProofs TempProps TempMakeModel.
Local Open Scope N_scope.
Local Open Scope list_scope.

Lemma list_eqb_eq a b : list_eqb a b = true <-> a = b.
Proof. split; [apply list_eqb_true|intros ->; induction b as [|c b IH]; [reflexivity|cbn [list_eqb]; now rewrite N.eqb_refl]]. Qed.
Lemma add_at e : forall p k e', add e p k = Some e' ->
  at_path e p = None /\ at_path e' p = Some k /\ (forall q, q <> p -> at_path e' q = at_path e q).
Proof.
  unfold at_path, path in *. induction e as [|n k' inside IHi rest IHr]; intros p k e' H.
  - destruct p as [|x [|y p]]; cbn in H; try discriminate H. injection H as <-. cbn.
    rewrite (proj2 (list_eqb_eq x x) eq_refl). split; [reflexivity|]. split; [reflexivity|].
    intros [|z q] Nq; [reflexivity|]. cbn. destruct (list_eqb x z) eqn:E; [|reflexivity]. apply list_eqb_eq in E as <-.
    destruct q; [now destruct Nq|]. now destruct (is_dir k).
  - destruct p as [|x p]; cbn [add] in H; [discriminate H|]. destruct (list_eqb n x) eqn:E.
    + apply list_eqb_eq in E as <-. destruct p as [|y p]; [discriminate H|]. destruct (is_dir k') eqn:D; [|discriminate H].
      destruct (add inside (y :: p) k) as [i|] eqn:A; cbn [option_map] in H; [|discriminate H]. injection H as <-.
      destruct (IHi (y :: p) k i A) as (H1 & H2 & H3). cbn [node_at]. rewrite (proj2 (list_eqb_eq n n) eq_refl), D.
      split; [exact H1|]. split; [exact H2|]. intros [|z q] Nq; [reflexivity|]. destruct (list_eqb n z) eqn:E; [|reflexivity].
      apply list_eqb_eq in E as <-. destruct q as [|w q]; [reflexivity|]. apply H3. intros F. apply Nq. now rewrite F.
    + destruct (add rest (x :: p) k) as [r|] eqn:A; cbn [option_map] in H; [|discriminate H]. injection H as <-.
      destruct (IHr (x :: p) k r A) as (H1 & H2 & H3). cbn [node_at]. rewrite E.
      split; [exact H1|]. split; [exact H2|]. intros [|z q] Nq; [reflexivity|]. destruct (list_eqb n z); [reflexivity|]. now apply H3.
Qed.
Lemma add_names e : forall p k e', add e p k = Some e' -> forall n, In n (names e') -> In n (names e) \/ hd_error p = Some n.
Proof.
  induction e as [|n k' inside IHi rest IHr]; intros p k e' H m I.
  - destruct p as [|x [|y p]]; cbn in H; try discriminate H. injection H as <-. cbn in I. destruct I as [<-|[]]. now right.
  - destruct p as [|x p]; cbn [add] in H; [discriminate H|]. destruct (list_eqb n x) eqn:E.
    + destruct p as [|y p]; [discriminate H|]. destruct (is_dir k'); [|discriminate H].
      destruct (add inside (y :: p) k); cbn [option_map] in H; [|discriminate H]. injection H as <-. now left.
    + destruct (add rest (x :: p) k) as [r|] eqn:A; cbn [option_map] in H; [|discriminate H]. injection H as <-.
      cbn [names In] in *. destruct I as [<-|I]; [now left; left|]. destruct (IHr _ _ _ A m I); [now left; right|now right].
Qed.
Lemma add_proper e : forall p k e', proper e -> add e p k = Some e' -> proper e'.
Proof.
  induction e as [|n k' inside IHi rest IHr]; intros p k e' P H.
  - destruct p as [|x [|y p]]; cbn in H; try discriminate H. injection H as <-. cbn. tauto.
  - destruct P as (P1 & P2 & P3 & P4). destruct p as [|x p]; cbn [add] in H; [discriminate H|]. destruct (list_eqb n x) eqn:E.
    + destruct p as [|y p]; [discriminate H|]. destruct (is_dir k') eqn:D; [|discriminate H].
      destruct (add inside (y :: p) k) as [i|] eqn:A; cbn [option_map] in H; [|discriminate H]. injection H as <-. cbn [proper].
      split; [exact P1|]. split; [intros F; rewrite D in F; discriminate F|]. split; [exact (IHi _ _ _ P3 A)|exact P4].
    + destruct (add rest (x :: p) k) as [r|] eqn:A; cbn [option_map] in H; [|discriminate H]. injection H as <-. cbn [proper].
      split; [|split; [exact P2|split; [exact P3|exact (IHr _ _ _ P4 A)]]].
      intros I. destruct (add_names _ _ _ _ A n I) as [I'|I']; [contradiction|]. cbn in I'. injection I' as ->.
      rewrite (proj2 (list_eqb_eq n n) eq_refl) in E. discriminate E.
Qed.
Lemma absent_below e : forall p r, p <> [] -> at_path e p = None -> at_path e (p ++ r) = None.
Proof.
  unfold at_path. unfold path in *. induction e as [|n k' inside IHi rest IHr]; intros p r Np H; [reflexivity|].
  destruct p as [|x p]; [contradiction|]. cbn [node_at app] in *. destruct (list_eqb n x).
  - destruct p as [|y p]; [discriminate H|]. cbn [app]. destruct (is_dir k'); [|reflexivity]. apply (IHi (y :: p) r); [discriminate|exact H].
  - apply (IHr (x :: p) r); [discriminate|exact H].
Qed.
Lemma make_added deny e d base k tries p e' : make deny e d base k tries = Some (p, e') ->
  (exists letters, In letters tries /\ p = d ++ [base ++ letters]) /\ deny p = false /\ add e p k = Some e'.
Proof.
  induction tries as [|l tries IH]; cbn [make]; [discriminate|]. cbv zeta. destruct (node_at e (d ++ [base ++ l])).
  - intros H. destruct (IH H) as ((m & I & E) & R). split; [|exact R]. exists m. split; [now right|exact E].
  - destruct (deny (d ++ [base ++ l])) eqn:D; [discriminate|]. destruct (add e (d ++ [base ++ l]) k) as [a|] eqn:A; cbn [option_map]; [|discriminate].
    intros H. injection H as <- <-. split; [|split; assumption]. exists l. split; [now left|reflexivity].
Qed.

Lemma below_dec p q : {below p q} + {~ below p q}.
Proof.
  destruct (list_eq_dec (list_eq_dec N.eq_dec) (firstn (List.length p) q) p) as [E|E].
  - left. exists (skipn (List.length p) q). rewrite <- E at 1. symmetry. apply firstn_skipn.
  - right. intros (r & ->). apply E. rewrite firstn_app, Nat.sub_diag, firstn_O, app_nil_r. apply firstn_all.
Qed.

(** *** A temporary file or directory is new and empty, its name begins as asked for, and
    nothing else in the file system has changed; if none could be made, nothing has. *)
Theorem C75_made deny e d base dir tries p e' :
  construct deny e d base dir tries = (Some p, e') ->
  (exists letters, In letters tries /\ p = d ++ [base ++ letters]) /\
  at_path e p = None /\ at_path e' p = Some (if dir then KDir else KFile []) /\
  (forall r, r <> [] -> at_path e' (p ++ r) = None) /\
  (forall q, q <> p -> at_path e' q = at_path e q) /\ (proper e -> proper e').
Proof.
  unfold construct. destruct (make _ _ _ _ _ _) as [[p' e'']|] eqn:M; [|discriminate]. intros H. injection H as -> ->.
  destruct (make_added _ _ _ _ _ _ _ _ M) as ((l & I & E) & _ & A). destruct (add_at _ _ _ _ A) as (H1 & H2 & H3).
  split; [now exists l|]. split; [exact H1|]. split; [exact H2|]. split; [|split; [exact H3|intros P; exact (add_proper _ _ _ _ P A)]].
  intros r Nr. rewrite H3.
  - apply absent_below; [|exact H1]. rewrite E. intros F. now apply app_eq_nil in F as [_ F].
  - intros F. apply Nr. apply (app_inv_head p). now rewrite app_nil_r.
Qed.
Print Assumptions C75_made.
Theorem C75_not_made deny e d base dir tries e' : construct deny e d base dir tries = (None, e') -> e' = e.
Proof.
  unfold construct. destruct (make _ _ _ _ _ _) as [[p' e'']|]; [discriminate|]. intros H. now injection H as <-.
Qed.
Print Assumptions C75_not_made.
(** *** It is made if one of the names tried is free, the directory is there, and the
    system refuses nothing. *)
Lemma add_free e : forall d x k inside, node_at e d = Some (KDir, inside) -> node_at e (d ++ [x]) = None ->
  add e (d ++ [x]) k <> None.
Proof.
  unfold path in *. induction e as [|n k' ins IHi rest IHr]; intros d x k inside D F; [discriminate D|].
  destruct d as [|y d]; [discriminate D|]. cbn [node_at app add] in *. destruct (list_eqb n y).
  - destruct d as [|z d].
    + injection D as -> ->. cbn [app is_dir] in *. destruct inside as [|m k2 i2 r2]; [discriminate|].
      assert (G : forall e, node_at e [x] = None -> add e [x] k <> None).
      { clear. induction e as [|n k' ins IHi rest IHr]; [discriminate|]. cbn. destruct (list_eqb n x); [discriminate|].
        intros H. destruct (add rest [x] k) eqn:A; [discriminate|]. now elim (IHr H). }
      specialize (G _ F). now destruct (add (EMore m k2 i2 r2) [x] k).
    + destruct (is_dir k'); [|discriminate D]. cbn [app] in *. specialize (IHi (z :: d) x k inside D F). cbn [app] in IHi.
      now destruct (add ins (z :: d ++ [x]) k).
  - specialize (IHr (y :: d) x k inside D F). cbn [app] in IHr. now destruct (add rest (y :: d ++ [x]) k).
Qed.
Theorem C75_can_be_made deny e d base dir tries letters inside :
  (forall x, deny x = false) -> node_at e d = Some (KDir, inside) -> In letters tries -> at_path e (d ++ [base ++ letters]) = None ->
  fst (construct deny e d base dir tries) <> None.
Proof.
  intros D N I F. unfold construct.
  assert (E : make deny e d base (if dir then KDir else KFile []) tries <> None).
  { induction tries as [|l tries IH]; [destruct I|]. cbn [make]. cbv zeta. destruct (node_at e (d ++ [base ++ l])) eqn:A.
    - destruct I as [->|I]; [|now apply IH]. unfold at_path in F. rewrite A in F. discriminate F.
    - rewrite D. pose proof (add_free e d (base ++ l) (if dir then KDir else KFile []) inside N A) as G.
      destruct add; [discriminate|now elim G]. }
  destruct make as [[p e']|]; [discriminate|now elim E].
Qed.
Print Assumptions C75_can_be_made.

(** *** From beginning to end: if all that changes while the object is there is below its
    path, the file system is at the end as it was before. *)
Theorem C75_lifetime deny deny' e d base dir tries p e1 e2 :
  construct deny e d base dir tries = (Some p, e1) ->
  proper e2 -> (forall q, ~ below p q -> at_path e2 q = at_path e1 q) ->
  (forall x, deny' x = false) ->
  forall q, at_path (destroy deny' e2 (Some p)) q = at_path e q.
Proof.
  intros C P S D q. destruct (C75_made _ _ _ _ _ _ _ _ C) as ((l & _ & E) & A1 & _ & _ & A4 & _).
  assert (Np : p <> []) by (rewrite E; intros F; now apply app_eq_nil in F as [_ F]).
  destruct (below_dec p q) as [B|B].
  - etransitivity; [exact (C75_gone deny' e2 p q P Np D B)|]. destruct B as (r & ->). symmetry. now apply absent_below.
  - etransitivity; [exact (C75_nothing_else deny' e2 p q P Np B)|]. etransitivity; [exact (S q B)|]. apply A4. intros ->. apply B. exists []. now rewrite app_nil_r.
Qed.
Print Assumptions C75_lifetime.

(** *** A concrete case: in the tree of C75, with the names /tmp/q.1 (there already) and
    /tmp/q.7 tried; then a file and a directory are made inside. *)
Definition with_temp : entries :=
  dir "home" (file "a" ENone)
    (dir "tmp" (dir "q.12" (file "x" ENone)
                 (dir "q.1" (file "x" (dir "d" (file "y" (EMore (str "up") (KLink (str "/home")) ENone (dir "e" ENone ENone)))
                                         (EMore (str "home") (KLink (str "/home")) ENone ENone)))
                   (file "z" (dir "q.7" (dir "s" (file "t" ENone) ENone) ENone)))) ENone).
Example C75_lifetime_met :
  fst (construct (fun _ => false) a_tree [str "tmp"] (str "q.") true [str "1"; str "7"]) = Some [str "tmp"; str "q.7"] /\
  at_path with_temp [str "tmp"; str "q.7"; str "s"; str "t"] = Some (KFile [1]) /\
  destroy (fun _ => false) with_temp (Some [str "tmp"; str "q.7"]) = a_tree.
Proof. split; [vm_compute; reflexivity|]. split; vm_compute; reflexivity. Qed.
