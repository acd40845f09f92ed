(** C75: a temporary file or directory goes away with all that is in it, and nothing
    else does. *)
From Coq Require Import String.
From Verif Require Import Base TextModel TextProofs TempModel TempSpec TempProofs.
Local Open Scope N_scope.
Local Open Scope list_scope.

(** *** When the object goes out of scope, its path and everything below it is gone. *)
Theorem C75_gone deny e p q :
  proper e -> p <> [] -> (forall x, deny x = false) -> below p q -> at_path (destroy deny e (Some p)) q = None.
Proof.
  intros P Np D (r & ->). cbn [destroy]. rewrite (destroy_left e P deny p Np).
  destruct (at_path (left_at deny e p) (p ++ r)) as [k|] eqn:E; [|reflexivity].
  apply (at_inside e P deny p r Np) in E as (_ & d & _ & H). rewrite D in H. discriminate H.
Qed.
Print Assumptions C75_gone.

(** *** Whatever is not below the path stays as it is: symbolic links inside are not
    followed, and the directories that lead to the path stay. *)
Theorem C75_nothing_else deny e p q :
  proper e -> p <> [] -> ~ below p q -> at_path (destroy deny e (Some p)) q = at_path e q.
Proof. intros P Np Nb. cbn [destroy]. rewrite (destroy_left e P deny p Np). now apply at_outside. Qed.
Print Assumptions C75_nothing_else.

(** *** If the system refuses to remove some of it, those entries and the directories
    around them are left, unchanged, and all else is gone. *)
Theorem C75_refused deny e p q :
  proper e -> p <> [] -> below p q ->
  ((exists d, at_path e (q ++ d) <> None /\ deny (q ++ d) = true) -> at_path (destroy deny e (Some p)) q = at_path e q) /\
  (~ (exists d, at_path e (q ++ d) <> None /\ deny (q ++ d) = true) -> at_path (destroy deny e (Some p)) q = None).
Proof.
  intros P Np (r & ->). cbn [destroy]. rewrite (destroy_left e P deny p Np).
  destruct (at_inside e P deny p r Np) as [A B]. split; [exact B|]. intros N.
  destruct (at_path (left_at deny e p) (p ++ r)) as [k|] eqn:E; [|reflexivity]. elim N. now apply (A k).
Qed.
Print Assumptions C75_refused.

(** *** A concrete case: /tmp/q.1 has a file, a directory with a file and a link to
    /home; /tmp/q.12 and /home/a stay. *)
Definition dir n inside rest := EMore (str n) KDir inside rest.
Definition file n rest := EMore (str n) (KFile [1]) ENone rest.
Definition a_tree : entries :=
  dir "home" (file "a" ENone)
    (dir "tmp" (dir "q.12" (file "x" ENone)
                 (dir "q.1" (file "x" (dir "d" (file "y" (EMore (str "up") (KLink (str "/home")) ENone (dir "e" ENone ENone)))
                                         (EMore (str "home") (KLink (str "/home")) ENone ENone)))
                   (file "z" ENone))) ENone).
Definition its_path : path := [str "tmp"; str "q.1"].
Example C75_hypotheses_met :
  proper a_tree /\ below its_path [str "tmp"; str "q.1"; str "d"; str "y"] /\
  at_path a_tree [str "tmp"; str "q.1"; str "d"; str "y"] = Some (KFile [1]) /\
  destroy (fun _ => false) a_tree (Some its_path) =
    dir "home" (file "a" ENone) (dir "tmp" (dir "q.12" (file "x" ENone) (file "z" ENone)) ENone) /\
  destroy (fun p => match nth_error p 3 with Some n => list_eqb n (str "y") | None => false end) a_tree (Some its_path) =
    dir "home" (file "a" ENone)
      (dir "tmp" (dir "q.12" (file "x" ENone) (dir "q.1" (dir "d" (file "y" ENone) ENone) (file "z" ENone))) ENone).
Proof.
  split; [|split; [|split; [vm_compute; reflexivity|split; vm_compute; reflexivity]]].
  - cbn. repeat split; auto; try discriminate; try (intros _; reflexivity); try (vm_compute; intuition discriminate).
  - now exists [str "d"; str "y"].
Qed.
