(** C68: invariants of running a command. *)
From Verif Require Import Base CommandModel CommandSpec.
Local Open Scope N_scope.
Local Open Scope list_scope.

(** ** What a signal changes in the child *)
Definition disturbed (c c' : child) : Prop :=
  c_failed c' = c_failed c /\ c_ran c' = c_ran c /\ c_out c' = c_out c /\ c_group c' = c_group c /\
  (c_pc c' = c_pc c \/ (c_alive c = true /\ exists n, c_pc c' = CEnded (Signaled n))).
Lemma disturbed_refl c : disturbed c c.
Proof. unfold disturbed. auto 10. Qed.
Lemma int_disturbed c : disturbed c (int_child c).
Proof.
  unfold int_child. destruct (c_alive c) eqn:A; cbn [negb]; [|apply disturbed_refl].
  destruct (c_blocked c); [now repeat split; auto|]. destruct (c_disp c); [|apply disturbed_refl|now repeat split; auto].
  repeat split. right. split; [exact A|]. eexists. reflexivity.
Qed.
Lemma term_disturbed c : disturbed c (term_child c).
Proof.
  unfold term_child. destruct (c_alive c) eqn:A; cbn [negb]; [|apply disturbed_refl].
  destruct (c_pc c) eqn:P; try (repeat split; right; split; [exact A|eexists; reflexivity]).
  repeat split. left. exact (eq_sym P) || (cbn; auto).
Qed.

(** ** The child *)
Definition fresh (c : child) (e : option N) : Prop := c_failed c = None /\ c_ran c = false /\ c_out c = [] /\ e = None.
Definition child_inv (c : child) (e : option N) : Prop :=
  match c_pc c with
  | CNone | CGroup | CPrctl | CUnblock | CSetup | CExec => fresh c e
  | CWrite n => c_failed c = Some n /\ c_ran c = false /\ c_out c = [] /\ e = None
  | CQuit => c_failed c = e /\ e <> None /\ c_ran c = false /\ c_out c = []
  | CRun => c_failed c = None /\ c_ran c = true /\ e = None
  | CEnded w | CReaped w =>
      (c_failed c = e \/ (e = None /\ exists n, w = Signaled n)) /\ (c_failed c <> None -> c_ran c = false) /\
      (c_ran c = false -> c_out c = []) /\ (e <> None -> c_failed c = e)
  end.
Lemma child_disturbed c c' e : disturbed c c' -> child_inv c e -> child_inv c' e.
Proof.
  intros (A1 & A2 & A3 & _ & [P|(Al & n & P)]); unfold child_inv; rewrite P.
  - destruct (c_pc c); unfold fresh; rewrite ?A1, ?A2, ?A3; auto.
  - unfold c_alive in Al. destruct (c_pc c); try discriminate Al; unfold fresh; rewrite ?A1, ?A2, ?A3; intros I.
    all: decompose [and] I; repeat split; try congruence; try tauto.
    all: try (left; congruence); try (right; split; [congruence|eexists; reflexivity]).
Qed.

(** ** The parent *)
Definition there (c : child) : Prop := c_pc c <> CNone /\ forall w, c_pc c <> CReaped w.
Lemma there_disturbed c c' : disturbed c c' -> there c -> there c'.
Proof. intros (_ & _ & _ & _ & [P|(_ & n & P)]); unfold there; rewrite P; [auto|split; congruence]. Qed.
Lemma closed_disturbed c c' : disturbed c c' -> errno_closed c = true -> errno_closed c' = true.
Proof. intros (_ & _ & _ & _ & [P|(_ & n & P)]); unfold errno_closed; rewrite P; auto. Qed.
Lemma ended_disturbed c c' : disturbed c c' -> c_alive c = false -> c_alive c' = false.
Proof. intros (_ & _ & _ & _ & [P|(_ & n & P)]); unfold c_alive; rewrite P; auto. Qed.

Section Inv.
Context (want : bool) (room : nat) (d : disposition) (buffer : list N).

Definition untouched (s : sys) : Prop := p_buffer (s_parent s) = buffer /\ (want = true -> s_pipe s = c_out (s_child s)).
Definition returning (s : sys) (r : result) : Prop :=
  match r with
  | RNothing => c_pc (s_child s) = CNone /\ p_buffer (s_parent s) = buffer
  | RExec e => (exists w, c_pc (s_child s) = CReaped w) /\ s_errno s = Some e /\ p_buffer (s_parent s) = buffer
  | RStatus z => (exists w, c_pc (s_child s) = CReaped w /\ status_of w = RStatus z) /\ s_errno s = None /\
      p_buffer (s_parent s) = buffer ++ (if want then c_out (s_child s) else [])
  end.
Definition data_inv (s : sys) : Prop :=
  let c := s_child s in
  match p_pc (s_parent s) with
  | PBegin | PFork => c_pc c = CNone /\ untouched s
  | PSigaction | PUnblock | PErrno => there c /\ untouched s
  | PReap e => there c /\ untouched s /\ s_errno s = Some e
  | POutput => there c /\ errno_closed c = true /\ s_errno s = None /\ want = true /\
      (p_offset (s_parent s) <= List.length (p_buffer (s_parent s)))%nat /\
      exists got, firstn (p_offset (s_parent s)) (p_buffer (s_parent s)) = buffer ++ got /\ c_out c = got ++ s_pipe s
  | PWait => there c /\ errno_closed c = true /\ s_errno s = None /\ (want = true -> c_alive c = false) /\
      p_buffer (s_parent s) = buffer ++ (if want then c_out c else [])
  | PLeave r | PDone r => returning s r
  | PDead | PUndefined => True
  end.
Definition signal_inv (p : parent) : Prop :=
  match p_pc p with
  | PBegin => p_blocked p = false /\ p_pending p = false /\ p_disp p = d /\ p_registered p = false
  | PFork | PSigaction => p_blocked p = true /\ p_disp p = d /\ p_registered p = false
  | PUnblock => p_blocked p = true /\ p_disp p = DHandler /\ p_registered p = true
  | PErrno | PReap _ | POutput | PWait => p_blocked p = false /\ p_disp p = DHandler /\ p_registered p = true
  | PLeave r => p_blocked p = false /\ p_disp p = DHandler /\ p_registered p = true /\ r <> RNothing
  | PDone RNothing => p_blocked p = false /\ p_disp p = d
  | PDone _ => p_blocked p = false /\ p_disp p = DIgnore
  | PDead | PUndefined => True
  end.
Record inv (s : sys) : Prop := {
  i_child : child_inv (s_child s) (s_errno s);
  i_data : data_inv s;
  i_signal : signal_inv (s_parent s) }.

Lemma data_disturbed c' s : disturbed (s_child s) c' -> data_inv s -> data_inv (with_child c' s).
Proof.
  intros D. pose proof D as (A1 & A2 & A3 & _ & P).
  unfold data_inv, untouched, returning. cbn [with_child s_parent s_child s_errno s_pipe]. rewrite A3.
  assert (Sn : c_pc (s_child s) = CNone -> c_pc c' = CNone).
  { intros N0. destruct P as [P|(Al & _)]; [congruence|]. unfold c_alive in Al. rewrite N0 in Al. discriminate. }
  assert (Sr : forall w, c_pc (s_child s) = CReaped w -> c_pc c' = CReaped w).
  { intros w N0. destruct P as [P|(Al & _)]; [congruence|]. unfold c_alive in Al. rewrite N0 in Al. discriminate. }
  pose proof (there_disturbed _ _ D) as T. pose proof (closed_disturbed _ _ D) as Cl. pose proof (ended_disturbed _ _ D) as En.
  assert (Rt : forall r, match r with
    | RNothing => c_pc (s_child s) = CNone /\ p_buffer (s_parent s) = buffer
    | RExec e => (exists w, c_pc (s_child s) = CReaped w) /\ s_errno s = Some e /\ p_buffer (s_parent s) = buffer
    | RStatus z => (exists w, c_pc (s_child s) = CReaped w /\ status_of w = RStatus z) /\ s_errno s = None /\
        p_buffer (s_parent s) = buffer ++ (if want then c_out (s_child s) else []) end ->
    match r with
    | RNothing => c_pc c' = CNone /\ p_buffer (s_parent s) = buffer
    | RExec e => (exists w, c_pc c' = CReaped w) /\ s_errno s = Some e /\ p_buffer (s_parent s) = buffer
    | RStatus z => (exists w, c_pc c' = CReaped w /\ status_of w = RStatus z) /\ s_errno s = None /\
        p_buffer (s_parent s) = buffer ++ (if want then c_out (s_child s) else []) end).
  { intros [e| |z]; [|tauto|].
    + intros ((w & X) & Y). split; [|exact Y]. exists w. auto.
    + intros ((w & X & X') & Y). split; [|exact Y]. exists w. auto. }
  destruct (p_pc (s_parent s)) as [| | | | |e| | |r|r| |]; try apply Rt; tauto.
Qed.
Lemma inv_disturbed c' s : disturbed (s_child s) c' -> inv s -> inv (with_child c' s).
Proof.
  intros D [A B C]. constructor; [exact (child_disturbed _ _ _ D A)|exact (data_disturbed _ _ D B)|exact C].
Qed.
Lemma inv_die s : inv s -> inv (die s).
Proof.
  intros [A B C]. unfold die. destruct (c_tied (s_child s)); constructor; cbn; auto.
  exact (child_disturbed _ _ _ (term_disturbed _) A).
Qed.
Lemma inv_stray s : inv s -> inv (stray s).
Proof. intros [A B C]. now constructor. Qed.
Lemma inv_handle s : inv s -> p_registered (s_parent s) = true -> inv (handle_signal s).
Proof.
  intros I R. unfold handle_signal. rewrite R. cbn [negb].
  destruct (c_pc (s_child s)); try (destruct (c_group (s_child s)); [apply inv_disturbed; [apply int_disturbed|exact I]|exact I]).
  now apply inv_stray.
Qed.
Lemma pending_inv b s : inv s -> p_blocked (s_parent s) = true ->
  inv (with_parent (p_signals true b (p_disp (s_parent s)) (p_registered (s_parent s)) (s_parent s)) s).
Proof.
  intros [A B C] Bl. constructor; [exact A|exact B|]. unfold signal_inv in *. cbn [with_parent s_parent p_signals p_pc p_blocked p_pending p_disp p_registered].
  rewrite Bl in C. destruct (p_pc (s_parent s)) as [| | | | |e| | |r|[]| |]; tauto || (destruct C; discriminate).
Qed.
Lemma inv_int s : d <> DHandler -> inv s -> inv (int_parent s).
Proof.
  intros Hd I. unfold int_parent. destruct (p_alive (s_parent s)) eqn:Al; cbn [negb]; [|exact I].
  destruct (p_blocked (s_parent s)) eqn:Bl; [now apply pending_inv|].
  destruct (p_disp (s_parent s)) eqn:Di; [now apply inv_die|exact I|].
  pose proof (i_signal _ I) as C. unfold signal_inv in C.
  destruct (p_pc (s_parent s)) as [| | | | |e| | |r|[]| |] eqn:Pc; unfold p_alive in Al; rewrite Pc in Al; try discriminate Al;
    decompose [and] C; try congruence; now apply inv_handle.
Qed.

Lemma resize_more n l : (List.length l <= n)%nat -> resize n l = l ++ repeat 0 (n - List.length l).
Proof.
  intros L. unfold resize. apply firstn_all2. rewrite app_length, repeat_length. lia.
Qed.
Lemma store_kept off chunk l : (off + List.length chunk <= List.length l)%nat ->
  firstn (off + List.length chunk) (store off chunk l) = firstn off l ++ chunk /\
  List.length (store off chunk l) = List.length l.
Proof.
  intros L. unfold store. assert (Lf : List.length (firstn off l) = off) by (rewrite firstn_length; lia). split.
  - rewrite app_assoc, firstn_app. rewrite firstn_all2 by (rewrite app_length; lia).
    rewrite app_length, Lf, Nat.sub_diag. cbn [firstn]. now rewrite app_nil_r.
  - rewrite !app_length, Lf, skipn_length. lia.
Qed.
Lemma resize_firstn n m l : (n <= m)%nat -> (n <= List.length l)%nat -> firstn n (resize m l) = firstn n l.
Proof.
  intros L1 L2. unfold resize. rewrite firstn_firstn, Nat.min_l by lia. rewrite firstn_app.
  replace (n - List.length l)%nat with 0%nat by lia. cbn [firstn]. now rewrite app_nil_r.
Qed.
Lemma resize_length n l : List.length (resize n l) = n.
Proof. unfold resize. rewrite firstn_length, app_length, repeat_length. lia. Qed.

Lemma there_ended c w : c_pc c = CEnded w -> there c.
Proof. intros E. split; [congruence|intros w'; congruence]. Qed.

Lemma inv_parent s s' : d <> DHandler -> inv s -> parent_step want s s' -> inv s'.
Proof.
  intros Hd I St. pose proof I as [A B C]. unfold data_inv in B. unfold signal_inv in C.
  destruct St as [s P|s P|s P|s P|s P|s P|s e P E|s P E Cl|s e w P Ec|s chunk rest P E L|s P E Al|s w P Ec|s r P]; rewrite P in B, C.
  - constructor; [exact A| |]; [|destruct C as (C1 & _ & C2 & _); split; [exact C1|exact C2]]. unfold data_inv. cbn. destruct B as (B1 & B2 & _). auto.
  - constructor; [exact A|exact B|]. destruct C as (_ & _ & C). split; [reflexivity|exact C].
  - destruct B as (B1 & B2). unfold child_inv in A. rewrite B1 in A. destruct A as (A1 & A2 & A3 & A4).
    constructor.
    + cbn. now repeat split.
    + cbn. split; [split; [discriminate|intros w; discriminate]|]. destruct B2 as (B2 & B3). split; [exact B2|].
      cbn. intros W. now rewrite (B3 W).
    + exact C.
  - constructor; [exact A|exact Logic.I|exact Logic.I].
  - constructor; [exact A|exact B|]. destruct C as (C & _). split; [exact C|split; reflexivity].
  - destruct C as (_ & C2 & C3). unfold unblock_parent.
    assert (I' : inv (with_parent (at_parent PErrno (p_signals false false (p_disp (s_parent s)) (p_registered (s_parent s)) (s_parent s))) s)).
    { constructor; [exact A|exact B|]. split; [reflexivity|split; assumption]. }
    destruct (p_pending (s_parent s)); [now apply inv_int|exact I'].
  - constructor; [exact A| |exact C]. cbn. destruct B as (B1 & B2). split; [exact B1|split; [exact B2|exact E]].
  - destruct B as (B1 & B2 & B3). destruct want eqn:W.
    + constructor; [exact A| |exact C]. cbn. split; [exact B1|]. split; [exact Cl|]. split; [exact E|]. split; [exact W|].
      split; [reflexivity|]. exists []. rewrite firstn_all, app_nil_r. split; [exact B2|]. cbn. symmetry. now apply B3.
    + constructor; [exact A| |exact C]. cbn. split; [exact B1|]. split; [exact Cl|]. split; [exact E|]. rewrite W. split; [discriminate|].
      now rewrite app_nil_r.
  - constructor; [|  |destruct C as (C1 & C2 & C3); repeat split; assumption || discriminate].
    + unfold child_inv in *. rewrite Ec in A. exact A.
    + cbn. destruct B as (_ & (B2 & _) & B3). split; [eexists; reflexivity|split; assumption].
  - destruct B as (B1 & B2 & B3 & B4 & B5 & got & B6 & B7). constructor; [exact A| |unfold signal_inv; cbn; rewrite P; exact C]. unfold data_inv. cbn. rewrite P.
    split; [exact B1|]. split; [exact B2|]. split; [exact B3|]. split; [exact B4|].
    destruct (store_kept (p_offset (s_parent s)) chunk (resize (p_offset (s_parent s) + read_size) (p_buffer (s_parent s)))) as (K1 & K2).
    { rewrite resize_length. lia. }
    split; [rewrite K2, resize_length; lia|]. exists (got ++ chunk). split.
    + rewrite K1, resize_firstn, B6 by (unfold read_size in *; lia). now rewrite app_assoc.
    + rewrite B7, E. now rewrite app_assoc.
  - destruct B as (B1 & B2 & B3 & B4 & B5 & got & B6 & B7). constructor; [exact A| |exact C]. unfold data_inv. cbn.
    split; [exact B1|]. split; [exact B2|]. split; [exact B3|]. split; [auto|]. rewrite B4.
    rewrite B7, E, app_nil_r, <- B6. set (n := p_offset (s_parent s)) in *.
    rewrite <- (resize_firstn n (n + read_size)%nat (p_buffer (s_parent s))) by lia.
    set (l := resize (n + read_size) (p_buffer (s_parent s))). assert (Ll : (n <= List.length l)%nat) by (unfold l; rewrite resize_length; lia).
    unfold resize. rewrite firstn_app. replace (n - List.length l)%nat with 0%nat by lia. cbn [firstn]. now rewrite app_nil_r.
  - constructor; [|  |destruct C as (C1 & C2 & C3); repeat split; assumption || (destruct w; discriminate)].
    + unfold child_inv in *. rewrite Ec in A. exact A.
    + cbn. destruct B as (_ & _ & B3 & B4 & B5). unfold returning. destruct w as [n|n]; cbn [status_of].
      * split; [eexists; split; reflexivity|]. split; [exact B3|exact B5].
      * split; [eexists; split; reflexivity|]. split; [exact B3|exact B5].
  - constructor; [exact A|exact B|]. unfold signal_inv. cbn. destruct C as (C & _ & _ & Nr). destruct r; [split; [exact C|reflexivity]|congruence|split; [exact C|reflexivity]].
Qed.

(** The child as it goes on itself: from [c] to [c']. *)
Lemma inv_child s s' : inv s -> child_step s s' -> inv s'.
Proof.
  intros [A B C] St. unfold child_inv in A. unfold data_inv, untouched in B.
  assert (U : forall c', c_out c' = c_out (s_child s) -> there c' -> errno_closed (s_child s) = false -> c_pc (s_child s) <> CNone ->
    there (s_child s) -> data_inv (with_child c' s)).
  { intros c' Eo T Ec Nn T0. unfold data_inv, untouched. cbn. rewrite Eo. destruct (p_pc (s_parent s)) as [| | | | |e| | |r|r| |]; try tauto.
    all: exfalso; try (destruct B as (B & _); congruence); try (destruct B as (_ & B & _); congruence).
    all: destruct T0 as (_ & T0); unfold returning in B; destruct r; [destruct B as ((w & B) & _)|tauto|destruct B as ((w & B & _) & _)]; eapply T0; eauto. }
  destruct St as [s P|s P|s P|s P|s P|s P|s e P|s e P|s P]; rewrite P in A.
  all: assert (T0 : there (s_child s)) by (split; [congruence|intros w; congruence]).
  1,2,4,5,6,7: constructor; [|apply U; [reflexivity|split; [discriminate|intros w; discriminate]|unfold errno_closed; now rewrite P|congruence|exact T0]|exact C].
  - exact A.
  - exact A.
  - exact A.
  - cbn. destruct A as (A1 & A2 & A3 & A4). rewrite A1, A2, A3, A4. repeat split; auto.
  - cbn. destruct A as (A1 & A2 & A3 & A4). repeat split; auto.
  - cbn. destruct A as (A1 & A2 & A3 & A4). repeat split; auto.
  - assert (I' : inv (with_child (at_child CSetup (c_signals false false (c_disp (s_child s)) (c_ints (s_child s)) (c_terms (s_child s)) (s_child s))) s)).
    { constructor; [exact A|apply U; [reflexivity|split; [discriminate|intros w; discriminate]|unfold errno_closed; now rewrite P|congruence|exact T0]|exact C]. }
    unfold unblock_child. destruct (c_pending (s_child s)); [|exact I'].
    match type of I' with inv (with_child ?X s) => exact (inv_disturbed (int_child X) (with_child X s) (int_disturbed X) I') end.
  - destruct A as (A1 & A2 & A3 & A4). constructor.
    + cbn. rewrite A1. repeat split; auto. discriminate.
    + unfold data_inv, untouched. cbn. assert (Ec : errno_closed (s_child s) = false) by (unfold errno_closed; now rewrite P).
      destruct (p_pc (s_parent s)) as [| | | | |n| | |r|r| |]; try exact Logic.I.
      all: try (destruct B as (B & _); congruence).
      1,2,3: destruct B as (_ & B); split; [split; [discriminate|intros w; discriminate]|exact B].
      * destruct B as (_ & _ & B). congruence.
      * destruct B as (_ & B & _). congruence.
      * destruct B as (_ & B & _). congruence.
      * exfalso. destruct T0 as (T1 & T0). unfold returning in B. destruct r; [destruct B as ((w & B) & _)|tauto|destruct B as ((w & B & _) & _)]; eapply T0; eauto.
      * exfalso. destruct T0 as (T1 & T0). unfold returning in B. destruct r; [destruct B as ((w & B) & _)|tauto|destruct B as ((w & B & _) & _)]; eapply T0; eauto.
    + exact C.
  - destruct A as (A1 & A2 & A3 & A4). constructor.
    + cbn. rewrite <- A1. repeat split; auto.
    + unfold data_inv, untouched. cbn.
      destruct (p_pc (s_parent s)) as [| | | | |n| | |r|r| |]; try exact Logic.I.
      all: try (destruct B as (B & _); congruence).
      1,2,3,4: destruct B as (_ & B); split; [split; [discriminate|intros w; discriminate]|exact B].
      * destruct B as (_ & _ & B & _). congruence.
      * destruct B as (_ & _ & B & _). congruence.
      * exfalso. destruct T0 as (T1 & T0). unfold returning in B. destruct r; [destruct B as ((w & B) & _)|tauto|destruct B as ((w & B & _) & _)]; eapply T0; eauto.
      * exfalso. destruct T0 as (T1 & T0). unfold returning in B. destruct r; [destruct B as ((w & B) & _)|tauto|destruct B as ((w & B & _) & _)]; eapply T0; eauto.
    + exact C.
Qed.

Lemma running_data s : c_pc (s_child s) = CRun -> data_inv s -> forall r, p_pc (s_parent s) <> PLeave r /\ p_pc (s_parent s) <> PDone r.
Proof.
  intros P B r. unfold data_inv in B. split; intros Q; rewrite Q in B; unfold returning in B;
    destruct r; [destruct B as ((w & B) & _)|destruct B as (B & _)|destruct B as ((w & B & _) & _)| destruct B as ((w & B) & _)|destruct B as (B & _)|destruct B as ((w & B & _) & _)]; congruence.
Qed.
Lemma inv_command s s' : inv s -> command_step want room s s' -> inv s'.
Proof.
  intros I St. pose proof I as [A B C]. unfold child_inv in A. destruct St as [s bytes P L|s dd P|s n P L]; pose proof (running_data s P B) as R; rewrite P in A.
  - destruct A as (A1 & A2 & A3). constructor.
    + cbn. unfold child_inv. cbn. rewrite P. auto.
    + unfold data_inv, untouched in *. cbn. destruct (p_pc (s_parent s)) as [| | | | |e| | |r|r| |]; try exact Logic.I.
      all: try (destruct B as (B & _); congruence).
      all: try (destruct (R r) as (R1 & R2); congruence).
      1,2,3: destruct B as (B1 & B2 & B3); split; [exact B1|split; [exact B2|intros W; rewrite W, (B3 W); reflexivity]].
      * destruct B as (_ & _ & B). congruence.
      * destruct B as (B1 & B2 & B3 & B4 & B5 & got & B6 & B7). rewrite B4. do 5 (split; [assumption||reflexivity|]). exists got. split; [exact B6|]. now rewrite B7, app_assoc.
      * destruct B as (B1 & B2 & B3 & B4 & B5). split; [exact B1|]. split; [exact B2|]. split; [exact B3|]. split; [exact B4|].
        destruct want; [|exact B5]. specialize (B4 eq_refl). unfold c_alive in B4. rewrite P in B4. discriminate.
    + exact C.
  - destruct A as (A1 & A2 & A3). apply inv_disturbed; [|exact I]. repeat split. left. reflexivity.
  - destruct A as (A1 & A2 & A3). constructor.
    + cbn. rewrite A1, A3. repeat split; auto; [congruence|]. intros Q. congruence.
    + unfold data_inv, untouched in *. cbn. destruct (p_pc (s_parent s)) as [| | | | |e| | |r|r| |]; try exact Logic.I.
      all: try (destruct B as (B & _); congruence).
      all: try (destruct (R r) as (R1 & R2); congruence).
      1,2,3,4: destruct B as (B1 & B2); split; [split; [discriminate|intros w; discriminate]|exact B2].
      * destruct B as (B1 & B2 & B3). split; [split; [discriminate|intros w; discriminate]|]. split; [reflexivity|exact B3].
      * destruct B as (B1 & B2 & B3 & B4 & B5). split; [split; [discriminate|intros w; discriminate]|]. split; [reflexivity|]. split; [exact B3|]. split; [reflexivity|exact B5].
    + exact C.
Qed.

Lemma inv_outside s s' : d <> DHandler -> inv s -> outside_step s s' -> inv s'.
Proof.
  intros Hd I St. destruct St as [s|s|s n Al L|s Al].
  - now apply inv_int.
  - unfold int_terminal. apply inv_int; [exact Hd|]. destruct (c_group (s_child s)); [exact I|]. apply inv_disturbed; [apply int_disturbed|exact I].
  - apply inv_disturbed; [|exact I]. repeat split. right. split; [exact Al|]. eexists. reflexivity.
  - now apply inv_die.
Qed.

Lemma inv_started : inv (started d buffer).
Proof. constructor; cbn; repeat split; auto. Qed.
Lemma inv_run s : d <> DHandler -> run want room (started d buffer) s -> inv s.
Proof.
  intros Hd R. induction R as [|s1 s2 R IH St]; [apply inv_started|].
  destruct St as [Al St|St|St|St]; [exact (inv_parent _ _ Hd IH St)|exact (inv_child _ _ IH St)|exact (inv_command _ _ IH St)|exact (inv_outside _ _ Hd IH St)].
Qed.
End Inv.

(** ** The signals of the child *)
Section Signals.
Context (want : bool) (room : nat) (d : disposition) (buffer : list N).
Definition csig (c : child) : Prop :=
  match c_pc c with
  | CGroup => c_blocked c = true /\ c_disp c = d /\ c_group c = false
  | CPrctl => c_blocked c = true /\ c_disp c = d /\ c_group c = true
  | CUnblock => c_blocked c = true /\ c_disp c = d /\ c_group c = true /\ c_tied c = true
  | CSetup | CExec | CWrite _ | CQuit => c_blocked c = false /\ c_disp c = d /\ c_group c = true /\ c_tied c = true
  | CRun => c_blocked c = false /\ c_group c = true /\ c_tied c = true
  | CNone | CEnded _ | CReaped _ => True
  end.
Lemma csig_int c : csig c -> csig (int_child c).
Proof.
  intros H. unfold int_child. destruct (c_alive c); cbn [negb]; [|exact H].
  destruct (c_blocked c) eqn:B; [|destruct (c_disp c) eqn:D; [exact Logic.I|exact H|]].
  - unfold csig in *. cbn. rewrite B in H. destruct (c_pc c); auto; destruct H; try discriminate; auto.
  - unfold csig in *. cbn. rewrite ?B, ?D in H. destruct (c_pc c); auto.
Qed.
Lemma csig_term c : csig c -> csig (term_child c).
Proof.
  intros H. unfold term_child. destruct (c_alive c); cbn [negb]; [|exact H].
  destruct (c_pc c) eqn:P; try exact Logic.I. unfold csig in *. cbn. rewrite P in *. exact H.
Qed.
Lemma csig_die s : csig (s_child s) -> csig (s_child (die s)).
Proof. intros H. unfold die. destruct (c_tied (s_child s)); [now apply csig_term|exact H]. Qed.
Lemma csig_handle s : csig (s_child s) -> csig (s_child (handle_signal s)).
Proof.
  intros H. unfold handle_signal. destruct (p_registered (s_parent s)); cbn [negb]; [|exact H].
  destruct (c_pc (s_child s)); try exact H; destruct (c_group (s_child s)); try exact H; now apply csig_int.
Qed.
Lemma csig_int_parent s : csig (s_child s) -> csig (s_child (int_parent s)).
Proof.
  intros H. unfold int_parent. destruct (p_alive (s_parent s)); cbn [negb]; [|exact H].
  destruct (p_blocked (s_parent s)); [exact H|]. destruct (p_disp (s_parent s)); [now apply csig_die|exact H|now apply csig_handle].
Qed.
Lemma csig_run s : d <> DHandler -> run want room (started d buffer) s -> csig (s_child s).
Proof.
  intros Hd R. induction R as [|s1 s2 R IH St]; [exact Logic.I|].
  pose proof (inv_run _ _ _ _ _ Hd R) as I.
  destruct St as [Al St|St|St|St].
  - destruct St; try exact IH.
    + cbn. pose proof (i_signal _ _ _ _ I) as X. unfold signal_inv in X. rewrite H in X. unfold csig. cbn. tauto.
    + unfold unblock_parent. destruct (p_pending (s_parent s)); [apply csig_int_parent; exact IH|exact IH].
    + exact Logic.I.
    + exact Logic.I.
  - destruct St; unfold csig in *; cbn; try rewrite H in IH; try tauto.
    unfold unblock_child. destruct (c_pending (s_child s)); [apply csig_int|]; unfold csig; cbn; tauto.
  - destruct St; unfold csig in *; cbn; rewrite ?H in *; tauto.
  - destruct St.
    + now apply csig_int_parent.
    + unfold int_terminal. apply csig_int_parent. destruct (c_group (s_child s)); [exact IH|]. now apply csig_int.
    + exact Logic.I.
    + now apply csig_die.
Qed.
End Signals.
