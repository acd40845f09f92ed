(** C01, C02, C03: IntervalMap (src/intervalmap.h). *)
From Verif Require Import Base IntervalMapModel IntervalMapSpec IntervalMapProofs.
Local Open Scope N_scope.

(** C01. After any sequence of calls that did not abort, every lookup returns
    what the last call covering the key left there. *)
Theorem C01_last_write_wins (V : Type) (ops : list (im_op V)) (m : imap V) :
  im_run [] ops = Ok m ->
  forall k, im_lookup m k = value_after None ops k.
Proof. exact (fun E => proj2 (im_run_ok_inv ops m E)). Qed.
Print Assumptions C01_last_write_wins.

(** C01. A sequence of calls with non-empty ranges always runs to completion;
    any empty range aborts the process; nothing else can happen (in particular
    no undefined behaviour). *)
Theorem C01_runs_iff_ranges_nonempty (V : Type) (ops : list (im_op V)) :
  if forallb op_valid ops
  then exists m, im_run (V:=V) [] ops = Ok m
  else im_run (V:=V) [] ops = Abort.
Proof.
  destruct (forallb op_valid ops) eqn:E.
  - destruct (im_run_spec ops [] I E) as (m & Hm & _). exists m; exact Hm.
  - exact (im_run_invalid ops [] I E).
Qed.
Print Assumptions C01_runs_iff_ranges_nonempty.

Example C01_nontrivial :
  exists m, im_run (V:=nat) []
    [OpSet 10 20 1%nat; OpSet 15 25 2%nat; OpClearInterval 12 13; OpSet 5 11 3%nat]
    = Ok m /\ im_lookup m 10 = Some 3%nat /\ im_lookup m 11 = Some 1%nat /\
      im_lookup m 12 = None /\ im_lookup m 19 = Some 2%nat.
Proof. eexists. vm_compute. repeat split. Qed.

(** C02. Entry i and a later entry j of the stored table: both non-empty, and
    i ends before j starts; so the table is sorted and disjoint. *)
Theorem C02_entries_sorted_disjoint (V : Type) (ops : list (im_op V)) (m : imap V) :
  im_run [] ops = Ok m ->
  forall i j si li vi sj lj vj, (i < j)%nat ->
    nth_error m i = Some (si, (li, vi)) -> nth_error m j = Some (sj, (lj, vj)) ->
    si < li /\ li <= sj /\ sj < lj.
Proof.
  exact (fun E i j si li vi sj lj vj Hij Hi Hj =>
    wf_nth m i j si li vi sj lj vj 0 (proj1 (im_run_ok_inv ops m E)) Hij Hi Hj).
Qed.
Print Assumptions C02_entries_sorted_disjoint.

(** C02. Every stored interval is non-empty (also when it is the only one). *)
Theorem C02_entries_nonempty (V : Type) (ops : list (im_op V)) (m : imap V) :
  im_run [] ops = Ok m ->
  forall s l v, In (s, (l, v)) m -> s < l.
Proof.
  exact (fun E s l v Hin =>
    proj2 (wf_in 0 m s l v (proj1 (im_run_ok_inv ops m E)) Hin)).
Qed.
Print Assumptions C02_entries_nonempty.

(** C03. FindNext returns the first interval starting after the key. *)
Theorem C03_find_next_is_first_start_after (V : Type)
    (ops : list (im_op V)) (m : imap V) (k : N) :
  im_run [] ops = Ok m ->
  match im_find_next m k with
  | Some (s, l, v) =>
      In (s, (l, v)) m /\ k < s /\
      (forall s' l' v', In (s', (l', v')) m -> k < s' -> s <= s')
  | None => forall s' l' v', In (s', (l', v')) m -> s' <= k
  end.
Proof. exact (fun E => find_next_spec 0 m k (proj1 (im_run_ok_inv ops m E))). Qed.
Print Assumptions C03_find_next_is_first_start_after.

(** C03, finding: intervalmap.h:35-38 documents "Find the interval containing
    key, or the next interval"; the code never returns the containing one. *)
Theorem C03_documented_find_next_refuted :
  exists (ops : list (im_op nat)) m k v,
    im_run [] ops = Ok m /\ im_lookup m k = Some v /\ im_find_next m k = None.
Proof.
  exists [OpSet 10 20 7%nat], [(10, (20, 7%nat))], 15, 7%nat.
  vm_compute. repeat split.
Qed.
Print Assumptions C03_documented_find_next_refuted.
