(** More of C02: what Size counts. *)
From Verif Require Import Base IntervalMapModel IntervalMapSpec IntervalMapProofs IntervalMapProps.
Local Open Scope N_scope.

Lemma content_iff {V} (m : imap V) : forall lo k v, wf lo m ->
  content m k = Some v <-> exists s l, In (s, (l, v)) m /\ s <= k < l.
Proof.
  induction m as [|[s [l w]] m IH]; intros lo k v W; cbn [content].
  - split; [discriminate|intros (? & ? & [] & _)].
  - destruct W as (W1 & W2 & W3). destruct (N.leb_spec s k), (N.ltb_spec k l); cbn [andb];
      try (rewrite (IH l k v W3); split; [intros (s' & l' & I & B); exists s', l'; split; [now right|exact B]|];
           intros (s' & l' & [E|I] & B); [injection E as <- <- <-; lia|now exists s', l']).
    split.
    + intros E. injection E as <-. exists s, l. split; [now left|lia].
    + intros (s' & l' & [E|I] & B); [now injection E as <- <- <-|]. apply (wf_in l m) in I; [lia|exact W3].
Qed.

(** *** Size is the number of intervals: there are just so many intervals, none of them
    empty, each ending before the next begins, and a lookup gives the value of the one the
    key is in; FindNext gives each of them (but one that begins at 0) in turn. *)
Theorem C02_size (V : Type) (ops : list (im_op V)) (m : imap V) :
  im_run [] ops = Ok m ->
  exists intervals : list (N * N * V),
    List.length intervals = im_size m /\
    (forall k v, im_lookup m k = Some v <-> exists s l, In (s, l, v) intervals /\ s <= k < l) /\
    (forall i j s l v s' l' v', (i < j)%nat -> nth_error intervals i = Some (s, l, v) -> nth_error intervals j = Some (s', l', v') -> l <= s') /\
    (forall s l v, In (s, l, v) intervals -> s < l) /\
    (forall s l v, In (s, l, v) intervals -> 0 < s -> im_find_next m (s - 1) = Some (s, l, v)).
Proof.
  intros E. destruct (im_run_ok_inv ops m E) as [W _]. exists (map (fun e => (fst e, fst (snd e), snd (snd e))) m).
  split; [apply map_length|].
  assert (A : forall s l v, In (s, l, v) (map (fun e : N * (N * V) => (fst e, fst (snd e), snd (snd e))) m) <-> In (s, (l, v)) m).
  { intros s l v. rewrite in_map_iff. split; [intros ((a & b & c) & H & I); cbn in H; now injection H as -> -> ->|].
    intros I. now exists (s, (l, v)). }
  split; [|split; [|split]].
  - intros k v. rewrite (im_lookup_content 0 m k W), (content_iff m 0 k v W).
    split; intros (s & l & I & B); exists s, l; (split; [now apply A|exact B]).
  - intros i j s l v s' l' v' L Hi Hj. rewrite nth_error_map in Hi, Hj.
    destruct (nth_error m i) as [[a [b c]]|] eqn:Ei; [|discriminate Hi]. destruct (nth_error m j) as [[a' [b' c']]|] eqn:Ej; [|discriminate Hj].
    cbn in Hi, Hj. injection Hi as -> -> ->. injection Hj as -> -> ->.
    now destruct (C02_entries_sorted_disjoint V ops m E i j _ _ _ _ _ _ L Ei Ej) as (_ & ? & _).
  - intros s l v I. apply A in I. exact (C02_entries_nonempty V ops m E s l v I).
  - intros s l v I P. apply A in I. pose proof (C03_find_next_is_first_start_after V ops m (s - 1) E) as F.
    destruct (im_find_next m (s - 1)) as [[[s' l'] v']|]; [|pose proof (F s l v I); lia].
    destruct F as (I' & G & H). assert (s' = s) as -> by (specialize (H s l v I ltac:(lia)); lia).
    apply In_nth_error in I as (i & Ei). apply In_nth_error in I' as (j & Ej).
    destruct (Nat.lt_trichotomy i j) as [L|[->|L]].
    + pose proof (C02_entries_sorted_disjoint V ops m E i j _ _ _ _ _ _ L Ei Ej). lia.
    + rewrite Ei in Ej. now injection Ej as -> ->.
    + pose proof (C02_entries_sorted_disjoint V ops m E j i _ _ _ _ _ _ L Ej Ei). lia.
Qed.
Print Assumptions C02_size.
Example C02_size_met :
  exists m, im_run (V:=nat) [] [OpSet 10 20 1%nat; OpSet 15 25 2%nat; OpClearInterval 12 13] = Ok m /\ im_size m = 3%nat.
Proof. eexists. vm_compute. repeat split. Qed.
