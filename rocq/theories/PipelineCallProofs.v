(** C62: the samples the Normalizer delivers are those of the events. *)
From Coq Require Import String.
From Verif Require Import Base BytesModel TextModel Assoc PerfProto NormalizerModel NormalizerSpec NormalizerProofs
  NormalizerMoreProofs NormalizerProps ConverterModel.
From Verif Require ConverterSpec.
Local Open Scope N_scope.
Local Open Scope list_scope.

(** What the totals depend on: event, whether lost, period. *)
Definition brief := (Z * bool * N)%type.
Definition briefs (cs : list hcall) : list brief :=
  flat_map (fun h => match h with
                     | HSample cx => [(cx_attr cx, cx_lost cx, s_period (cx_sample cx))]
                     | _ => []
                     end) cs.

Definition id_index (e : nenv) (id : option N) : Z :=
  if ne_attrs e =? 1 then 0%Z
  else match id with
       | None => (-1)%Z
       | Some id => match aget N.eqb id (ne_ids e) with None => (-1)%Z | Some i => Z.of_N i end
       end.
Lemma event_index_id e sm : event_index e sm = id_index e (s_id sm).
Proof. reflexivity. Qed.

Definition lost_briefs (e : nenv) (l : lost_ev) : list brief :=
  if (id_index e (Some (lo_id l)) =? -1)%Z then []
  else repeat (id_index e (Some (lo_id l)), true, 0) (N.to_nat (lo_lost l)).
Definition event_briefs (e : nenv) (ev : perf_event) : list brief :=
  match ev_what ev with
  | EvSample sm => if (id_index e (s_id sm) =? -1)%Z then [] else [(id_index e (s_id sm), false, s_period sm)]
  | EvLostSamples l => if ne_lost_samples e then lost_briefs e l else []
  | EvLost l => if ne_lost_samples e then [] else lost_briefs e l
  | _ => []
  end.

Lemma briefs_app a b : briefs (a ++ b) = briefs a ++ briefs b.
Proof. apply flat_map_app. Qed.
Lemma on_mmap_briefs e s m s' cs : on_mmap e s m = Ok (s', cs) -> briefs cs = [].
Proof.
  unfold on_mmap. destruct (mm_len m =? 0); intros H; [now injection H as _ <-|].
  ok_inv H. ok_inv H0. ok_inv H. injection H0 as _ <-. reflexivity.
Qed.
Lemma on_sample_briefs e s misc sm s' cs : on_sample e s misc sm None = Ok (s', cs) ->
  briefs cs = if (id_index e (s_id sm) =? -1)%Z then [] else [(id_index e (s_id sm), false, s_period sm)].
Proof.
  unfold on_sample. rewrite event_index_id. destruct (id_index e (s_id sm) =? -1)%Z; intros H; [now injection H as _ <-|].
  ok_inv H. ok_inv H0. ok_inv H. destruct a1 as (s1, main). ok_inv H0. ok_inv H. ok_inv H0. ok_inv H.
  injection H0 as _ <-. reflexivity.
Qed.
Lemma deliver_lost_briefs e s l s' cs : deliver_lost e s l = Ok (s', cs) -> briefs cs = lost_briefs e l.
Proof.
  unfold deliver_lost, lost_briefs. rewrite event_index_id. cbn [s_id].
  destruct (id_index e (Some (lo_id l)) =? -1)%Z; intros H; [now injection H as _ <-|].
  destruct (fake_mapping _ _ _ _ _) as (s1, p). ok_inv H. injection H0 as _ <-.
  induction (N.to_nat (lo_lost l)) as [|n IH]; [reflexivity|]. cbn [repeat briefs flat_map app]. now f_equal.
Qed.
Lemma on_event_briefs e s ev s' cs : ne_spe e = false -> on_event e s ev = Ok (s', cs) -> briefs cs = event_briefs e ev.
Proof.
  intros Sp. unfold on_event, event_briefs. destruct ev as [misc what]. cbn [ev_what ev_misc].
  destruct what as [m|c|f|id path|l|l|sm|ty|tr base|k|]; intros H.
  - ok_inv H. destruct a as (s1, c1). injection H0 as _ <-. now apply on_mmap_briefs in E.
  - unfold on_comm in H. destruct (cm_pid c =? cm_tid c); injection H as _ <-; reflexivity.
  - now injection H as _ <-.
  - now injection H as _ <-.
  - destruct (ne_lost_samples e); [now apply deliver_lost_briefs in H|now injection H as _ <-].
  - destruct (ne_lost_samples e); [now injection H as _ <-|now apply deliver_lost_briefs in H].
  - now apply on_sample_briefs in H.
  - now injection H as _ <-.
  - rewrite Sp in H. destruct tr; now injection H as _ <-.
  - destruct ((ks_type k =? 1) && (ks_flags k =? 0)); [now apply on_mmap_briefs in H|now injection H as _ <-].
  - now injection H as _ <-.
Qed.
Lemma run_briefs e evs : ne_spe e = false -> forall s s' cs, run_events e s evs = Ok (s', cs) ->
  briefs cs = flat_map (event_briefs e) evs.
Proof.
  intros Sp. induction evs as [|ev evs IH]; intros s s' cs H; cbn [run_events] in H; [now injection H as _ <-|].
  ok_inv H. destruct a as (s1, c1). ok_inv H0. destruct a as (s2, c2). injection H as _ <-.
  rewrite briefs_app, (on_event_briefs _ _ _ _ _ Sp E), (IH _ _ _ E0). reflexivity.
Qed.
Lemma process_briefs p cs : process p = Ok cs ->
  exists e, normalizer_env p = Ok e /\ (has_spe (pp_events p) = false -> briefs cs = flat_map (event_briefs e) (pp_events p)).
Proof.
  unfold process. intros H. ok_inv H. ok_inv H0. destruct a0 as (s, cs'). injection H as <-. exists a. split; [exact E|].
  intros Sp. apply (run_briefs a (pp_events p)) with (2 := E0).
  unfold normalizer_env in E. destruct (fold_left add_build_id _ _). ok_inv E. injection H as <-. exact Sp.
Qed.

(** Totals in these terms. *)
Definition brief_of (c : cfg) (i : nat) (b : brief) : bool :=
  let '(z, l, _) := b in
  ((0 <=? z)%Z && (z <? Z.of_nat (ConverterSpec.events c))%Z && negb (l && ConverterSpec.drops_lost c)) && (z =? Z.of_nat i)%Z.
Definition brief_weight (c : cfg) (i : nat) (b : brief) : Z :=
  let '(_, _, p) := b in
  let event_period := match nth_error (pp_attrs (cf_data c)) i with Some a => fa_period a | None => 0 end in
  if 0 <? p then ConverterSpec.int64_of p
  else if 0 <? event_period then ConverterSpec.int64_of event_period else 1%Z.
Lemma samples_brief c i cs :
  Z.of_nat (List.length (filter (ConverterSpec.sample_of c i) cs)) = Z.of_nat (List.length (filter (brief_of c i) (briefs cs))) /\
  ConverterSpec.sum (map (ConverterSpec.weight c i) (filter (ConverterSpec.sample_of c i) cs)) =
  ConverterSpec.sum (map (brief_weight c i) (filter (brief_of c i) (briefs cs))).
Proof.
  induction cs as [|h cs (IH1 & IH2)]; [split; reflexivity|].
  destruct h as [cx|cm ex|pid m]; try exact (conj IH1 IH2).
  cbn [briefs flat_map app filter]. fold (briefs cs).
  cbn [ConverterSpec.sample_of brief_of]. unfold ConverterSpec.kept.
  match goal with |- context [if ?b then _ else _] => destruct b end; [|exact (conj IH1 IH2)].
  cbn [List.length map ConverterSpec.sum fold_right]. unfold ConverterSpec.sum in IH2. rewrite IH2. split; [lia|reflexivity].
Qed.
