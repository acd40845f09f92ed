(** C65: what the events say is what the messages say. *)
From Coq Require Import String Permutation.
From Verif Require Import Base BytesModel TextModel Assoc PerfProto NormalizerModel NormalizerSpec ConverterSpec SerializerModel.
From Verif Require HugePageModel.
From Verif Require Import PipelineModel PipelineSpec PipelineProofs RecordSpec.
Local Open Scope N_scope.
Local Open Scope list_scope.

Section Digest.
Variables (md5 base : list N -> N).
Let ev := proto_event md5 base.

Lemma facts_same s : sample_facts (proto_sample s) = record_facts s.
Proof.
  unfold sample_facts, record_facts, proto_sample.
  cbn [s_ip s_pid s_tid s_time s_addr s_id s_period s_cpu s_callchain s_branch s_weight s_wstruct s_data_src s_cgroup s_data_page s_code_page].
  rewrite map_map. destruct (xsa_weight_struct s) as [((a, b), c)|]; reflexivity.
Qed.

Lemma says_event xm : says xm (ev xm).
Proof.
  destruct xm as (x, [v|]); unfold says; cbn [fst snd].
  - eexists. split; [reflexivity|]. do 6 (split; [reflexivity|]). reflexivity.
  - unfold ev, proto_event, announced. cbn [fst snd ev_what].
    destruct (xe_body x); try (split; [reflexivity|discriminate]).
    + eexists. split; [reflexivity|]. split; reflexivity.
    + eexists. split; [reflexivity|]. do 4 (split; [reflexivity|]). reflexivity.
Qed.
Lemma says_events h : Forall2 says h (map ev h).
Proof. induction h as [|xm h IH]; constructor; [apply says_event|exact IH]. Qed.

Lemma seen_same pid h : had_mmap (map ev h) pid = map_seen h pid.
Proof.
  unfold had_mmap, map_seen. induction h as [|(x, m) h IH]; [reflexivity|]. cbn [map existsb]. rewrite IH. f_equal.
  unfold ev, proto_event. cbn [fst snd ev_what]. destruct m; [reflexivity|]. now destruct (xe_body x).
Qed.
Lemma name_same marked pid tid h : name_at marked (map ev h) pid tid = name_told md5 marked h pid tid.
Proof.
  induction h as [|(x, m) h IH]; [reflexivity|]. cbn [map name_at name_told].
  unfold ev at 1. unfold proto_event at 1. cbn [fst snd ev_what]. destruct m; [exact IH|].
  destruct (xe_body x); try exact IH. cbn [cm_pid cm_tid cm_comm cm_md5].
  destruct (N.eqb_spec (xc_pid m) pid) as [->|]; [|exact IH]. destruct (xc_tid m =? tid); [reflexivity|].
  unfold ev at 1. cbn [proto_event ev_misc fst]. unfold is_exec. rewrite seen_same, (N.eqb_sym pid), IH. reflexivity.
Qed.
Lemma path_same id h : path_at (map ev h) id = path_told h id.
Proof.
  induction h as [|(x, m) h IH]; [reflexivity|]. cbn [map path_at path_told]. rewrite IH.
  unfold ev, proto_event. cbn [fst snd ev_what]. destruct (path_told h id); [reflexivity|]. destruct m; [reflexivity|].
  now destruct (xe_body x).
Qed.

Lemma shape_same xs evs f : (forall x m, In (x, m) evs -> In x xs) -> same_shape xs f -> same_fields (map ev evs) f.
Proof.
  intros I S e s Ie W. apply in_map_iff in Ie as ((x, m) & <- & Ix). specialize (I x m Ix).
  unfold ev, proto_event in W. cbn [fst snd ev_what] in W. destruct m; [discriminate W|].
  destruct (xe_body x) eqn:B; try discriminate W. injection W as <-. exact (S x _ I B).
Qed.
End Digest.
