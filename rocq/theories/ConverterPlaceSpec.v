(** Which mapping the location of a frame shows. *)
From Coq Require Import String.
From Verif Require Import Base TextModel ProfileModel SpeModel PerfProto NormalizerModel NormalizerSpec
  ConverterModel ConverterSpec ConverterHeadSpec.
Local Open Scope N_scope.
Local Open Scope list_scope.

(** The mapping with which address [a] of process [pid] was first seen in a frame of a
    kept sample, since the last exec of the process and the last mapping of the process
    over that address. [Some None]: first seen without a mapping. [None]: not seen since.
    Newest callback first. *)
Fixpoint first_seen (c : cfg) (pid a : N) (h : list hcall) : option (option mref) :=
  match h with
  | [] => None
  | HComm cm e :: h => if e && (cm_pid cm =? pid) then None else first_seen c pid a h
  | HMMap p (_, m) :: h =>
      if (p =? pid) && (hm_start m <=? a) && (a <? hm_limit m) then None else first_seen c pid a h
  | HSample cx :: h =>
      match first_seen c pid a h with
      | Some o => Some o
      | None =>
          if kept c cx && (dflt (s_pid (cx_sample cx)) =? pid)
          then option_map snd (find (fun f => fst f =? a) (stack_frames c cx)) else None
      end
  end.

(** Location [id] of profile [p] has address [a] and shows the mapping [o]: its mapping
    entry has the range, offset, build id and name of that mapping. *)
Definition placed_in (p : profile) (id a : N) (o : option mref) : Prop :=
  exists l, nth_error (pf_location p) (N.to_nat (id - 1)) = Some l /\ 1 <= id /\ lc_id l = id /\ lc_addr l = a /\
  match o with
  | None => lc_mapping l = 0
  | Some (_, h) => exists m h', nth_error (pf_mapping p) (N.to_nat (lc_mapping l - 1)) = Some m /\
      1 <= lc_mapping l /\ mp_id m = lc_mapping l /\ same_object h h' /\ shows p h' m
  end.

(** The same mapping object, or both none. *)
Definition same_ref (x y : option mref) : Prop :=
  match x, y with
  | Some (q, _), Some (q', _) => q = q'
  | None, None => True
  | _, _ => False
  end.

(** Frame [f] of sample [cx], the [i]-th callback, is settled: whenever, since the last
    exec and the last mapping over its address, a frame of a sample of the process had
    its address, it was in the same mapping. *)
Definition settled (c : cfg) (hs : list hcall) (i : nat) (cx : sctx) (f : N * option mref) : Prop :=
  forall j cy o, (j <= i)%nat -> nth_error hs j = Some (HSample cy) -> kept c cy = true ->
    dflt (s_pid (cx_sample cy)) = dflt (s_pid (cx_sample cx)) ->
    execed (dflt (s_pid (cx_sample cx))) (between j i hs) = false ->
    remapped (dflt (s_pid (cx_sample cx))) (fst f) (between j i hs) = false ->
    In (fst f, o) (stack_frames c cy) -> same_ref (snd f) o.
