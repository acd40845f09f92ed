(** What the header and the mapping table of a profile say. *)
From Coq Require Import String.
From Verif Require Import Base TextModel ProfileModel PerfProto NormalizerModel ConverterModel ConverterSpec.
Local Open Scope N_scope.
Local Open Scope list_scope.

(** The names of the events: those of the recording if there is one per attribute,
    else none. *)
Definition names (d : perf_proto) : list (option (list N)) :=
  if (List.length (pp_types d) =? List.length (pp_attrs d))%nat then pp_types d
  else repeat None (List.length (pp_attrs d)).

(** Every event has a type counting its samples and one adding up their weights;
    unnamed events are numbered from [n]. *)
Fixpoint titles (n : N) (l : list (option (list N))) : list (list N) :=
  match l with
  | [] => []
  | Some s :: r => text (s ++ str "_sample") :: text (s ++ str "_event") :: titles n r
  | None :: r => text (str "event_" ++ print_dec n ++ str "_sample") ::
                 text (str "event_" ++ print_dec n ++ str "_event") :: titles (n + 1) r
  end.

(** The comments. *)
Definition remark (prefix : list N) (o : option (list N)) : list (list N) :=
  match o with Some v => [text (prefix ++ v)] | None => [] end.
Definition remarks (d : perf_proto) : list (list N) :=
  remark (str "perf-version:") (pp_version d) ++ remark (str "perf-command:") (pp_command d).

(** Mapping [m] of profile [p] shows the mapping [h] of the recording. *)
Definition shows (p : profile) (h : hmapping) (m : pmapping) : Prop :=
  mp_start m = hm_start h /\ mp_limit m = hm_limit h /\ mp_off m = hm_off h /\
  string_of p (mp_file m) = Some (text (name_or_md5 (hm_file h) (hm_md5 h))) /\
  string_of p (mp_build m) = Some (text (fst (hm_build h))).

(** It shows the mapping of some frame of the samples [l]. *)
Definition from_frame (c : cfg) (p : profile) (l : list sctx) (m : pmapping) : Prop :=
  exists cx a q h, In cx l /\ In (a, Some (q, h)) (stack_frames c cx) /\ shows p h m.

(** The main mapping: that of the first sample's process, or a placeholder. *)
Definition main_of (p : profile) (l : list sctx) (m : pmapping) : Prop :=
  match l with
  | [] => False
  | cx :: _ =>
      match cx_main cx with
      | Some (_, h) => shows p h m
      | None => mp_start m = 0 /\ mp_limit m = 1 /\ mp_off m = 0 /\
                string_of p (mp_file m) = Some [] /\ string_of p (mp_build m) = Some []
      end
  end.

(** The header of the profile into which the samples [l] went. *)
Record headed (c : cfg) (p : profile) (l : list sctx) : Prop := {
  hd_types : Forall2 (fun t v => string_of p (vt_type v) = Some t /\ string_of p (vt_unit v) = Some (str "count"))
               (titles 0 (names (cf_data c))) (pf_sample_type p);
  hd_default : string_of p (pf_default_type p) = Some (last (titles 0 (names (cf_data c))) []);
  hd_comments : Forall2 (fun t i => string_of p i = Some t) (remarks (cf_data c)) (pf_comment p);
  hd_mappings : exists m r, pf_mapping p = m :: r /\ main_of p l m /\ Forall (from_frame c p l) r }.
