(** What the converter promises, in terms of the callbacks it receives and the
    profiles it returns. *)
From Coq Require Import String.
From Verif Require Import Base TextModel Assoc ProfileModel SpeModel PerfProto NormalizerModel
  NormalizerSpec ConverterModel.
Local Open Scope N_scope.
Local Open Scope list_scope.

(** ** Options, as the values of the public header *)
Definition option_on (c : cfg) (mask : N) : bool := negb (N.land (cf_options c) mask =? 0).
Definition label_on (c : cfg) (mask : N) : bool := negb (N.land (cf_labels c) mask =? 0).
Definition grouped (c : cfg) : bool := option_on c 1.
Definition drops_lost (c : cfg) : bool := option_on c 16.
Definition data_frames (c : cfg) : bool := option_on c 8.

(** Number of events (attributes) of the recording. *)
Definition events (c : cfg) : nat := List.length (pp_attrs (cf_data c)).

(** The sample belongs to a known event and is not a dropped lost sample. *)
Definition kept (c : cfg) (cx : sctx) : bool :=
  (0 <=? cx_attr cx)%Z && (cx_attr cx <? Z.of_nat (events c))%Z &&
  negb (cx_lost cx && drops_lost c).

(** A kept sample of event [i]. *)
Definition sample_of (c : cfg) (i : nat) (h : hcall) : bool :=
  match h with
  | HSample cx => kept c cx && (cx_attr cx =? Z.of_nat i)%Z
  | _ => false
  end.

(** An unsigned 64-bit number read as a signed one. *)
Definition int64_of (x : N) : Z :=
  if x mod 2 ^ 64 <? 2 ^ 63 then Z.of_N (x mod 2 ^ 64) else (Z.of_N (x mod 2 ^ 64) - 2 ^ 64)%Z.

(** The weight of a sample of event [i]: its period if positive, else the event's
    period if positive, else 1. *)
Definition weight (c : cfg) (i : nat) (h : hcall) : Z :=
  match h with
  | HSample cx =>
      let event_period := match nth_error (pp_attrs (cf_data c)) i with
                          | Some a => fa_period a | None => 0 end in
      if 0 <? s_period (cx_sample cx) then int64_of (s_period (cx_sample cx))
      else if 0 <? event_period then int64_of event_period
      else 1%Z
  | _ => 0%Z
  end.

Definition sum (l : list Z) : Z := fold_right Z.add 0%Z l.

(** Sum of the [j]-th value over all samples of a profile, and of all profiles. *)
Definition profile_total (p : profile) (j : nat) : Z :=
  sum (map (fun s => nth j (ps_val s) 0%Z) (pf_sample p)).
Definition total (ps : list process_profile) (j : nat) : Z :=
  sum (map (fun p => profile_total (pr_data p) j) ps).

(** ** Which profile a sample goes to *)

(** The process a sample is filed under. *)
Definition filed_under (c : cfg) (cx : sctx) : N :=
  if grouped c then dflt (s_pid (cx_sample cx)) else 0.

(** Profiles are numbered in the order they are opened. [openp]: the profile
    currently open for a process; an exec closes it. *)
Fixpoint assign (c : cfg) (n : nat) (openp : N -> option nat) (hs : list hcall) : list (option nat) :=
  match hs with
  | [] => []
  | HSample cx :: r =>
      if kept c cx then
        let key := filed_under c cx in
        match openp key with
        | Some k => Some k :: assign c n openp r
        | None => Some n :: assign c (S n) (fun p => if p =? key then Some n else openp p) r
        end
      else None :: assign c n openp r
  | HComm cm e :: r =>
      None :: assign c n (fun p => if e && (p =? cm_pid cm) then None else openp p) r
  | HMMap _ _ :: r => None :: assign c n openp r
  end.
Definition assigned (c : cfg) (hs : list hcall) : list (option nat) := assign c 0 (fun _ => None) hs.

(** The samples filed into profile [k]. *)
Fixpoint filed (k : nat) (hs : list hcall) (os : list (option nat)) : list sctx :=
  match hs, os with
  | HSample cx :: hs, Some j :: os => (if (j =? k)%nat then [cx] else []) ++ filed k hs os
  | _ :: hs, _ :: os => filed k hs os
  | _, _ => []
  end.

(** Their non-zero timestamps. *)
Definition times (l : list sctx) : list Z :=
  filter (fun t => negb (t =? 0)%Z) (map (fun cx => int64_of (dflt (s_time (cx_sample cx)))) l).

(** An exec of process [pid]. *)
Definition execs (pid : N) (h : hcall) : Prop :=
  match h with HComm cm true => cm_pid cm = pid | _ => False end.

(** The profiles of one process at a time share nothing: profiles are per process,
    or the one profile is never reset by an exec of process 0. *)
Definition never_reset (c : cfg) (hs : list hcall) : Prop :=
  grouped c = true \/ Forall (fun h => ~ execs 0 h) hs.

(** ** Frames *)

(** Callchain entries that are addresses, not context markers. *)
Definition is_marker (ip : N) : bool := 2 ^ 64 - 4095 <=? ip.

(** If call stacks come from branch records, user-space entries are not used. *)
Fixpoint before_user (l : list (N * option mref)) : list (N * option mref) :=
  match l with
  | [] => []
  | x :: r => if fst x =? 2 ^ 64 - 512 then [] else x :: before_user r
  end.

(** The entry lies above the start of its mapping. *)
Definition above_start (f : N * option mref) : bool :=
  match snd f with Some (_, m) => hm_start m <? fst f | None => false end.
Definition at_or_above_start (f : N * option mref) : bool :=
  match snd f with Some (_, m) => hm_start m <=? fst f | None => false end.

(** The sample's call stack is its branch stack. *)
Definition from_branches (cx : sctx) : bool :=
  match cx_branch cx, cx_spe cx with _ :: _, None => true | _, _ => false end.

(** An address without mapping is reported as 0. *)
Definition mapped_or_zero (a : N) (m : option mref) : N := match m with Some _ => a | None => 0 end.

Definition callchain_frames (cx : sctx) : list (N * option mref) :=
  let entries := if from_branches cx then before_user (cx_chain cx) else cx_chain cx in
  map (fun f => (fst f - 1, snd f))
    (filter above_start (tl (filter (fun f => negb (is_marker (fst f))) entries))).

Definition branch_sources (cx : sctx) : list (N * option mref) :=
  if from_branches cx
  then filter at_or_above_start (map (fun b => (bp_from b, bp_from_map b)) (cx_branch cx))
  else [].

(** Program counter, callers. *)
Definition code_frames (cx : sctx) : list (N * option mref) :=
  (mapped_or_zero (s_ip (cx_sample cx)) (cx_map cx), cx_map cx)
    :: callchain_frames cx ++ branch_sources cx.

(** All frames of a sample, leaf first. *)
Definition stack_frames (c : cfg) (cx : sctx) : list (N * option mref) :=
  (if data_frames c
   then [(mapped_or_zero (dflt (s_addr (cx_sample cx))) (cx_addr cx), cx_addr cx)] else [])
  ++ code_frames cx.

(** [id] is the id of exactly the location of profile [p] with that address. *)
Definition location_at (p : profile) (id a : N) : Prop :=
  exists l, nth_error (pf_location p) (N.to_nat (id - 1)) = Some l /\ 1 <= id /\ lc_id l = id /\ lc_addr l = a.

(** ** Labels *)

(** The C string in a string. *)
Definition text (s : list N) : list N := c_str s.

(** The name of a thread: the last one given to it since the last exec of its
    process. Newest callback first. *)
Fixpoint thread_name (h : list hcall) (pid tid : N) : list N :=
  match h with
  | [] => []
  | HComm cm e :: h =>
      if cm_pid cm =? pid then
        if cm_tid cm =? tid then name_or_md5 (cm_comm cm) (cm_md5 cm)
        else if e then [] else thread_name h pid tid
      else thread_name h pid tid
  | _ :: h => thread_name h pid tid
  end.

(** The execution mode, from the lowest three bits of header.misc. *)
Definition mode_text (misc : option N) : list N :=
  match misc with
  | None => []
  | Some m => nth (N.to_nat (m mod 8))
      [[]; str "Host Kernel"; str "Host User"; str "Hypervisor"; str "Guest Kernel"; str "Guest User"; []; []] []
  end.

(** The first entry of a table whose mask has a bit in common with [v]. *)
Fixpoint first_match (v : N) (t : list (N * list N)) (d : list N) : list N :=
  match t with
  | [] => d
  | (mask, name) :: t => if N.land v mask =? 0 then first_match v t d else name
  end.

(** Memory level (if the access was a hit) and snoop status of a data_src word, by
    the kernel's PERF_MEM_LVL_* and PERF_MEM_SNOOP_* values. *)
Definition level_text (v : N) : list N :=
  let l := v / 2 ^ 5 mod 2 ^ 14 in
  if N.land l 2 =? 0 then []
  else first_match l [(8, str "L1"); (0x10, str "LFB"); (0x20, str "L2"); (0x40, str "Local L3");
    (0x80, str "Local DRAM"); (0x300, str "Remote DRAM"); (0x400, str "Near L3"); (0x800, str "Far L3");
    (0x1000, str "IO Memory"); (0x2000, str "Uncached Memory")] (str "Unknown Level").
Definition snoop_text (v : N) : list N :=
  first_match (v / 2 ^ 19 mod 2 ^ 5) [(2, str "None"); (4, str "Hit"); (8, str "Miss"); (0x10, str "HitM")]
    (str "Unknown Status").

(** What distinguishes the samples of one process besides the stack: the enabled
    label fields, 0 or empty if absent or not enabled. *)
Record view := {
  vw_tid : N; vw_time : N; vw_mode : list N; vw_comm : list N; vw_type : list N; vw_tcomm : list N;
  vw_cgroup : list N; vw_code_page : N; vw_data_page : N; vw_cpu : N; vw_cache : N;
  vw_src : list N; vw_snoop : list N; vw_total : N; vw_issue : N; vw_trans : N }.

Definition num_if (on : bool) (n : N) : N := if on then n else 0.
Definition text_if (on : bool) (s : list N) : list N := if on then text s else [].
Definition present {A} (o : option A) : bool := match o with Some _ => true | None => false end.

Definition total_latency (cx : sctx) : N :=
  match cx_spe cx with
  | Some r => sr_total_lat r
  | None => match s_wstruct (cx_sample cx) with
            | Some (_, Some v) => v
            | _ => dflt (s_weight (cx_sample cx))
            end mod 2 ^ 32
  end.

Definition view_of (c : cfg) (h : list hcall) (cx : sctx) : view :=
  let sm := cx_sample cx in
  let pid := dflt (s_pid sm) in
  {| vw_tid := num_if (label_on c 2) (dflt (s_tid sm));
     vw_time := num_if (label_on c 4) (dflt (s_time sm));
     vw_mode := if label_on c 8 then mode_text (cx_misc cx) else [];
     vw_comm := text_if (label_on c 16 && present (s_pid sm)) (thread_name h pid pid);
     vw_type := text_if (label_on c 32 && present (s_tid sm))
                  (match aget N.eqb (dflt (s_tid sm)) (cf_types c) with Some t => t | None => [] end);
     vw_tcomm := text_if (label_on c 64 && present (s_pid sm) && present (s_tid sm))
                   (thread_name h pid (dflt (s_tid sm)));
     vw_cgroup := text_if (label_on c 128) (match cx_cgroup cx with Some g => g | None => [] end);
     vw_code_page := num_if (label_on c 256) (dflt (s_code_page sm));
     vw_data_page := num_if (label_on c 512) (dflt (s_data_page sm));
     vw_cpu := num_if (label_on c 1024) (dflt (s_cpu sm));
     vw_cache := num_if (label_on c 2048) (match s_wstruct sm with Some (Some v, _) => v | _ => 0 end);
     vw_src := text_if (label_on c 4096 && present (s_data_src sm))
                 (level_text (dflt (s_data_src sm)));
     vw_snoop := text_if (label_on c 4096 && present (s_data_src sm))
                   (snoop_text (dflt (s_data_src sm)));
     vw_total := num_if (label_on c 8192) (total_latency cx);
     vw_issue := num_if (label_on c 16384) (match cx_spe cx with Some r => sr_issue_lat r | None => 0 end);
     vw_trans := num_if (label_on c 32768) (match cx_spe cx with Some r => sr_trans_lat r | None => 0 end) |}.

(** A label as a reader of the profile sees it: key, string value, number, unit. *)
Record read_label := { rl_key : list N; rl_str : list N; rl_num : Z; rl_unit : list N }.
Definition string_of (p : profile) (i : Z) : option (list N) :=
  if (0 <=? i)%Z then nth_error (pf_string p) (Z.to_nat i) else None.
Definition reads (p : profile) (l : label) (r : read_label) : Prop :=
  string_of p (lb_key l) = Some (rl_key r) /\ string_of p (lb_str l) = Some (rl_str r) /\
  lb_num l = rl_num r /\ string_of p (lb_unit l) = Some (rl_unit r).

(** The labels a sample with that view asks for. *)
Definition num_label (on : bool) (key : list N) (n : N) (unit : list N) : list read_label :=
  if on then [{| rl_key := key; rl_str := []; rl_num := int64_of n; rl_unit := unit |}] else [].
Definition str_label (key s : list N) : list read_label :=
  match s with [] => [] | _ => [{| rl_key := key; rl_str := s; rl_num := 0; rl_unit := [] |}] end.
Definition nonzero (n : N) : bool := negb (n =? 0).

Definition expected_labels (c : cfg) (h : list hcall) (cx : sctx) : list read_label :=
  let sm := cx_sample cx in
  let v := view_of c h cx in
  num_label (label_on c 1 && present (s_pid sm)) (str "pid") (dflt (s_pid sm)) [] ++
  num_label (label_on c 2 && present (s_tid sm)) (str "tid") (dflt (s_tid sm)) [] ++
  str_label (str "comm") (vw_comm v) ++
  num_label (label_on c 4 && present (s_time sm)) (str "timestamp_ns") (dflt (s_time sm)) [] ++
  str_label (str "execution_mode") (vw_mode v) ++
  str_label (str "thread_type") (vw_type v) ++
  str_label (str "thread_comm") (vw_tcomm v) ++
  str_label (str "cgroup") (vw_cgroup v) ++
  num_label (nonzero (vw_code_page v)) (str "code_page_size") (vw_code_page v) [] ++
  num_label (nonzero (vw_data_page v)) (str "data_page_size") (vw_data_page v) [] ++
  num_label (label_on c 1024 && present (s_cpu sm)) (str "cpu") (dflt (s_cpu sm)) (str "cpu") ++
  num_label (nonzero (vw_cache v)) (str "cache_latency") (vw_cache v) (str "cycles") ++
  str_label (str "data_src") (vw_src v) ++
  str_label (str "snoop_status") (vw_snoop v) ++
  num_label (nonzero (vw_total v)) (str "total_latency") (vw_total v) (str "cycles") ++
  num_label (nonzero (vw_issue v)) (str "issue_latency") (vw_issue v) (str "cycles") ++
  num_label (nonzero (vw_trans v)) (str "translation_latency") (vw_trans v) (str "cycles").

(** ** Well-formed profiles *)

(** Ids are 1..n in table order. *)
Definition dense (ids : list N) : Prop :=
  forall k, nth_error ids k = if (k <? List.length ids)%nat then Some (N.of_nat k + 1) else None.

(** [i] is an index into the string table. *)
Definition string_index (p : profile) (i : Z) : Prop := (0 <= i < Z.of_nat (List.length (pf_string p)))%Z.

Record sound (c : cfg) (p : profile) : Prop := {
  so_mappings : dense (map mp_id (pf_mapping p));
  so_locations : dense (map lc_id (pf_location p));
  so_loc_mapping : forall l, In l (pf_location p) ->
    lc_mapping l <= N.of_nat (List.length (pf_mapping p)) /\ (lc_mapping l = 0 -> lc_addr l = 0);
  so_samples : forall s, In s (pf_sample p) ->
    ps_loc s <> [] /\
    (forall i, In i (ps_loc s) -> 1 <= i <= N.of_nat (List.length (pf_location p))) /\
    List.length (ps_val s) = List.length (pf_sample_type p);
  so_types : List.length (pf_sample_type p) = (2 * events c)%nat;
  so_main : pf_mapping p <> [];
  so_strings :
    (forall t, In t (pf_sample_type p) -> string_index p (vt_type t) /\ string_index p (vt_unit t)) /\
    (forall m, In m (pf_mapping p) -> string_index p (mp_file m) /\ string_index p (mp_build m)) /\
    (forall s l, In s (pf_sample p) -> In l (ps_label s) ->
       string_index p (lb_key l) /\ string_index p (lb_str l) /\ string_index p (lb_unit l)) /\
    (forall i, In i (pf_comment p) -> string_index p i) /\
    string_index p (pf_default_type p) }.

(** Every location with a mapping lies in it. *)
Definition locations_inside (p : profile) : Prop :=
  forall l, In l (pf_location p) ->
    (lc_mapping l = 0 /\ lc_addr l = 0) \/
    exists m, In m (pf_mapping p) /\ mp_id m = lc_mapping l /\ mp_start m <= lc_addr l < mp_limit m.

(** ** Merging *)

(** Between two samples: an exec of the process; a new mapping over the address. *)
Definition execed (pid : N) (l : list hcall) : bool :=
  existsb (fun h => match h with HComm cm e => e && (cm_pid cm =? pid) | _ => false end) l.
Definition remapped (pid a : N) (l : list hcall) : bool :=
  existsb (fun h => match h with
    | HMMap p (_, m) => (p =? pid) && (hm_start m <=? a) && (a <? hm_limit m)
    | _ => false end) l.

(** The callbacks strictly between positions [i] and [j]. *)
Definition between (i j : nat) (hs : list hcall) : list hcall := firstn (j - S i) (skipn (S i) hs).
(** The callbacks before position [i], newest first. *)
Definition before (i : nat) (hs : list hcall) : list hcall := rev (firstn i hs).

(** A profile sample: which profile, which position in its sample table. *)
Definition place := (nat * nat)%type.
Definition sample_at (ps : list process_profile) (r : place) : option psample :=
  match nth_error ps (fst r) with
  | Some p => nth_error (pf_sample (pr_data p)) (snd r)
  | None => None
  end.

(** The callbacks placed into [r]. *)
Fixpoint placed (r : place) (hs : list hcall) (os : list (option place)) : list hcall :=
  match hs, os with
  | h :: hs, o :: os =>
      match o with
      | Some x => if ((fst x =? fst r) && (snd x =? snd r))%nat then h :: placed r hs os else placed r hs os
      | None => placed r hs os
      end
  | _, _ => []
  end.

(** [os]: where each callback of the run was placed. Exactly the kept samples are
    placed, exactly the samples of the profiles are places, and the values of each
    are the number and the weight of the samples of each event placed there. *)
Record counted (c : cfg) (hs : list hcall) (ps : list process_profile) (os : list (option place)) : Prop := {
  pc_length : List.length os = List.length hs;
  pc_kept : forall i h, nth_error hs i = Some h ->
    ((exists r, nth_error os i = Some (Some r)) <-> exists cx, h = HSample cx /\ kept c cx = true);
  pc_places : forall r, sample_at ps r <> None <-> In (Some r) os;
  pc_values : forall r s i, sample_at ps r = Some s -> (i < events c)%nat ->
    nth (2 * i) (ps_val s) 0%Z = Z.of_nat (List.length (filter (sample_of c i) (placed r hs os))) /\
    nth (2 * i + 1) (ps_val s) 0%Z = sum (map (weight c i) (filter (sample_of c i) (placed r hs os))) }.

(** Two samples, the [i]-th callback and the later [j]-th one, look the same: they
    are of one process which did not exec in between, all label fields asked for
    agree, and they have the same stack of addresses, none of which was mapped
    anew in between. *)
Definition alike (c : cfg) (hs : list hcall) (i j : nat) (cx cy : sctx) : Prop :=
  dflt (s_pid (cx_sample cx)) = dflt (s_pid (cx_sample cy)) /\
  execed (dflt (s_pid (cx_sample cx))) (between i j hs) = false /\
  view_of c (before i hs) cx = view_of c (before j hs) cy /\
  map fst (stack_frames c cx) = map fst (stack_frames c cy) /\
  Forall (fun a => remapped (dflt (s_pid (cx_sample cx))) a (between i j hs) = false) (map fst (stack_frames c cx)).

Definition placed_at (hs : list hcall) (os : list (option place)) (i : nat) (cx : sctx) (r : place) : Prop :=
  nth_error hs i = Some (HSample cx) /\ nth_error os i = Some (Some r).

(** ** Overflow *)

(** No value of any sample can leave the range of int64. *)
Definition load (c : cfg) (h : hcall) : Z :=
  match h with
  | HSample cx => if kept c cx then Z.max 1 (Z.abs (weight c (Z.to_nat (cx_attr cx)) h)) else 0
  | _ => 0
  end.
Definition fits (c : cfg) (hs : list hcall) : Prop := (sum (map (load c) hs) < 2 ^ 63)%Z.

(** ** Statistics *)

(** The build id sources of the code frames of a kept sample of process [pid]. *)
Definition sources (c : cfg) (pid : N) (h : hcall) : list bsource :=
  match h with
  | HSample cx =>
      if kept c cx && (dflt (s_pid (cx_sample cx)) =? pid)
      then map (fun f => match snd f with Some (_, m) => snd (hm_build m) | None => SrcNoMmap end) (code_frames cx)
      else []
  | _ => []
  end.
