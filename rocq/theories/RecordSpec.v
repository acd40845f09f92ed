(** C65: what a sample record becomes, in terms of what it says and of the events
    before it. Histories have the newest event first. *)
From Coq Require Import String.
From Verif Require Import Base TextModel Assoc ProfileModel PerfProto NormalizerModel NormalizerSpec ConverterModel
  ConverterSpec.
From Verif Require SerializerModel HugePageModel.
Local Open Scope N_scope.
Local Open Scope list_scope.

(** ** What a sample says *)
Record facts := {
  f_pid : option N; f_tid : option N; f_time : option N; f_cpu : option N; f_ip : N; f_addr : option N;
  f_chain : list N;              (* addresses and context markers, innermost first *)
  f_sources : list N;            (* source addresses of the branch records *)
  f_code_page : N; f_data_page : N; f_cache_latency : N; f_total_latency : N;
  f_data_src : option N; f_cgroup : option N }.

(** Of a message of the stored proto. *)
Definition sample_facts (s : sample_ev) : facts :=
  {| f_pid := s_pid s; f_tid := s_tid s; f_time := s_time s; f_cpu := s_cpu s; f_ip := s_ip s; f_addr := s_addr s;
     f_chain := s_callchain s; f_sources := map br_from (s_branch s);
     f_code_page := dflt (s_code_page s); f_data_page := dflt (s_data_page s);
     f_cache_latency := match s_wstruct s with Some (Some v, _) => v | _ => 0 end;
     f_total_latency := match s_wstruct s with Some (_, Some v) => v | _ => dflt (s_weight s) end mod 2 ^ 32;
     f_data_src := s_data_src s; f_cgroup := s_cgroup s |}.

(** Of the message made of a record of a file; the weights are three numbers, of which
    the first is the cache latency and the second the latency of the instruction. *)
Definition record_facts (s : SerializerModel.x_sample) : facts :=
  {| f_pid := SerializerModel.xsa_pid s; f_tid := SerializerModel.xsa_tid s; f_time := SerializerModel.xsa_time s;
     f_cpu := SerializerModel.xsa_cpu s; f_ip := dflt (SerializerModel.xsa_ip s); f_addr := SerializerModel.xsa_addr s;
     f_chain := SerializerModel.xsa_callchain s; f_sources := map SerializerModel.xbr_from (SerializerModel.xsa_branch s);
     f_code_page := dflt (SerializerModel.xsa_code_page s); f_data_page := dflt (SerializerModel.xsa_data_page s);
     f_cache_latency := match SerializerModel.xsa_weight_struct s with Some (v, _, _) => v | None => 0 end;
     f_total_latency := match SerializerModel.xsa_weight_struct s with
                        | Some (_, v, _) => v
                        | None => dflt (SerializerModel.xsa_weight s)
                        end mod 2 ^ 32;
     f_data_src := SerializerModel.xsa_data_src s; f_cgroup := SerializerModel.xsa_cgroup s |}.

(** ** Its stack *)

(** Where the mapping of an address starts, if it has one. *)
Definition start_at (h : list perf_event) (f : facts) (a : N) (c : actx) : option N :=
  option_map start_of (resolve h (dflt (f_pid f)) a c).
Definition or_zero (a : N) (o : option N) : N := match o with Some _ => a | None => 0 end.

(** The entries of the callchain with the starts of their mappings; the user part is
    not used if there are branch records. *)
Definition entries (h : list perf_event) (f : facts) : list (N * option N) :=
  map (fun i => let a := nth i (f_chain f) 0 in (a, start_at h f a (context_at (f_chain f) i)))
      (List.seq 0 (List.length (f_chain f))).
Fixpoint until_user (l : list (N * option N)) : list (N * option N) :=
  match l with
  | [] => []
  | x :: r => if fst x =? 2 ^ 64 - 512 then [] else x :: until_user r
  end.
Definition callers (h : list perf_event) (f : facts) : list N :=
  let l := match f_sources f with [] => entries h f | _ => until_user (entries h f) end in
  map (fun x => fst x - 1)
    (filter (fun x => match snd x with Some s => s <? fst x | None => false end)
       (tl (filter (fun x => negb (is_marker (fst x))) l))).
Definition branched (h : list perf_event) (f : facts) : list N :=
  filter (fun a => present (start_at h f a CUnknown)) (f_sources f).

(** The addresses shown: the data address if asked for, the program counter, the
    callers (each one byte before the return address) and the sources of the branches;
    the first two are 0 if they have no mapping, the others are left out. *)
Definition shown_stack (data : bool) (h : list perf_event) (misc : option N) (f : facts) : list N :=
  (if data then [match f_addr f with
                 | Some a => or_zero a (start_at h f a (context_from_header misc))
                 | None => 0
                 end] else [])
  ++ or_zero (f_ip f) (start_at h f (f_ip f) (context_from_header misc)) :: callers h f ++ branched h f.

(** ** Its labels *)

(** The name of a thread: the last one given to it since the last exec of its process. *)
Fixpoint name_at (marked : bool) (h : list perf_event) (pid tid : N) : list N :=
  match h with
  | [] => []
  | ev :: h =>
      match ev_what ev with
      | EvComm cm =>
          if cm_pid cm =? pid then
            if cm_tid cm =? tid then name_or_md5 (cm_comm cm) (cm_md5 cm)
            else if (cm_pid cm =? cm_tid cm) && is_exec marked (ev_misc ev) h pid then []
            else name_at marked h pid tid
          else name_at marked h pid tid
      | _ => name_at marked h pid tid
      end
  end.
(** The path first given to a cgroup. *)
Fixpoint path_at (h : list perf_event) (id : N) : option (list N) :=
  match h with
  | [] => None
  | ev :: h =>
      match path_at h id, ev_what ev with
      | Some p, _ => Some p
      | None, EvCgroup i p => if i =? id then Some p else None
      | None, _ => None
      end
  end.

Definition asks (labels mask : N) : bool := negb (N.land labels mask =? 0).
Definition num (on : bool) (key : list N) (n : N) (unit : list N) : list read_label :=
  if on then [{| rl_key := key; rl_str := []; rl_num := int64_of n; rl_unit := unit |}] else [].
Definition txt (on : bool) (key s : list N) : list read_label :=
  match (if on then text s else []) with
  | [] => []
  | t => [{| rl_key := key; rl_str := t; rl_num := 0; rl_unit := [] |}]
  end.
(** Those the mask asks for, of what the sample has. [name]: of threads; [path]: of
    cgroups. *)
Definition shown_labels (labels : N) (types : list (N * list N)) (name : N -> N -> list N) (path : N -> option (list N))
    (misc : option N) (f : facts) : list read_label :=
  let pid := dflt (f_pid f) in let tid := dflt (f_tid f) in
  num (asks labels 1 && present (f_pid f)) (str "pid") pid [] ++
  num (asks labels 2 && present (f_tid f)) (str "tid") tid [] ++
  txt (asks labels 16 && present (f_pid f)) (str "comm") (name pid pid) ++
  num (asks labels 4 && present (f_time f)) (str "timestamp_ns") (dflt (f_time f)) [] ++
  txt (asks labels 8) (str "execution_mode") (mode_text misc) ++
  txt (asks labels 32 && present (f_tid f)) (str "thread_type")
    (match aget N.eqb tid types with Some t => t | None => [] end) ++
  txt (asks labels 64 && present (f_pid f) && present (f_tid f)) (str "thread_comm") (name pid tid) ++
  txt (asks labels 128) (str "cgroup")
    (match f_cgroup f with
     | Some id => match path id with Some p => p | None => [] end
     | None => []
     end) ++
  num (asks labels 256 && nonzero (f_code_page f)) (str "code_page_size") (f_code_page f) [] ++
  num (asks labels 512 && nonzero (f_data_page f)) (str "data_page_size") (f_data_page f) [] ++
  num (asks labels 1024 && present (f_cpu f)) (str "cpu") (dflt (f_cpu f)) (str "cpu") ++
  num (asks labels 2048 && nonzero (f_cache_latency f)) (str "cache_latency") (f_cache_latency f) (str "cycles") ++
  txt (asks labels 4096 && present (f_data_src f)) (str "data_src") (level_text (dflt (f_data_src f))) ++
  txt (asks labels 4096 && present (f_data_src f)) (str "snoop_status") (snoop_text (dflt (f_data_src f))) ++
  num (asks labels 8192 && nonzero (f_total_latency f)) (str "total_latency") (f_total_latency f) (str "cycles").

(** ** Where it is shown *)

(** The other samples have the same of the four fields that can be absent. *)
Definition same_fields (evs : list perf_event) (f : facts) : Prop :=
  forall ev s, In ev evs -> ev_what ev = EvSample s ->
    present (s_pid s) = present (f_pid f) /\ present (s_tid s) = present (f_tid f) /\
    present (s_time s) = present (f_time f) /\ present (s_cpu s) = present (f_cpu f).

(** Of the four it has process and thread, as the samples of an SPE trace. *)
Definition thread_only (f : facts) : Prop :=
  present (f_pid f) = true /\ present (f_tid f) = true /\ present (f_time f) = false /\ present (f_cpu f) = false.

(** Profile [p] shows it in its sample [s], as a sample of event [i]: it is the profile
    of the process, its time span has the time, and the sample counts it and has its
    addresses. *)
Definition shows (p : process_profile) (s : psample) (i : nat) (pid time : N) (addrs : list N) : Prop :=
  pr_pid p = pid /\
  (int64_of time <> 0 -> pr_min p <= int64_of time <= pr_max p)%Z /\
  In s (pf_sample (pr_data p)) /\ (1 <= nth (2 * i) (ps_val s) 0)%Z /\
  Forall2 (fun a id => location_at (pr_data p) id a) addrs (ps_loc s).

(** ** The messages of a file *)

(** A message, and the mapping it stands for after huge pages were found. *)
Definition mapped_message := (SerializerModel.x_event * option HugePageModel.vmap)%type.

(** What address spaces depend on: mappings, forks, and symbols of the kernel. *)
Definition says (xm : mapped_message) (ev : perf_event) : Prop :=
  match snd xm, SerializerModel.xe_body (fst xm) with
  | Some v, _ =>
      exists m, ev_what ev = EvMMap m /\ mm_pid m = dflt (HugePageModel.v_pid v) /\ mm_start m = HugePageModel.v_start v /\
        mm_len m = HugePageModel.v_len v /\ mm_pgoff m = HugePageModel.v_pgoff v /\ mm_file m = HugePageModel.v_file v /\
        mm_build m = HugePageModel.v_build v /\ mm_md5 m = HugePageModel.v_md5 v
  | None, SerializerModel.XBFork f =>
      exists k, ev_what ev = EvFork k /\ fk_pid k = SerializerModel.xf_pid f /\ fk_ppid k = SerializerModel.xf_ppid f
  | None, SerializerModel.XBKsymbol k =>
      exists y, ev_what ev = EvKsymbol y /\ ks_addr y = SerializerModel.xk_addr k /\ ks_len y = SerializerModel.xk_len k /\
        ks_type y = SerializerModel.xk_type k /\ ks_flags y = SerializerModel.xk_flags k /\ ks_name y = SerializerModel.xk_name k
  | None, _ => announced ev = None /\ forall f, ev_what ev <> EvFork f
  end.

(** Names of threads and paths of cgroups, by the messages; newest first. A message
    without a name is given as the prefix of the name's MD5. *)
Definition map_seen (h : list mapped_message) (pid : N) : bool :=
  existsb (fun xm => match snd xm with Some v => dflt (HugePageModel.v_pid v) =? pid | None => false end) h.
Fixpoint name_told (md5 : list N -> N) (marked : bool) (h : list mapped_message) (pid tid : N) : list N :=
  match h with
  | [] => []
  | (x, Some _) :: h => name_told md5 marked h pid tid
  | (x, None) :: h =>
      match SerializerModel.xe_body x with
      | SerializerModel.XBComm c =>
          if SerializerModel.xc_pid c =? pid then
            if SerializerModel.xc_tid c =? tid
            then name_or_md5 (SerializerModel.xc_comm c) (md5 (SerializerModel.xc_comm c))
            else if (SerializerModel.xc_tid c =? pid) &&
                    (negb marked || N.testbit (SerializerModel.xe_misc x) 13 || negb (map_seen h pid)) then []
            else name_told md5 marked h pid tid
          else name_told md5 marked h pid tid
      | _ => name_told md5 marked h pid tid
      end
  end.
Fixpoint path_told (h : list mapped_message) (id : N) : option (list N) :=
  match h with
  | [] => None
  | (x, m) :: h =>
      match path_told h id, m, SerializerModel.xe_body x with
      | Some p, _, _ => Some p
      | None, None, SerializerModel.XBCgroup c =>
          if SerializerModel.xcg_id c =? id then Some (SerializerModel.xcg_path c) else None
      | None, _, _ => None
      end
  end.

(** The other samples have the same of the four fields that can be absent. *)
Definition same_shape (xs : list SerializerModel.x_event) (f : facts) : Prop :=
  forall x s, In x xs -> SerializerModel.xe_body x = SerializerModel.XBSample s ->
    present (SerializerModel.xsa_pid s) = present (f_pid f) /\ present (SerializerModel.xsa_tid s) = present (f_tid f) /\
    present (SerializerModel.xsa_time s) = present (f_time f) /\ present (SerializerModel.xsa_cpu s) = present (f_cpu f).
