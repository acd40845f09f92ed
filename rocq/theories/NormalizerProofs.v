From Coq Require Import String.
From Verif Require Import Base BytesModel TextModel TextProofs Assoc IntervalMapModel IntervalMapSpec IntervalMapProofs
  SpeModel SpeProofs PerfProto NormalizerModel NormalizerSpec BuilderProofs.
Local Open Scope N_scope.
Local Open Scope list_scope.

Lemma obind_ok {A B} (x : outcome A) (f : A -> outcome B) b :
  obind x f = Ok b -> exists a, x = Ok a /\ f a = Ok b.
Proof. destruct x; try discriminate. cbn. eauto. Qed.

Ltac ok_inv H :=
  match type of H with
  | obind ?x ?f = Ok ?b =>
      let a := fresh "a" in let E := fresh "E" in let H' := fresh "H" in
      destruct (obind_ok x f b H) as (a & E & H'); clear H; cbv beta in H'
  end.

(** * Association lists *)

Lemma aget_aset {K V} (eqb : K -> K -> bool) k (v : V) m k' :
  aget eqb k' (aset k v m) = if eqb k' k then Some v else aget eqb k' m.
Proof. reflexivity. Qed.

Lemma aget_aerase {V} k (m : list (N * V)) k' :
  aget N.eqb k' (aerase N.eqb k m) = if k' =? k then None else aget N.eqb k' m.
Proof.
  induction m as [|(a & v) m IH]; cbn [aerase aget]; [now destruct (k' =? k)|].
  destruct (N.eqb_spec k a) as [->|Hn].
  - rewrite IH. now destruct (N.eqb_spec k' a).
  - cbn [aget]. rewrite IH. destruct (N.eqb_spec k' a) as [->|]; auto.
    destruct (N.eqb_spec a k); [congruence|reflexivity].
Qed.

Lemma aget_inherit {V} f (m : list (N * V)) pid :
  aget N.eqb pid (inherit f m) =
  match aget N.eqb (fk_ppid f) m with
  | Some v => if pid =? fk_pid f then Some v else aget N.eqb pid m
  | None => aget N.eqb pid m
  end.
Proof. unfold inherit. destruct (aget N.eqb (fk_ppid f) m); auto. Qed.

(** * Ranges *)

Lemma limit_of_eq m : w64 (mm_start m + mm_len m) = limit_of m.
Proof. reflexivity. Qed.

Lemma start_of_eq m :
  fixed_start (mm_start m) (w64 (mm_start m + mm_len m)) (mm_pgoff m) = start_of m.
Proof.
  unfold fixed_start, start_of. rewrite limit_of_eq.
  change two63 with (2 ^ 63). destruct (_ && _); auto.
  rewrite (N.div_mod (mm_pgoff m) 4096) at 1 by easy. lia.
Qed.

(** * The invariant *)

(** What the state has to do with the history. *)
Record Inv (e : nenv) (h : list perf_event) (s : nstate) : Prop := {
  iv_wf : forall pid im, aget N.eqb pid (ns_mmaps s) = Some im -> wf 0 im;
  iv_known : forall pid, known h pid =
    match aget N.eqb pid (ns_mmaps s) with Some _ => true | None => false end;
  iv_owner : forall pid k,
    match try_lookup s pid k, owner h pid k with
    | None, None => True
    | Some p, Some ev => exists m, nth_error (ns_heap s) p = Some m /\ describes e m ev /\
                                   covers ev k = true
    | _, _ => False
    end;
  iv_exec : forall pid p, aget N.eqb pid (ns_exec s) = Some p -> (p < List.length (ns_heap s))%nat;
  iv_fake : forall k p, aget fake_key_eqb k (ns_fake s) = Some p ->
    (p < List.length (ns_heap s))%nat }.

Lemma inv0 e : Inv e [] nstate0.
Proof. split; cbn; easy. Qed.

Lemma deref_lt s p : (p < List.length (ns_heap s))%nat -> exists m, deref s p = Ok m.
Proof.
  intros H. unfold deref. destruct (nth_error (ns_heap s) p) eqn:E; eauto.
  apply nth_error_None in E. lia.
Qed.

(** ** Lookups *)

Lemma shiftr60 ip : (N.shiftr ip 60 =? 8) = (ip / 2 ^ 60 =? 8).
Proof. now rewrite N.shiftr_div_pow2. Qed.

Lemma covers_contains e m ev k : describes e m ev -> covers ev k = true -> contains m k.
Proof.
  intros (E1 & E2 & _) H. unfold covers in H. unfold contains. rewrite E1, E2.
  apply andb_prop in H as (H & H2). apply andb_prop in H as (_ & H1).
  apply N.leb_le in H1. apply N.ltb_lt in H2. auto.
Qed.

Lemma owner_deref e h s pid k p :
  Inv e h s -> try_lookup s pid k = Some p ->
  exists m ev, nth_error (ns_heap s) p = Some m /\ owner h pid k = Some ev /\
    describes e m ev /\ contains m k.
Proof.
  intros I E. pose proof (iv_owner e h s I pid k) as H. rewrite E in H.
  destruct (owner h pid k) as [ev|]; [|easy]. destruct H as (m & E1 & D & C).
  exists m, ev. eauto using covers_contains.
Qed.

Lemma owner_none e h s pid k :
  Inv e h s -> try_lookup s pid k = None -> owner h pid k = None.
Proof.
  intros I E. pose proof (iv_owner e h s I pid k) as H. rewrite E in H.
  destruct (owner h pid k) as [ev|]; easy.
Qed.

Lemma get_mref_spec e h s pid ip c :
  Inv e h s ->
  exists o, get_mref s pid ip c = Ok o /\ agrees e o (resolve h pid ip c) /\ contains_opt o ip.
Proof.
  intros I. unfold get_mref, get_mapping, resolve. rewrite shiftr60.
  destruct (ip / 2 ^ 60 =? 8); [exists None; easy|].
  assert (G : forall p m ev, nth_error (ns_heap s) p = Some m -> describes e m ev -> contains m ip ->
    exists o, (let! p0 := (let! h0 := deref s p in
       if negb (hm_start h0 <=? ip) then Abort
       else if negb (ip <? hm_limit h0) then Abort else Ok (Some p)) in oref s p0) = Ok o /\
      agrees e o (Some ev) /\ contains_opt o ip).
  { intros p m ev E D (C1 & C2). exists (Some (p, m)). unfold deref at 1. rewrite E. cbn [obind].
    destruct (N.leb_spec (hm_start m) ip); [|lia]. destruct (N.ltb_spec ip (hm_limit m)); [|lia].
    cbn [negb obind oref]. unfold deref. rewrite E. cbn. split; [reflexivity|]. split; auto.
    now split. }
  destruct (try_lookup s pid ip) as [p|] eqn:E1.
  - destruct (owner_deref e h s pid ip p I E1) as (m & ev & Em & Eo & D & C).
    rewrite Eo. destruct c; try (exists None; easy); eapply G; eauto.
  - rewrite (owner_none e h s pid ip I E1).
    destruct c; cbn [actx_eqb]; try (exists None; easy);
      (destruct (try_lookup s kernel_pid ip) as [p|] eqn:E2;
       [destruct (owner_deref e h s kernel_pid ip p I E2) as (m & ev & Em & Eo & D & C);
        change 4294967295 with kernel_pid; rewrite Eo; eapply G; eauto
       |change 4294967295 with kernel_pid; rewrite (owner_none e h s kernel_pid ip I E2);
        exists None; easy]).
Qed.

(** ** Steps that leave the address spaces alone *)

Definition neutral (ev : perf_event) : Prop :=
  announced ev = None /\ match ev_what ev with EvFork _ => False | _ => True end.

Lemma neutral_known ev h pid : neutral ev -> known (ev :: h) pid = known h pid.
Proof. intros (E & H). cbn. rewrite E. now destruct (ev_what ev). Qed.

Lemma neutral_owner ev h pid k : neutral ev -> owner (ev :: h) pid k = owner h pid k.
Proof. intros (E & H). cbn. rewrite E. now destruct (ev_what ev). Qed.

Lemma inv_neutral e ev h s : neutral ev -> Inv e h s -> Inv e (ev :: h) s.
Proof.
  intros N I. split; try apply I.
  - intros. rewrite (neutral_known ev h _ N). apply I.
  - intros. rewrite (neutral_owner ev h _ _ N). apply I.
Qed.

(** The heap grows, the mmap tables stay. *)
Lemma inv_grow e h s s' x :
  Inv e h s -> ns_heap s' = ns_heap s ++ x -> ns_mmaps s' = ns_mmaps s ->
  (forall pid p, aget N.eqb pid (ns_exec s') = Some p -> (p < List.length (ns_heap s'))%nat) ->
  (forall k p, aget fake_key_eqb k (ns_fake s') = Some p -> (p < List.length (ns_heap s'))%nat) ->
  Inv e h s'.
Proof.
  intros I Eh Em He Hf. split; auto.
  - rewrite Em. apply I.
  - intros. rewrite Em. apply I.
  - intros pid k. pose proof (iv_owner e h s I pid k) as H. unfold try_lookup in *. rewrite Em.
    destruct (match aget N.eqb pid (ns_mmaps s) with Some m => im_lookup m k | None => None end)
      as [p|]; auto. destruct (owner h pid k) as [ev|]; auto. destruct H as (m & E & D).
    exists m. split; auto. rewrite Eh. rewrite nth_error_app1; auto.
    apply nth_error_Some. congruence.
Qed.

Lemma inv_same e h s s' :
  Inv e h s -> ns_heap s' = ns_heap s -> ns_mmaps s' = ns_mmaps s -> ns_exec s' = ns_exec s ->
  ns_fake s' = ns_fake s -> Inv e h s'.
Proof.
  intros I E1 E2 E3 E4. apply (inv_grow e h s s' []); auto.
  - now rewrite app_nil_r.
  - rewrite E3, E1. apply I.
  - rewrite E4, E1. apply I.
Qed.

Lemma fake_spec e h s comm b md5 start s' p :
  fake_mapping s comm b md5 start = (s', p) -> Inv e h s ->
  Inv e h s' /\ (p < List.length (ns_heap s'))%nat /\
  aget fake_key_eqb (comm, fst b, md5) (ns_fake s') = Some p.
Proof.
  unfold fake_mapping. destruct (aget fake_key_eqb (comm, fst b, md5) (ns_fake s)) as [q|] eqn:E;
    intros H I; injection H as <- <-.
  - split; auto. split; auto. eapply iv_fake; eauto.
  - split; [|split].
    + eapply inv_grow; [exact I|reflexivity|reflexivity| |]; cbn [ns_heap set_fake set_heap ns_exec].
      * intros pid p H. apply (iv_exec e h s I) in H. rewrite app_length. lia.
      * intros k p. cbn [ns_fake set_fake]. rewrite aget_aset.
        destruct (fake_key_eqb k _).
        -- intros [= <-]. rewrite app_length. cbn. lia.
        -- intros H. apply (iv_fake e h s I) in H. rewrite app_length. lia.
    + cbn. rewrite app_length. cbn. lia.
    + cbn [ns_fake set_fake]. rewrite aget_aset.
      replace (fake_key_eqb _ _) with true; auto. symmetry.
      cbn. rewrite N.eqb_refl, !andb_true_r. apply andb_true_intro. split; apply list_eqb_eq; auto.
Qed.

(** A lookup depends on the mmap tables and the heap only, and not on what is
    appended to the heap. *)
Lemma main_mapping_spec e h s pid c s' o :
  main_mapping s pid c = Ok (s', o) -> Inv e h s ->
  Inv e h s' /\ (forall p, o = Some p -> (p < List.length (ns_heap s'))%nat) /\
  ns_cgroup s' = ns_cgroup s.
Proof.
  unfold main_mapping. intros H I.
  destruct (aget N.eqb pid (ns_exec s)) as [p|] eqn:E.
  { injection H as <- <-. split; auto. split; auto. intros q [= <-]. eapply iv_exec; eauto. }
  destruct (actx_eqb c CHostKernel); [|injection H as <- <-; split; auto; split; easy].
  destruct (aget N.eqb pid (ns_comm s)) as [cm|].
  - ok_inv H. destruct (fake_mapping s (cm_comm cm) a (cm_md5 cm) 0) as (s1, p) eqn:F.
    injection H0 as <- <-. destruct (fake_spec e h _ _ _ _ _ _ _ F I) as (I' & L & _).
    split; auto. split; [intros q [= <-]; auto|].
    unfold fake_mapping in F. destruct (aget fake_key_eqb _ _); injection F as <- <-; reflexivity.
  - destruct (pid =? 0); injection H as <- <-; split; auto; split; auto.
    + intros p Hp. eapply iv_exec; eauto.
    + easy.
Qed.

Lemma oref_spec e h s o : Inv e h s -> (forall p, o = Some p -> (p < List.length (ns_heap s))%nat) ->
  exists r, oref s o = Ok r.
Proof.
  intros _ H. destruct o as [p|]; cbn; eauto.
  destruct (deref_lt s p (H p eq_refl)) as (m & ->). cbn. eauto.
Qed.

(** * Samples *)

Lemma marker_spec ip :
  marker ip = negb (actx_eqb (context_from_callchain ip) CUnknown) /\
  (marker ip = true -> context_from_callchain ip = marker_context ip).
Proof.
  unfold marker, context_from_callchain, marker_context. cbn [existsb].
  change (2 ^ 64 - 32) with PERF_CONTEXT_HV. change (2 ^ 64 - 128) with PERF_CONTEXT_KERNEL.
  change (2 ^ 64 - 512) with PERF_CONTEXT_USER. change (2 ^ 64 - 2176) with PERF_CONTEXT_GUEST_KERNEL.
  change (2 ^ 64 - 2560) with PERF_CONTEXT_GUEST_USER.
  destruct (ip =? PERF_CONTEXT_HV); [now split|]. destruct (ip =? PERF_CONTEXT_KERNEL); [now split|].
  destruct (ip =? PERF_CONTEXT_USER); [now split|].
  destruct (ip =? PERF_CONTEXT_GUEST_KERNEL); [now split|].
  destruct (ip =? PERF_CONTEXT_GUEST_USER); now split.
Qed.

(** The context in force after the entries [ips], starting from [c]. *)
Definition context_after (c : actx) (ips : list N) : actx :=
  match find marker (rev ips) with Some ip => marker_context ip | None => c end.

Lemma find_app {A} (f : A -> bool) l1 l2 :
  find f (l1 ++ l2) = match find f l1 with Some x => Some x | None => find f l2 end.
Proof. induction l1 as [|x l1 IH]; cbn; auto. now destruct (f x). Qed.

Lemma context_after_cons c ip ips :
  context_after c (ip :: ips) = context_after (if marker ip then marker_context ip else c) ips.
Proof.
  unfold context_after. cbn [rev]. rewrite find_app. destruct (find marker (rev ips)); auto.
  cbn [find]. now destruct (marker ip).
Qed.

(** Entries of a resolved callchain. *)
Definition chain_entry (e : nenv) (h : list perf_event) (pid : N) (c : actx) (ips : list N)
    (i : nat) (x : N * option mref) : Prop :=
  nth_error ips i = Some (fst x) /\ contains_opt (snd x) (fst x) /\
  (if marker (fst x) then snd x = None
   else agrees e (snd x) (resolve h pid (fst x) (context_after c (firstn i ips)))).

Lemma chain_spec e h s pid : Inv e h s -> forall ips c,
  exists l, chain_loop s pid c ips = Ok l /\ List.length l = List.length ips /\
    forall i x, nth_error l i = Some x -> chain_entry e h pid c ips i x.
Proof.
  intros I. induction ips as [|ip ips IH]; intros c; cbn [chain_loop].
  { exists []. split; auto. split; auto. intros [|]; easy. }
  destruct (marker_spec ip) as (M1 & M2).
  destruct (negb (actx_eqb (context_from_callchain ip) CUnknown)) eqn:Em.
  - destruct (IH (context_from_callchain ip)) as (l & -> & L & H). cbn [obind].
    exists ((ip, None) :: l). split; auto. split; [cbn; lia|].
    intros [|i] x; cbn [nth_error].
    + intros [= <-]. unfold chain_entry. cbn [fst snd nth_error]. rewrite M1.
      split; auto. split; [exact Logic.I|auto].
    + intros Hx. destruct (H i x Hx) as (H1 & H2 & H3). split; auto. split; auto.
      cbn [firstn]. rewrite context_after_cons, M1. rewrite M2 in H3 by auto. exact H3.
  - destruct (get_mref_spec e h s pid ip c I) as (o & -> & A & C). cbn [obind].
    destruct (IH c) as (l & -> & L & H). cbn [obind].
    exists ((ip, o) :: l). split; auto. split; [cbn; lia|].
    intros [|i] x; cbn [nth_error].
    + intros [= <-]. unfold chain_entry. cbn [fst snd firstn]. rewrite M1. auto.
    + intros Hx. destruct (H i x Hx) as (H1 & H2 & H3). split; auto. split; auto.
      cbn [firstn]. rewrite context_after_cons, M1. exact H3.
Qed.

Definition pair_ok (e : nenv) (h : list perf_event) (pid : N) (b : branch) (p : bpair) : Prop :=
  bp_from p = br_from b /\ bp_to p = br_to b /\
  bp_mispred p = br_mispred b /\ bp_pred p = br_pred b /\ bp_intx p = br_intx b /\
  bp_abort p = br_abort b /\ bp_cycles p = br_cycles b /\ bp_spec p = br_spec b /\
  agrees e (bp_from_map p) (resolve h pid (br_from b) CUnknown) /\
  agrees e (bp_to_map p) (resolve h pid (br_to b) CUnknown) /\
  contains_opt (bp_from_map p) (bp_from p) /\ contains_opt (bp_to_map p) (bp_to p).

Lemma branch_spec e h s pid : Inv e h s -> forall bs,
  exists l, branch_loop s pid bs = Ok l /\ Forall2 (pair_ok e h pid) bs l.
Proof.
  intros I. induction bs as [|b bs (l & IH & F)]; cbn [branch_loop]; [eauto|].
  destruct (get_mref_spec e h s pid (br_from b) CUnknown I) as (o & -> & A & C). cbn [obind].
  destruct (get_mref_spec e h s pid (br_to b) CUnknown I) as (o' & -> & A' & C'). cbn [obind].
  rewrite IH. cbn [obind]. eexists. split; [reflexivity|]. constructor; auto.
  unfold pair_ok. cbn. do 8 (split; [reflexivity|]). auto.
Qed.

(** What a delivered sample looks like. *)
Record delivered (e : nenv) (h : list perf_event) (misc : option N) (sm : sample_ev)
    (spe : option spe_rec) (c : sctx) : Prop := {
  dl_misc : cx_misc c = misc;
  dl_sample : cx_sample c = sm;
  dl_spe : cx_spe c = spe;
  dl_lost : cx_lost c = false;
  dl_attr : cx_attr c = match spe with Some _ => 0%Z | None => event_index e sm end;
  dl_map : agrees e (cx_map c) (resolve h (dflt (s_pid sm)) (s_ip sm) (context_from_header misc));
  dl_addr : match s_addr sm with
            | None => cx_addr c = None
            | Some a => agrees e (cx_addr c) (resolve h (dflt (s_pid sm)) a (context_from_header misc))
            end;
  dl_chain_len : List.length (cx_chain c) = List.length (s_callchain sm);
  dl_chain : forall i x, nth_error (cx_chain c) i = Some x ->
    chain_entry e h (dflt (s_pid sm)) CUnknown (s_callchain sm) i x;
  dl_branch : exists l, Forall2 (pair_ok e h (dflt (s_pid sm))) (s_branch sm) l /\
    match spe with
    | None => cx_branch c = l
    | Some r => cx_branch c = l \/ exists b, cx_branch c = l ++ [b]
    end;
  dl_ok : addresses_ok (HSample c) }.

Lemma on_sample_spec e h s misc sm spe :
  Inv e h s ->
  exists s' cs, on_sample e s misc sm spe = Ok (s', cs) /\ Inv e h s' /\
    ns_cgroup s' = ns_cgroup s /\
    let index := match spe with Some _ => 0%Z | None => event_index e sm end in
    if (index =? -1)%Z then cs = [] /\ s' = add_stat 0 0 1 0 s
    else exists c, cs = [HSample c] /\ delivered e h misc sm spe c.
Proof.
  intros I. unfold on_sample.
  set (index := match spe with Some _ => 0%Z | None => event_index e sm end).
  destruct (index =? -1)%Z.
  { exists (add_stat 0 0 1 0 s), []. split; auto. split; [now apply (inv_same e h s)|]. auto. }
  set (pid := dflt (s_pid sm)). set (hc := context_from_header misc).
  destruct (get_mref_spec e h s pid (s_ip sm) hc I) as (mp & -> & A1 & C1). cbn [obind].
  assert (Ha : exists ad, match s_addr sm with None => Ok None | Some a => get_mref s pid a hc end
                          = Ok ad /\
            match s_addr sm with None => ad = None
            | Some a => agrees e ad (resolve h pid a hc) /\ contains_opt ad a end).
  { destruct (s_addr sm) as [a|]; [|eauto].
    destruct (get_mref_spec e h s pid a hc I) as (o & -> & ? & ?). eauto. }
  destruct Ha as (ad & -> & Had). cbn [obind].
  assert (Hm : exists s1 o, main_mapping s pid hc = Ok (s1, o)).
  { unfold main_mapping. destruct (aget N.eqb pid (ns_exec s)); eauto.
    destruct (actx_eqb hc CHostKernel); eauto. destruct (aget N.eqb pid (ns_comm s)) as [cm|].
    - destruct (aget N.eqb kernel_pid (ns_exec s)) as [k|] eqn:Ek; cbn [obind].
      + destruct (deref_lt s k (iv_exec e h s I _ _ Ek)) as (m & ->). cbn [obind].
        destruct (fake_mapping s _ _ _ _); eauto.
      + destruct (fake_mapping s _ _ _ _); eauto.
    - destruct (pid =? 0); eauto. }
  destruct Hm as (s1 & o & Em). rewrite Em. cbn [obind].
  destruct (main_mapping_spec e h s pid hc s1 o Em I) as (I1 & Lo & Cg).
  destruct (oref_spec e h s1 o I1 Lo) as (main & ->). cbn [obind].
  destruct (chain_spec e h s1 pid I1 (s_callchain sm) CUnknown) as (ch & -> & Lc & Hc). cbn [obind].
  destruct (branch_spec e h s1 pid I1 (s_branch sm)) as (bs & -> & Hb). cbn [obind].
  assert (Hs : exists bs', match spe with
     | Some r => if negb (ip_addr (sr_tgt_br r) =? 0) then
            let! t := get_mref s1 pid (ip_addr (sr_tgt_br r)) hc in
            Ok (bs ++ [{| bp_from := s_ip sm; bp_from_map := mp;
                          bp_to := ip_addr (sr_tgt_br r); bp_to_map := t;
                          bp_mispred := ev_br_mis_pred (sr_event r); bp_pred := false;
                          bp_intx := false; bp_abort := false; bp_cycles := 0; bp_spec := 0 |}])
          else Ok bs
      | None => Ok bs end = Ok bs' /\
      (match spe with None => bs' = bs | Some r => bs' = bs \/ exists b, bs' = bs ++ [b] end) /\
      (forall b, In b bs' -> contains_opt (bp_from_map b) (bp_from b) /\
                             contains_opt (bp_to_map b) (bp_to b))).
  { assert (B : forall b, In b bs -> contains_opt (bp_from_map b) (bp_from b) /\
                             contains_opt (bp_to_map b) (bp_to b)).
    { clear -Hb. induction Hb as [|x y l l' H _ IH]; intros b []; subst; auto.
      destruct H as (_ & _ & _ & _ & _ & _ & _ & _ & _ & _ & ? & ?); auto. }
    destruct spe as [r|]; [|eauto].
    destruct (negb (ip_addr (sr_tgt_br r) =? 0)); [|eauto].
    destruct (get_mref_spec e h s1 pid (ip_addr (sr_tgt_br r)) hc I1) as (t & -> & At & Ct).
    cbn [obind]. eexists. split; [reflexivity|]. split; [eauto|].
    intros b Hin. apply in_app_or in Hin as [Hin|[<-|[]]]; auto. }
  destruct Hs as (bs' & -> & Hs1 & Hs2). cbn [obind].
  eexists _, _. split; [reflexivity|]. split; [|split; [exact Cg|]].
  { now apply (inv_same e h s1). }
  eexists. split; [reflexivity|]. split; try reflexivity; auto.
  - cbn [cx_addr]. destruct (s_addr sm); [apply Had|auto].
  - cbn [cx_branch]. exists bs. split; [auto|]. destruct spe; auto.
  - cbn. split; [auto|]. split; [destruct (s_addr sm); [apply Had|auto]|]. split; auto.
    intros ip m Hin. apply In_nth_error in Hin as (i & Hi).
    destruct (Hc i _ Hi) as (_ & ? & _). auto.
Qed.
