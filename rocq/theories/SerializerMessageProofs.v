(** Samples made of messages agree with those read from the event. *)
From Verif Require Import Base BytesModel BytesProofs BytesMoreProofs BufferModel EventSizeModel
  EventSizeSpec EventSizeProofs TextModel SampleModel SampleSpec SampleProofs SampleReadProofs
  SampleSafeProofs SampleMainProofs FileModel FileProofs SerializerModel SerializerSpec
  SerializerProofs SerializerSizeProofs SerializerSampleProofs.
Local Open Scope N_scope.

(** ** Two samples that an event cannot tell apart *)
Definition value_agrees (a : attr) (v v' : read_value) : Prop :=
  rv_value v' = rv_value v /\ (formats a F_ID = true -> rv_id v' = rv_id v) /\
  (formats a F_LOST = true -> rv_lost v' = rv_lost v).

Record agree (a : attr) (ty : N) (q r : psample) : Prop := {
  ag_ip : carries a ty B_IP = true -> s_ip q = s_ip r;
  ag_pid : carries a ty B_TID = true -> s_pid q = s_pid r;
  ag_tid : carries a ty B_TID = true -> s_tid q = s_tid r;
  ag_time : carries a ty B_TIME = true -> s_time q = s_time r;
  ag_addr : carries a ty B_ADDR = true -> s_addr q = s_addr r;
  ag_id : carries a ty B_ID || carries a ty B_IDENTIFIER = true -> s_id q = s_id r;
  ag_stream : carries a ty B_STREAM_ID = true -> s_stream_id q = s_stream_id r;
  ag_cpu : carries a ty B_CPU = true -> s_cpu q = s_cpu r;
  ag_period : carries a ty B_PERIOD = true -> s_period q = s_period r;
  ag_weight : carries a ty B_WEIGHT || carries a ty B_WEIGHT_STRUCT = true -> s_weight q = s_weight r;
  ag_data_src : carries a ty B_DATA_SRC = true -> s_data_src q = s_data_src r;
  ag_transaction : carries a ty B_TRANSACTION = true -> s_transaction q = s_transaction r;
  ag_phys : carries a ty B_PHYS_ADDR = true -> s_phys_addr q = s_phys_addr r;
  ag_cgroup : carries a ty B_CGROUP = true -> s_cgroup q = s_cgroup r;
  ag_data_page : carries a ty B_DATA_PAGE_SIZE = true -> s_data_page q = s_data_page r;
  ag_code_page : carries a ty B_CODE_PAGE_SIZE = true -> s_code_page q = s_code_page r;
  ag_raw : carries a ty B_RAW = true -> s_raw q = s_raw r;
  ag_chain : carries a ty B_CALLCHAIN = true -> chain_of q = chain_of r;
  ag_branches : carries a ty B_BRANCH_STACK = true -> branches_of q = branches_of r;
  ag_hw : carries a ty B_BRANCH_STACK = true -> N.testbit (at_branch_type a) BR_HW_INDEX = true ->
    hw_idx_of q = hw_idx_of r;
  ag_enabled : carries a ty B_READ && formats a F_TIME_ENABLED = true -> s_time_enabled q = s_time_enabled r;
  ag_running : carries a ty B_READ && formats a F_TIME_RUNNING = true -> s_time_running q = s_time_running r;
  ag_group : carries a ty B_READ && formats a F_GROUP = true -> Forall2 (value_agrees a) (group_of r) (group_of q);
  ag_one : carries a ty B_READ && negb (formats a F_GROUP) = true -> value_agrees a (s_one r) (s_one q)
}.

Lemma if_agree {A} (b : bool) (x y d : A) : (b = true -> x = y) -> (if b then x else d) = if b then y else d.
Proof. destruct b; auto. Qed.

Lemma Forall2_trans' {A B C} (P : A -> B -> Prop) (Q : B -> C -> Prop) (R : A -> C -> Prop) l1 : forall l2 l3,
  (forall x y z, P x y -> Q y z -> R x z) -> Forall2 P l1 l2 -> Forall2 Q l2 l3 -> Forall2 R l1 l3.
Proof.
  intros l2 l3 H F. revert l3. induction F as [|x y l1 l2 Hx F IH]; intros l3 G; inversion G; subst; constructor; eauto.
Qed.

Lemma agree_recovered a ty q r p : agree a ty q r -> recovered a ty q p -> recovered a ty r p.
Proof.
  intros G R. constructor.
  - rewrite (rc_ip _ _ _ _ R). apply if_agree, G.
  - rewrite (rc_pid _ _ _ _ R). apply if_agree, G.
  - rewrite (rc_tid _ _ _ _ R). apply if_agree, G.
  - rewrite (rc_time _ _ _ _ R). apply if_agree, G.
  - rewrite (rc_addr _ _ _ _ R). apply if_agree, G.
  - rewrite (rc_id _ _ _ _ R). apply if_agree, G.
  - rewrite (rc_stream_id _ _ _ _ R). apply if_agree, G.
  - rewrite (rc_cpu _ _ _ _ R). apply if_agree, G.
  - rewrite (rc_period _ _ _ _ R). apply if_agree, G.
  - rewrite (rc_weight _ _ _ _ R). apply if_agree, G.
  - rewrite (rc_data_src _ _ _ _ R). apply if_agree, G.
  - rewrite (rc_transaction _ _ _ _ R). apply if_agree, G.
  - rewrite (rc_phys_addr _ _ _ _ R). apply if_agree, G.
  - rewrite (rc_cgroup _ _ _ _ R). apply if_agree, G.
  - rewrite (rc_data_page _ _ _ _ R). apply if_agree, G.
  - rewrite (rc_code_page _ _ _ _ R). apply if_agree, G.
  - rewrite (rc_raw _ _ _ _ R). apply if_agree, G.
  - rewrite (rc_callchain _ _ _ _ R). apply if_agree. intros C. f_equal. now apply (ag_chain _ _ _ _ G).
  - rewrite (rc_branch _ _ _ _ R). apply if_agree. intros C. f_equal. f_equal.
    + apply if_agree. intros D. now apply (ag_hw _ _ _ _ G).
    + now apply (ag_branches _ _ _ _ G).
  - rewrite (rc_time_enabled _ _ _ _ R). apply if_agree, G.
  - rewrite (rc_time_running _ _ _ _ R). apply if_agree, G.
  - apply (rc_no_group _ _ _ _ R).
  - intros C. refine (Forall2_trans' _ _ _ _ _ _ _ (ag_group _ _ _ _ G C) (rc_group _ _ _ _ R C)).
    intros x y z (V1 & V2 & V3) (U1 & U2 & U3). split; [congruence|].
    split; intros D; [rewrite (U2 D); auto|rewrite (U3 D); auto].
  - intros C. rewrite (rc_one _ _ _ _ R C). destruct (ag_one _ _ _ _ G C) as (V1 & V2 & V3). f_equal; [exact V1| |].
    + now apply if_agree.
    + now apply if_agree.
Qed.

Lemma when_agree b (x y : list chunk) : (b = true -> x = y) -> when b x = when b y.
Proof. unfold when. destruct b; auto. Qed.

Lemma agree_chunks a ty q r : agree a ty q r -> all_chunks a ty q = all_chunks a ty r.
Proof.
  intros G. unfold all_chunks. cbv zeta.
  repeat match goal with |- ?x ++ ?y = ?x' ++ ?y' => f_equal end; apply when_agree; intros C;
    try (f_equal; f_equal; apply G; exact C).
  - f_equal. f_equal. apply (ag_id _ _ _ _ G). apply andb_prop in C as [_ ->]. apply orb_true_r.
  - f_equal. f_equal. apply (ag_id _ _ _ _ G). now rewrite C.
  - f_equal. f_equal. apply (ag_id _ _ _ _ G). apply andb_prop in C as [_ ->]. apply orb_true_r.
  - unfold write_read. cbv zeta. fold (group_of q) (group_of r).
    change (N.testbit (at_read_format a)) with (formats a). assert (H := G). destruct H.
    rewrite C in *. cbn [andb] in *. destruct (formats a F_GROUP) eqn:Eg.
    + specialize (ag_group0 eq_refl).
      assert (L : len (group_of q) = len (group_of r)).
      { unfold len. f_equal. symmetry. clear - ag_group0. induction ag_group0; cbn [length]; congruence. }
      rewrite L. f_equal. f_equal; [apply when_agree; intros D; now rewrite (ag_enabled0 D)|].
      f_equal; [apply when_agree; intros D; now rewrite (ag_running0 D)|].
      clear - ag_group0. induction ag_group0 as [|x y l l' (V1 & V2 & V3) F IH]; [reflexivity|].
      cbn [flat_map]. rewrite IH. f_equal. f_equal; [now rewrite V1|].
      f_equal; apply when_agree; intros D; [now rewrite V2|now rewrite V3].
    + destruct (ag_one0 eq_refl) as (V1 & V2 & V3). rewrite V1. f_equal.
      f_equal; [apply when_agree; intros D; now rewrite (ag_enabled0 D)|].
      f_equal; [apply when_agree; intros D; now rewrite (ag_running0 D)|].
      f_equal; apply when_agree; intros D; [now rewrite V2|now rewrite V3].
  - assert (X : forall z, write_callchain z = put64 (len (chain_of z)) :: map put64 (chain_of z)).
    { intros z. unfold write_callchain, chain_of. destruct (s_callchain z); reflexivity. }
    rewrite !X, (ag_chain _ _ _ _ G C). reflexivity.
  - unfold branch_chunks. rewrite (ag_branches _ _ _ _ G C). f_equal. f_equal.
    apply when_agree. intros D. now rewrite (ag_hw _ _ _ _ G C D).
Qed.

(** ** The flags of a branch entry *)
Lemma bit_of_bit f k : bit_of (N.testbit f k) k = 2 ^ k * ((f / 2 ^ k) mod 2).
Proof.
  rewrite N.testbit_eqb. unfold bit_of. assert (H := N.mod_upper_bound (f / 2 ^ k) 2 ltac:(discriminate)).
  set (m := (f / 2 ^ k) mod 2) in *. clearbody m. set (x := 2 ^ k). clearbody x.
  destruct (N.eqb_spec m 1) as [E|E]; [subst m; lia|]. assert (E0 : m = 0) by lia. subst m. lia.
Qed.

Lemma mod_split f a b : f mod 2 ^ (a + b) = f mod 2 ^ a + 2 ^ a * ((f / 2 ^ a) mod 2 ^ b).
Proof.
  rewrite N.pow_add_r. apply N.mod_mul_r; apply N.pow_nonzero; discriminate.
Qed.

Lemma branch_back b : des_branch (ser_branch b) = mkBe (be_from b) (be_to b) (be_flags b mod 2 ^ 26).
Proof.
  unfold des_branch, ser_branch. cbn [xbr_from xbr_to xbr_mispred xbr_predicted xbr_in_tx xbr_abort
    xbr_cycles xbr_type xbr_spec]. f_equal. set (f := be_flags b).
  rewrite !bit_of_bit, !N.shiftr_div_pow2.
  rewrite !(N.mod_mod) by (apply N.pow_nonzero; discriminate).
  assert (E1 := mod_split f 24 2). assert (E2 := mod_split f 20 4). assert (E3 := mod_split f 4 16).
  assert (E4 := mod_split f 3 1). assert (E5 := mod_split f 2 1). assert (E6 := mod_split f 1 1).
  change (24 + 2) with 26 in E1. change (20 + 4) with 24 in E2. change (4 + 16) with 20 in E3.
  change (3 + 1) with 4 in E4. change (2 + 1) with 3 in E5. change (1 + 1) with 2 in E6.
  rewrite E1, E2, E3, E4, E5, E6.
  change (2 ^ 0) with 1. rewrite N.div_1_r. change (2 ^ 1) with 2. lia.
Qed.

(** ** Assigning what is there *)
Lemma opt_ip b v x1 x2 x3 x4 x5 x6 x7 x8 x9 x10 x11 x12 x13 x14 x15 x16 x17 x18 x19 x20 x21 x22 x23 x24 :
  (match give b v with Some y => set_ip y (mkSample x1 x2 x3 x4 x5 x6 x7 x8 x9 x10 x11 x12 x13 x14 x15 x16 x17 x18 x19 x20 x21 x22 x23 x24) | None => (mkSample x1 x2 x3 x4 x5 x6 x7 x8 x9 x10 x11 x12 x13 x14 x15 x16 x17 x18 x19 x20 x21 x22 x23 x24) end)
  = (mkSample (if b then v else x1) x2 x3 x4 x5 x6 x7 x8 x9 x10 x11 x12 x13 x14 x15 x16 x17 x18 x19 x20 x21 x22 x23 x24).
Proof. destruct b; reflexivity. Qed.
Lemma opt_time b v x1 x2 x3 x4 x5 x6 x7 x8 x9 x10 x11 x12 x13 x14 x15 x16 x17 x18 x19 x20 x21 x22 x23 x24 :
  (match give b v with Some y => set_time y (mkSample x1 x2 x3 x4 x5 x6 x7 x8 x9 x10 x11 x12 x13 x14 x15 x16 x17 x18 x19 x20 x21 x22 x23 x24) | None => (mkSample x1 x2 x3 x4 x5 x6 x7 x8 x9 x10 x11 x12 x13 x14 x15 x16 x17 x18 x19 x20 x21 x22 x23 x24) end)
  = (mkSample x1 x2 x3 (if b then v else x4) x5 x6 x7 x8 x9 x10 x11 x12 x13 x14 x15 x16 x17 x18 x19 x20 x21 x22 x23 x24).
Proof. destruct b; reflexivity. Qed.
Lemma opt_addr b v x1 x2 x3 x4 x5 x6 x7 x8 x9 x10 x11 x12 x13 x14 x15 x16 x17 x18 x19 x20 x21 x22 x23 x24 :
  (match give b v with Some y => set_addr y (mkSample x1 x2 x3 x4 x5 x6 x7 x8 x9 x10 x11 x12 x13 x14 x15 x16 x17 x18 x19 x20 x21 x22 x23 x24) | None => (mkSample x1 x2 x3 x4 x5 x6 x7 x8 x9 x10 x11 x12 x13 x14 x15 x16 x17 x18 x19 x20 x21 x22 x23 x24) end)
  = (mkSample x1 x2 x3 x4 (if b then v else x5) x6 x7 x8 x9 x10 x11 x12 x13 x14 x15 x16 x17 x18 x19 x20 x21 x22 x23 x24).
Proof. destruct b; reflexivity. Qed.
Lemma opt_id b v x1 x2 x3 x4 x5 x6 x7 x8 x9 x10 x11 x12 x13 x14 x15 x16 x17 x18 x19 x20 x21 x22 x23 x24 :
  (match give b v with Some y => set_id y (mkSample x1 x2 x3 x4 x5 x6 x7 x8 x9 x10 x11 x12 x13 x14 x15 x16 x17 x18 x19 x20 x21 x22 x23 x24) | None => (mkSample x1 x2 x3 x4 x5 x6 x7 x8 x9 x10 x11 x12 x13 x14 x15 x16 x17 x18 x19 x20 x21 x22 x23 x24) end)
  = (mkSample x1 x2 x3 x4 x5 (if b then v else x6) x7 x8 x9 x10 x11 x12 x13 x14 x15 x16 x17 x18 x19 x20 x21 x22 x23 x24).
Proof. destruct b; reflexivity. Qed.
Lemma opt_stream_id b v x1 x2 x3 x4 x5 x6 x7 x8 x9 x10 x11 x12 x13 x14 x15 x16 x17 x18 x19 x20 x21 x22 x23 x24 :
  (match give b v with Some y => set_stream_id y (mkSample x1 x2 x3 x4 x5 x6 x7 x8 x9 x10 x11 x12 x13 x14 x15 x16 x17 x18 x19 x20 x21 x22 x23 x24) | None => (mkSample x1 x2 x3 x4 x5 x6 x7 x8 x9 x10 x11 x12 x13 x14 x15 x16 x17 x18 x19 x20 x21 x22 x23 x24) end)
  = (mkSample x1 x2 x3 x4 x5 x6 (if b then v else x7) x8 x9 x10 x11 x12 x13 x14 x15 x16 x17 x18 x19 x20 x21 x22 x23 x24).
Proof. destruct b; reflexivity. Qed.
Lemma opt_period b v x1 x2 x3 x4 x5 x6 x7 x8 x9 x10 x11 x12 x13 x14 x15 x16 x17 x18 x19 x20 x21 x22 x23 x24 :
  (match give b v with Some y => set_period y (mkSample x1 x2 x3 x4 x5 x6 x7 x8 x9 x10 x11 x12 x13 x14 x15 x16 x17 x18 x19 x20 x21 x22 x23 x24) | None => (mkSample x1 x2 x3 x4 x5 x6 x7 x8 x9 x10 x11 x12 x13 x14 x15 x16 x17 x18 x19 x20 x21 x22 x23 x24) end)
  = (mkSample x1 x2 x3 x4 x5 x6 x7 (if b then v else x8) x9 x10 x11 x12 x13 x14 x15 x16 x17 x18 x19 x20 x21 x22 x23 x24).
Proof. destruct b; reflexivity. Qed.
Lemma opt_cpu b v x1 x2 x3 x4 x5 x6 x7 x8 x9 x10 x11 x12 x13 x14 x15 x16 x17 x18 x19 x20 x21 x22 x23 x24 :
  (match give b v with Some y => set_cpu y (mkSample x1 x2 x3 x4 x5 x6 x7 x8 x9 x10 x11 x12 x13 x14 x15 x16 x17 x18 x19 x20 x21 x22 x23 x24) | None => (mkSample x1 x2 x3 x4 x5 x6 x7 x8 x9 x10 x11 x12 x13 x14 x15 x16 x17 x18 x19 x20 x21 x22 x23 x24) end)
  = (mkSample x1 x2 x3 x4 x5 x6 x7 x8 x9 x10 (if b then v else x11) x12 x13 x14 x15 x16 x17 x18 x19 x20 x21 x22 x23 x24).
Proof. destruct b; reflexivity. Qed.
Lemma opt_data_src b v x1 x2 x3 x4 x5 x6 x7 x8 x9 x10 x11 x12 x13 x14 x15 x16 x17 x18 x19 x20 x21 x22 x23 x24 :
  (match give b v with Some y => set_data_src y (mkSample x1 x2 x3 x4 x5 x6 x7 x8 x9 x10 x11 x12 x13 x14 x15 x16 x17 x18 x19 x20 x21 x22 x23 x24) | None => (mkSample x1 x2 x3 x4 x5 x6 x7 x8 x9 x10 x11 x12 x13 x14 x15 x16 x17 x18 x19 x20 x21 x22 x23 x24) end)
  = (mkSample x1 x2 x3 x4 x5 x6 x7 x8 x9 x10 x11 (if b then v else x12) x13 x14 x15 x16 x17 x18 x19 x20 x21 x22 x23 x24).
Proof. destruct b; reflexivity. Qed.
Lemma opt_transaction b v x1 x2 x3 x4 x5 x6 x7 x8 x9 x10 x11 x12 x13 x14 x15 x16 x17 x18 x19 x20 x21 x22 x23 x24 :
  (match give b v with Some y => set_transaction y (mkSample x1 x2 x3 x4 x5 x6 x7 x8 x9 x10 x11 x12 x13 x14 x15 x16 x17 x18 x19 x20 x21 x22 x23 x24) | None => (mkSample x1 x2 x3 x4 x5 x6 x7 x8 x9 x10 x11 x12 x13 x14 x15 x16 x17 x18 x19 x20 x21 x22 x23 x24) end)
  = (mkSample x1 x2 x3 x4 x5 x6 x7 x8 x9 (if b then v else x10) x11 x12 x13 x14 x15 x16 x17 x18 x19 x20 x21 x22 x23 x24).
Proof. destruct b; reflexivity. Qed.
Lemma opt_phys_addr b v x1 x2 x3 x4 x5 x6 x7 x8 x9 x10 x11 x12 x13 x14 x15 x16 x17 x18 x19 x20 x21 x22 x23 x24 :
  (match give b v with Some y => set_phys_addr y (mkSample x1 x2 x3 x4 x5 x6 x7 x8 x9 x10 x11 x12 x13 x14 x15 x16 x17 x18 x19 x20 x21 x22 x23 x24) | None => (mkSample x1 x2 x3 x4 x5 x6 x7 x8 x9 x10 x11 x12 x13 x14 x15 x16 x17 x18 x19 x20 x21 x22 x23 x24) end)
  = (mkSample x1 x2 x3 x4 x5 x6 x7 x8 x9 x10 x11 x12 x13 x14 x15 x16 x17 x18 x19 x20 (if b then v else x21) x22 x23 x24).
Proof. destruct b; reflexivity. Qed.
Lemma opt_cgroup b v x1 x2 x3 x4 x5 x6 x7 x8 x9 x10 x11 x12 x13 x14 x15 x16 x17 x18 x19 x20 x21 x22 x23 x24 :
  (match give b v with Some y => set_cgroup y (mkSample x1 x2 x3 x4 x5 x6 x7 x8 x9 x10 x11 x12 x13 x14 x15 x16 x17 x18 x19 x20 x21 x22 x23 x24) | None => (mkSample x1 x2 x3 x4 x5 x6 x7 x8 x9 x10 x11 x12 x13 x14 x15 x16 x17 x18 x19 x20 x21 x22 x23 x24) end)
  = (mkSample x1 x2 x3 x4 x5 x6 x7 x8 x9 x10 x11 x12 x13 x14 x15 x16 x17 x18 x19 x20 x21 (if b then v else x22) x23 x24).
Proof. destruct b; reflexivity. Qed.
Lemma opt_data_page b v x1 x2 x3 x4 x5 x6 x7 x8 x9 x10 x11 x12 x13 x14 x15 x16 x17 x18 x19 x20 x21 x22 x23 x24 :
  (match give b v with Some y => set_data_page y (mkSample x1 x2 x3 x4 x5 x6 x7 x8 x9 x10 x11 x12 x13 x14 x15 x16 x17 x18 x19 x20 x21 x22 x23 x24) | None => (mkSample x1 x2 x3 x4 x5 x6 x7 x8 x9 x10 x11 x12 x13 x14 x15 x16 x17 x18 x19 x20 x21 x22 x23 x24) end)
  = (mkSample x1 x2 x3 x4 x5 x6 x7 x8 x9 x10 x11 x12 x13 x14 x15 x16 x17 x18 x19 x20 x21 x22 (if b then v else x23) x24).
Proof. destruct b; reflexivity. Qed.
Lemma opt_code_page b v x1 x2 x3 x4 x5 x6 x7 x8 x9 x10 x11 x12 x13 x14 x15 x16 x17 x18 x19 x20 x21 x22 x23 x24 :
  (match give b v with Some y => set_code_page y (mkSample x1 x2 x3 x4 x5 x6 x7 x8 x9 x10 x11 x12 x13 x14 x15 x16 x17 x18 x19 x20 x21 x22 x23 x24) | None => (mkSample x1 x2 x3 x4 x5 x6 x7 x8 x9 x10 x11 x12 x13 x14 x15 x16 x17 x18 x19 x20 x21 x22 x23 x24) end)
  = (mkSample x1 x2 x3 x4 x5 x6 x7 x8 x9 x10 x11 x12 x13 x14 x15 x16 x17 x18 x19 x20 x21 x22 x23 (if b then v else x24)).
Proof. destruct b; reflexivity. Qed.
Lemma opt_weight b v x1 x2 x3 x4 x5 x6 x7 x8 x9 x10 x11 x12 x13 x14 x15 x16 x17 x18 x19 x20 x21 x22 x23 x24 :
  (match give b v with Some y => set_weight y (mkSample x1 x2 x3 x4 x5 x6 x7 x8 x9 x10 x11 x12 x13 x14 x15 x16 x17 x18 x19 x20 x21 x22 x23 x24) | None => (mkSample x1 x2 x3 x4 x5 x6 x7 x8 x9 x10 x11 x12 x13 x14 x15 x16 x17 x18 x19 x20 x21 x22 x23 x24) end)
  = (mkSample x1 x2 x3 x4 x5 x6 x7 x8 (if b then v else x9) x10 x11 x12 x13 x14 x15 x16 x17 x18 x19 x20 x21 x22 x23 x24).
Proof. destruct b; reflexivity. Qed.
Lemma opt_tid b v w x1 x2 x3 x4 x5 x6 x7 x8 x9 x10 x11 x12 x13 x14 x15 x16 x17 x18 x19 x20 x21 x22 x23 x24 :
  (match give b v with Some y => set_tid (value_or 0 (give b w)) (set_pid y (mkSample x1 x2 x3 x4 x5 x6 x7 x8 x9 x10 x11 x12 x13 x14 x15 x16 x17 x18 x19 x20 x21 x22 x23 x24)) | None => (mkSample x1 x2 x3 x4 x5 x6 x7 x8 x9 x10 x11 x12 x13 x14 x15 x16 x17 x18 x19 x20 x21 x22 x23 x24) end)
  = (mkSample x1 (if b then v else x2) (if b then w else x3) x4 x5 x6 x7 x8 x9 x10 x11 x12 x13 x14 x15 x16 x17 x18 x19 x20 x21 x22 x23 x24).
Proof. destruct b; reflexivity. Qed.

(** ** The sample of a sample id *)
Definition info_for (a : attr) (p : psample) : x_info :=
  let has b := N.testbit (at_sample_type a) b in
  XInfo (give (has B_TID) (s_pid p)) (give (has B_TID) (s_tid p)) (give (has B_TIME) (s_time p))
        (give (has B_ID || has B_IDENTIFIER) (s_id p)) (give (has B_CPU) (s_cpu p))
        (give (has B_STREAM_ID) (s_stream_id p)).

Lemma info_sample_eq a p :
  let has b := N.testbit (at_sample_type a) b in
  info_sample (info_for a p) =
  Ok (mkSample 0 (if has B_TID then s_pid p else 0) (if has B_TID then s_tid p else 0)
        (if has B_TIME then s_time p else 0) 0 (if has B_ID || has B_IDENTIFIER then s_id p else 0)
        (if has B_STREAM_ID then s_stream_id p else 0) 0 0 0 (if has B_CPU then s_cpu p else 0) 0
        None [] None None 0 0 None (mkRv 0 0 0) 0 0 0 0).
Proof.
  cbv zeta. unfold info_sample, info_for. cbn [xi_pid xi_tid xi_time xi_id xi_cpu xi_stream].
  destruct (N.testbit (at_sample_type a) B_TID), (N.testbit (at_sample_type a) B_TIME),
    (N.testbit (at_sample_type a) B_ID || N.testbit (at_sample_type a) B_IDENTIFIER),
    (N.testbit (at_sample_type a) B_CPU), (N.testbit (at_sample_type a) B_STREAM_ID); reflexivity.
Qed.

(** What is needed of the sample made of a message. *)
Record carried (s : sstate) (a : attr) (ty : N) (p q : psample) : Prop := {
  cd_agree : agree a ty q (storable p);
  cd_ok : sample_ok q;
  cd_hw : hw_idx_agrees a ty q;
  cd_reader : reader_for_id s (s_id q) = Some a;
  cd_size : field_bytes a ty q = field_bytes a ty p
}.

Lemma lt_if (b : bool) x y m : x < m -> y < m -> (if b then x else y) < m.
Proof. destruct b; auto. Qed.

Lemma info_carried s e off a p :
  sample_facts s e off a p -> ev_type e <> R_SAMPLE ->
  exists q, info_sample (info_for a p) = Ok q /\ carried s a (ev_type e) p q.
Proof.
  intros F Hns. eexists. split; [apply info_sample_eq|].
  destruct F as [F1 F2 F3 F4 F5 F6 F7 F8 F9]. destruct F8 as [|F8]; [contradiction|].
  assert (C : forall b, carries a (ev_type e) b = N.testbit (at_sample_type a) b && existsb (N.eqb b) sample_id_bits)
    by (intros b; now apply carries_other).
  assert (CF : forall b, existsb (N.eqb b) sample_id_bits = false -> carries a (ev_type e) b = false).
  { intros b Hb. rewrite C, Hb. apply andb_false_r. }
  assert (CT : forall b, existsb (N.eqb b) sample_id_bits = true -> carries a (ev_type e) b = N.testbit (at_sample_type a) b).
  { intros b Hb. rewrite C, Hb. apply andb_true_r. }
  assert (Rid := rc_id _ _ _ _ F6). rewrite !CT in Rid by reflexivity.
  constructor.
  - constructor; rewrite ?(CF B_IP), ?(CF B_ADDR), ?(CF B_PERIOD), ?(CF B_WEIGHT), ?(CF B_WEIGHT_STRUCT),
      ?(CF B_DATA_SRC), ?(CF B_TRANSACTION), ?(CF B_PHYS_ADDR), ?(CF B_CGROUP), ?(CF B_DATA_PAGE_SIZE),
      ?(CF B_CODE_PAGE_SIZE), ?(CF B_RAW), ?(CF B_CALLCHAIN), ?(CF B_BRANCH_STACK), ?(CF B_READ),
      ?(CT B_TID), ?(CT B_TIME), ?(CT B_ID), ?(CT B_IDENTIFIER), ?(CT B_STREAM_ID), ?(CT B_CPU) by reflexivity;
      try (cbn [andb orb]; discriminate);
      cbn [s_pid s_tid s_time s_id s_stream_id s_cpu];
      intros H; rewrite H; destruct p; reflexivity.
  - unfold sample_ok in F3. unfold sample_ok, chain_of, group_of, branches_of, hw_idx_of.
    cbn [s_ip s_pid s_tid s_time s_addr s_id s_stream_id s_period s_weight s_transaction s_cpu s_data_src
         s_time_enabled s_time_running s_phys_addr s_cgroup s_data_page s_code_page s_raw s_callchain s_one
         s_group s_branch].
    repeat split; try reflexivity; try (apply lt_if; [apply F3|reflexivity]); repeat constructor.
  - intros H. rewrite CF in H by reflexivity. discriminate.
  - cbn [s_id]. rewrite <- Rid. exact F9.
  - unfold field_bytes. cbv zeta. rewrite !(CF B_READ), !(CF B_CALLCHAIN), !(CF B_RAW), !(CF B_BRANCH_STACK) by reflexivity.
    reflexivity.
Qed.
