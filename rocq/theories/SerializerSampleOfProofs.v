(** The sample made of a sample message. *)
From Verif Require Import Base BytesModel BytesProofs BytesMoreProofs BufferModel EventSizeModel
  EventSizeSpec EventSizeProofs TextModel SampleModel SampleSpec SampleProofs SampleReadProofs
  SampleSafeProofs SampleMainProofs FileModel FileProofs SerializerModel SerializerSpec
  SerializerProofs SerializerSizeProofs SerializerSampleProofs SerializerMessageProofs.
Local Open Scope N_scope.

Definition raw_back (l : list N) (n : N) (p : psample) : psample :=
  match l with
  | [] => set_raw (repeat 0 (N.to_nat n)) p
  | d => set_raw d p
  end.

Definition value_for (a : attr) (v : read_value) : read_value :=
  mkRv (rv_value v) (if formats a F_ID then rv_id v else 0) (if formats a F_LOST then rv_lost v else 0).

Definition sample_for (a : attr) (p : psample) : psample :=
  let has b := N.testbit (at_sample_type a) b in
  mkSample (if has B_IP then s_ip p else 0) (if has B_TID then s_pid p else 0)
    (if has B_TID then s_tid p else 0) (if has B_TIME then s_time p else 0)
    (if has B_ADDR then s_addr p else 0) (if has B_ID || has B_IDENTIFIER then s_id p else 0)
    (if has B_STREAM_ID then s_stream_id p else 0) (if has B_PERIOD then s_period p else 0)
    (if has B_WEIGHT_STRUCT
     then w32 (s_weight p mod two32)
          + two32 * (w16 ((s_weight p / two32) mod two16) + two16 * w16 ((s_weight p / 2 ^ 48) mod two16))
     else if has B_WEIGHT then s_weight p else 0)
    (if has B_TRANSACTION then s_transaction p else 0) (if has B_CPU then s_cpu p else 0)
    (if has B_DATA_SRC then s_data_src p else 0)
    (if has B_BRANCH_STACK then s_no_hw_idx p else Some true)
    (if has B_RAW then s_raw p else [])
    (match chain_of p with [] => None | l => if has B_CALLCHAIN then Some l else None end)
    (match branches_of p with
     | [] => None
     | l => if has B_BRANCH_STACK
            then Some (mkBs (hw_idx_of p)
                            (map (fun b => mkBe (be_from b) (be_to b) (be_flags b mod 2 ^ 26)) l))
            else None
     end)
    (if has B_READ && formats a F_TIME_ENABLED then s_time_enabled p else 0)
    (if has B_READ && formats a F_TIME_RUNNING then s_time_running p else 0)
    (if has B_READ && formats a F_GROUP then Some (map (value_for a) (group_of p)) else None)
    (if has B_READ && negb (formats a F_GROUP)
     then mkRv (rv_value (s_one p)) (if formats a F_ID then rv_id (s_one p) else 0) 0
     else mkRv 0 0 0)
    (if has B_PHYS_ADDR then s_phys_addr p else 0) (if has B_CGROUP then s_cgroup p else 0)
    (if has B_DATA_PAGE_SIZE then s_data_page p else 0) (if has B_CODE_PAGE_SIZE then s_code_page p else 0).

Lemma read_for a p r :
  ser_read a p = Ok r ->
  r = XRead (if formats a F_TIME_ENABLED then s_time_enabled p else 0)
            (if formats a F_TIME_RUNNING then s_time_running p else 0)
            (map (fun v => XReadValue (rv_value v) (if formats a F_ID then rv_id v else 0)
                             (if formats a F_LOST then rv_lost v else 0))
               (if formats a F_GROUP then group_of p else [s_one p])).
Proof.
  unfold ser_read. cbv zeta. unfold formats, group_of. intros H. apply obind_ok in H as (vs & H1 & H2).
  apply Ok_inj in H2. subst r. f_equal. f_equal.
  destruct (N.testbit (at_read_format a) F_GROUP); [destruct (s_group p)|]; apply Ok_inj in H1; now subst.
Qed.

Lemma sample_of_eq s e a p m :
  read_info_and_attr s e = Ok (p, a) -> ser_sample s e = Ok m ->
  reader_for_id s (if N.testbit (at_sample_type a) B_ID || N.testbit (at_sample_type a) B_IDENTIFIER
                   then s_id p else 0) = Some a ->
  sample_of s m = Ok (sample_for a p).
Proof.
  intros Hr Hm Hid. unfold ser_sample in Hm. rewrite Hr in Hm. cbn [obind] in Hm. cbv zeta in Hm.
  apply obind_ok in Hm as (rd & Hrd & Hm). apply obind_ok in Hm as (ch & Hch & Hm).
  apply obind_ok in Hm as (((no & hw) & br) & Hbr & Hm). apply Ok_inj in Hm. subst m.
  unfold sample_of. cbn [xsa_ip xsa_pid xsa_tid xsa_time xsa_addr xsa_id xsa_stream xsa_period xsa_cpu
    xsa_raw xsa_raw_size xsa_read xsa_callchain xsa_branch xsa_weight xsa_data_src xsa_transaction
    xsa_phys xsa_cgroup xsa_data_page xsa_code_page xsa_no_hw_idx xsa_hw_idx xsa_weight_struct].
  set (has := N.testbit (at_sample_type a)) in *.
  assert (NT : forall X : outcome psample,
    match give (has B_TID) (s_pid p), give (has B_TID) (s_tid p) with
    | Some _, None => Abort | _, _ => X end = X) by (intros X; destruct (has B_TID); reflexivity).
  rewrite NT. clear NT. unfold fresh_sample.
  rewrite opt_ip, opt_tid, opt_time, opt_addr, opt_id, opt_stream_id, opt_cpu, opt_period.
  cbn [s_id].
  (* the read info *)
  set (P := mkSample _ _ _ _ _ _ _ _ _ _ _ _ _ _ _ _ _ _ _ _ _ _ _ _).
  assert (RD : match rd, reader_for_id s (if has B_ID || has B_IDENTIFIER then s_id p else 0) with
               | Some r, Some a => set_read a r P
               | _, _ => P
               end
    = set_one (if has B_READ && negb (formats a F_GROUP)
               then mkRv (rv_value (s_one p)) (if formats a F_ID then rv_id (s_one p) else 0) 0
               else mkRv 0 0 0)
      (set_group (if has B_READ && formats a F_GROUP then Some (map (value_for a) (group_of p)) else None)
      (set_time_running (if has B_READ && formats a F_TIME_RUNNING then s_time_running p else 0)
      (set_time_enabled (if has B_READ && formats a F_TIME_ENABLED then s_time_enabled p else 0) P)))).
  { rewrite Hid. destruct (has B_READ); cbn [andb].
    - apply obind_ok in Hrd as (r & R1 & R2). apply Ok_inj in R2. subst rd.
      apply read_for in R1. subst r. unfold set_read. cbv zeta.
      change (N.testbit (at_read_format a)) with (formats a). cbn [xr_enabled xr_running xr_values].
      unfold P. destruct (formats a F_GROUP); cbn [negb map];
        destruct (formats a F_TIME_ENABLED), (formats a F_TIME_RUNNING);
        cbn [set_time_enabled set_time_running set_group set_one s_one rv_lost xrv_value xrv_id xrv_lost];
        rewrite ?map_map; reflexivity.
    - apply Ok_inj in Hrd. subst rd. reflexivity. }
  rewrite RD. clear RD Hrd Hid. unfold P. clear P.
  cbn [set_time_enabled set_time_running set_group set_one].
  (* call chain *)
  match goal with |- context [set_callchain _ ?X] =>
    set (P := X); assert (CH : match ch with [] => P | x :: l => set_callchain (Some (x :: l)) P end
      = set_callchain (match chain_of p with [] => None | l => if has B_CALLCHAIN then Some l else None end) P) end.
  { unfold chain_of. destruct (has B_CALLCHAIN).
    - destruct (s_callchain p) as [l|]; [|discriminate]. apply Ok_inj in Hch. subst ch. destruct l; reflexivity.
    - apply Ok_inj in Hch. subst ch. destruct (s_callchain p) as [[|x l]|]; reflexivity. }
  fold P. rewrite CH. clear CH Hch. unfold P. clear P. cbn [set_callchain].
  (* raw data *)
  match goal with |- context [set_raw _ ?X] => set (P := X) end.
  assert (RW : match (if has B_RAW then s_raw p else []) with [] => set_raw (repeat 0 (N.to_nat (if has B_RAW then len (s_raw p) else 0))) P
                 | x :: l => set_raw (x :: l) P end = set_raw (if has B_RAW then s_raw p else []) P).
  { destruct (has B_RAW); [|reflexivity]. destruct (s_raw p); reflexivity. }
  rewrite RW. clear RW. unfold P. clear P. cbn [set_raw set_no_hw_idx].
  (* branches *)
  match goal with |- context [set_branch _ ?X] => set (P := X) end.
  match goal with |- obind ?x ?f = _ =>
    assert (BR : x = Ok (set_branch
       (match branches_of p with
        | [] => None
        | l => if has B_BRANCH_STACK
               then Some (mkBs (hw_idx_of p)
                            (map (fun b => mkBe (be_from b) (be_to b) (be_flags b mod 2 ^ 26)) l))
               else None
        end) P)) end.
  { unfold branches_of, hw_idx_of. destruct (has B_BRANCH_STACK) eqn:Hb.
    - destruct (s_branch p) as [[hwi es]|]; [|discriminate]. destruct (s_no_hw_idx p) as [nh|]; [|discriminate].
      cbn [bs_entries bs_hw_idx] in *. apply Ok_inj in Hbr. injection Hbr as <- <- <-.
      destruct es as [|b es]; [reflexivity|]. cbn [map]. f_equal. f_equal. f_equal. f_equal.
      rewrite branch_back. f_equal. rewrite map_map. apply map_ext. apply branch_back.
    - apply Ok_inj in Hbr. injection Hbr as <- <- <-. destruct (s_branch p) as [[hwi [|b es]]|]; reflexivity. }
  rewrite BR. clear BR. cbn [obind].
  assert (NH : match no with Some b => b | None => true end =
               match (if has B_BRANCH_STACK then s_no_hw_idx p else Some true) with Some b => b | None => true end
             /\ (if has B_BRANCH_STACK then s_no_hw_idx p else Some true) <> None).
  { destruct (has B_BRANCH_STACK).
    - destruct (s_branch p) as [bs|]; [|discriminate]. destruct (s_no_hw_idx p) as [nh|]; [|discriminate].
      apply Ok_inj in Hbr. injection Hbr as <- _ _. split; [reflexivity|discriminate].
    - apply Ok_inj in Hbr. injection Hbr as <- _ _. split; [reflexivity|discriminate]. }
  unfold P. clear P. cbn [set_branch].
  rewrite opt_weight.
  match goal with |- context [match give (has B_WEIGHT_STRUCT) ?t with _ => _ end] => set (T := t) end.
  match goal with |- context [set_weight _ ?X] => set (P := X) end.
  assert (WS : match give (has B_WEIGHT_STRUCT) T with
                 | Some (v1, v2, v3) => set_weight (w32 v1 + two32 * (w16 v2 + two16 * w16 v3)) P
                 | None => P end
      = set_weight (if has B_WEIGHT_STRUCT
           then w32 (s_weight p mod two32)
                + two32 * (w16 ((s_weight p / two32) mod two16) + two16 * w16 ((s_weight p / 2 ^ 48) mod two16))
           else if has B_WEIGHT then s_weight p else 0) P).
  { unfold T, P. destruct (has B_WEIGHT_STRUCT); reflexivity. }
  rewrite WS. clear WS T. unfold P. clear P. cbn [set_weight].
  rewrite opt_data_src, opt_transaction, opt_phys_addr, opt_cgroup, opt_data_page, opt_code_page.
  unfold sample_for. cbv zeta. fold has. f_equal. f_equal.
  destruct NH as (N1 & N2). rewrite N1.
  destruct (if has B_BRANCH_STACK then s_no_hw_idx p else Some true); [reflexivity|congruence].
Qed.

Lemma weight_back w : w < two64 ->
  w32 (w mod two32) + two32 * (w16 ((w / two32) mod two16) + two16 * w16 ((w / 2 ^ 48) mod two16)) = w.
Proof.
  intros H. unfold w32, w16. rewrite !N.mod_mod by discriminate.
  assert (E1 : w / 2 ^ 48 = w / two32 / two16) by (rewrite N.div_div by discriminate; reflexivity).
  assert (L : w / 2 ^ 48 < two16) by (apply N.div_lt_upper_bound; [discriminate|exact H]).
  rewrite (N.mod_small (w / 2 ^ 48)) by exact L. rewrite E1.
  assert (D1 := N.div_mod w two32 ltac:(discriminate)).
  assert (D2 := N.div_mod (w / two32) two16 ltac:(discriminate)).
  rewrite (N.add_comm (_ mod two16)), <- D2. rewrite N.add_comm. symmetry. exact D1.
Qed.

Lemma sample_carried s e off a p m :
  sample_facts s e off a p -> ev_type e = R_SAMPLE -> read_info_and_attr s e = Ok (p, a) ->
  ser_sample s e = Ok m ->
  exists q, sample_of s m = Ok q /\ carried s a (ev_type e) p q.
Proof.
  intros F Es Hr Hm. destruct F as [F1 F2 F3 F4 F5 F6 F7 F8 F9]. rewrite Es in *.
  assert (C := carries_sample a).
  assert (Rid := rc_id _ _ _ _ F6). rewrite !C in Rid.
  exists (sample_for a p). split; [apply (sample_of_eq s e); auto; rewrite <- Rid; exact F9|].
  assert (K := F3). unfold sample_ok in K.
  destruct K as (K1 & K2 & K3 & K4 & K5 & K6 & K7 & K8 & K9 & K10 & K11 & K12 & K13 & K14 & K15 & K16 & K17 & K18
    & K19 & K20 & K21 & K22 & K23 & K24 & K25 & K26 & K27).
  assert (L0 : 0 < two64) by reflexivity. assert (L1 : 0 < two32) by reflexivity.
  assert (WT : (if N.testbit (at_sample_type a) B_WEIGHT_STRUCT
     then w32 (s_weight p mod two32)
          + two32 * (w16 ((s_weight p / two32) mod two16) + two16 * w16 ((s_weight p / 2 ^ 48) mod two16))
     else if N.testbit (at_sample_type a) B_WEIGHT then s_weight p else 0) =
     if N.testbit (at_sample_type a) B_WEIGHT || N.testbit (at_sample_type a) B_WEIGHT_STRUCT then s_weight p else 0).
  { rewrite weight_back by exact K9.
    destruct (N.testbit (at_sample_type a) B_WEIGHT_STRUCT), (N.testbit (at_sample_type a) B_WEIGHT); reflexivity. }
  assert (CH : carries a R_SAMPLE B_CALLCHAIN = true -> chain_of (sample_for a p) = chain_of p).
  { intros H. rewrite C in H. unfold chain_of at 1, sample_for. cbv zeta. cbn [s_callchain]. rewrite H.
    destruct (chain_of p); reflexivity. }
  assert (BR : carries a R_SAMPLE B_BRANCH_STACK = true -> branches_of (sample_for a p) =
               map (fun b => mkBe (be_from b) (be_to b) (be_flags b mod 2 ^ 26)) (branches_of p)).
  { intros H. rewrite C in H. unfold branches_of at 1, sample_for. cbv zeta. cbn [s_branch]. rewrite H.
    destruct (branches_of p); reflexivity. }
  assert (GR : group_of (sample_for a p) = if N.testbit (at_sample_type a) B_READ && formats a F_GROUP
               then map (value_for a) (group_of p) else []).
  { unfold group_of at 1, sample_for. cbv zeta. cbn [s_group]. now destruct (_ && _). }
  assert (Lch : len (chain_of (sample_for a p)) <= len (chain_of p)).
  { unfold chain_of at 1, sample_for. cbv zeta. cbn [s_callchain].
    destruct (chain_of p) as [|x l]; [apply N.le_refl|]. destruct (N.testbit _ B_CALLCHAIN); unfold len; cbn [length]; lia. }
  constructor.
  - assert (SB : branches_of (storable p) = map (fun b => mkBe (be_from b) (be_to b) (be_flags b mod 2 ^ 26)) (branches_of p)).
    { unfold storable, branches_of. destruct p as [? ? ? ? ? ? ? ? ? ? ? ? ? ? ? br ? ? ? ? ? ? ? ?]. cbn [s_branch set_branch set_one].
      destruct br; reflexivity. }
    constructor; rewrite ?C; try (intros H; unfold sample_for; cbv zeta;
      cbn [s_ip s_pid s_tid s_time s_addr s_id s_stream_id s_period s_transaction s_cpu s_data_src
           s_phys_addr s_cgroup s_data_page s_code_page s_raw s_time_enabled s_time_running];
      rewrite H; destruct p; reflexivity).
    + intros H. unfold sample_for; cbv zeta. cbn [s_weight]. rewrite WT, H. destruct p; reflexivity.
    + intros H. rewrite CH by (now rewrite C). destruct p; reflexivity.
    + intros H. rewrite BR by (now rewrite C). now rewrite SB.
    + intros H _. unfold hw_idx_of at 1, sample_for. cbv zeta. cbn [s_branch]. rewrite H.
      unfold storable, branches_of, hw_idx_of. destruct p as [? ? ? ? ? ? ? ? ? ? ? ? ? ? ? br ? ? ? ? ? ? ? ?].
      cbn [s_branch set_branch set_one]. destruct br as [[hw [|b l]]|]; reflexivity.
    + intros H. rewrite GR, H.
      replace (group_of (storable p)) with (group_of p) by (destruct p; reflexivity).
      clear. induction (group_of p) as [|v l IH]; cbn [map]; constructor; [|exact IH].
      unfold value_agrees, value_for. cbn [rv_value rv_id rv_lost]. split; [reflexivity|].
      split; intros H; now rewrite H.
    + intros H. unfold sample_for; cbv zeta. cbn [s_one]. rewrite H.
      replace (s_one (storable p)) with (mkRv (rv_value (s_one p)) (rv_id (s_one p)) 0) by (destruct p; reflexivity).
      unfold value_agrees. cbn [rv_value rv_id rv_lost]. split; [reflexivity|]. split; intros D; [now rewrite D|reflexivity].
  - assert (X : len (group_of (sample_for a p)) <= len (group_of p) /\
       Forall (fun v => rv_value v < two64 /\ rv_id v < two64 /\ rv_lost v < two64) (group_of (sample_for a p))).
    { rewrite GR. destruct (_ && _).
      - split; [unfold len; rewrite map_length; apply N.le_refl|]. apply Forall_map.
        apply Forall_cons_iff in K21 as (_ & K21). eapply Forall_impl; [|exact K21].
        intros v (V1 & V2 & V3). unfold value_for. cbn [rv_value rv_id rv_lost].
        split; [exact V1|]. split; apply lt_if; auto.
      - split; [unfold len; cbn [length]; lia|constructor]. }
    destruct X as (Xg & Xf).
    assert (Y : len (branches_of (sample_for a p)) <= len (branches_of p) /\
       Forall (fun b => be_from b < two64 /\ be_to b < two64 /\ be_flags b < two64) (branches_of (sample_for a p)) /\
       hw_idx_of (sample_for a p) < two64).
    { unfold branches_of at 1 3, hw_idx_of, sample_for. cbv zeta. cbn [s_branch].
      destruct (branches_of p) as [|b l] eqn:Eb.
      - split; [apply N.le_refl|]. split; [constructor|exact L0].
      - destruct (N.testbit _ B_BRANCH_STACK); cbn [bs_entries bs_hw_idx].
        + split; [unfold len; cbn [map length]; rewrite map_length; apply N.le_refl|]. split; [|exact K23].
          apply Forall_map. eapply Forall_impl; [|exact K22].
          intros z (V1 & V2 & V3). cbn [be_from be_to be_flags]. split; [exact V1|]. split; [exact V2|].
          assert (Q := N.mod_le (be_flags z) (2 ^ 26) ltac:(discriminate)). lia.
        + split; [unfold len; cbn [length]; lia|]. split; [constructor|exact L0]. }
    destruct Y as (Yl & Yf & Yh).
    assert (Z : Forall (fun ip => ip < two64) (chain_of (sample_for a p))).
    { unfold chain_of at 1, sample_for. cbv zeta. cbn [s_callchain].
      destruct (chain_of p) as [|x l]; [constructor|]. destruct (N.testbit _ B_CALLCHAIN); [exact K20|constructor]. }
    assert (One : rv_value (s_one (sample_for a p)) < two64 /\ rv_id (s_one (sample_for a p)) < two64 /\
                  rv_lost (s_one (sample_for a p)) < two64).
    { unfold sample_for. cbv zeta. cbn [s_one]. apply Forall_cons_iff in K21 as ((V1 & V2 & V3) & _).
      destruct (N.testbit (at_sample_type a) B_READ && negb (formats a F_GROUP)); cbn [rv_value rv_id rv_lost]; auto. split; [exact V1|]. split; [apply lt_if; auto|exact L0]. }
    assert (Rw : bytes_ok (s_raw (sample_for a p)) = true /\ len (s_raw (sample_for a p)) <= len (s_raw p)).
    { unfold sample_for. cbv zeta. cbn [s_raw]. destruct (N.testbit _ B_RAW); [split; [exact K19|apply N.le_refl]|].
      split; [reflexivity|]. unfold len; cbn [length]; lia. }
    destruct Rw as (Rw1 & Rw2).
    unfold sample_ok. split; [|split; [|split; [|split; [|split; [|split; [|split; [|split; [|split; [|split;
      [|split; [|split; [|split; [|split; [|split; [|split; [|split; [|split; [|split; [exact Rw1|split;
      [exact Z|split; [constructor; [exact One|exact Xf]|split; [exact Yf|split; [exact Yh|split; [lia|split; [lia|split; [lia|lia]]]]]]]]]]]]]]]]]]]]]]]]]];
    unfold sample_for; cbv zeta; cbn [s_ip s_pid s_tid s_time s_addr s_id s_stream_id s_period s_transaction s_cpu s_data_src
           s_phys_addr s_cgroup s_data_page s_code_page s_raw s_time_enabled s_time_running s_weight]; rewrite ?WT; apply lt_if; auto.
  - intros H. assert (H2 := F4 H). rewrite C in H. unfold sample_for. cbv zeta. cbn [s_no_hw_idx]. now rewrite H.
  - unfold sample_for. cbv zeta. cbn [s_id]. rewrite <- Rid. exact F9.
  - unfold field_bytes. cbv zeta. f_equal; [f_equal; [f_equal; [f_equal|]|]|].
    + rewrite C. destruct (N.testbit (at_sample_type a) B_READ) eqn:H; [|reflexivity].
      destruct (formats a F_GROUP) eqn:G; [|reflexivity]. rewrite GR. cbn [andb].
      unfold len at 1. rewrite map_length. reflexivity.
    + apply if_agree. intros H. now rewrite CH.
    + apply if_agree. intros H. rewrite C in H. unfold sample_for. cbv zeta. cbn [s_raw]. now rewrite H.
    + apply if_agree. intros H. rewrite (BR H). unfold len at 1. rewrite map_length. reflexivity.
Qed.
