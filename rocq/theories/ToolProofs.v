(** Proofs about perf_to_profile (C70). *)
From Coq Require Import String.
From Verif Require Import Base BytesModel BytesProofs TextModel PerfProto ConverterModel ConverterSpec PipelineModel ToolModel ToolSpec.
From Verif Require FileModel FileSpec FileProps HugePageProofs ConverterProps.
Local Open Scope N_scope.
Local Open Scope list_scope.

(** ** Command line *)
Definition word_options (w : word) : list gopt :=
  match w with
  | Flags l => map (fun x => GOpt (flag_letter x)) l
  | WithFile l o _ name => map (fun x => GOpt (flag_letter x)) l ++ [GArg (file_letter o) name]
  | Operand _ => []
  end.

Lemma cluster_flags l cs : cluster options_of_tool (map flag_letter l ++ cs) =
  let '(os, p) := cluster options_of_tool cs in (map (fun x => GOpt (flag_letter x)) l ++ os, p).
Proof.
  induction l as [|x l IH]; cbn [map app]; [now destruct (cluster _ cs)|]. cbn [cluster].
  assert (E : options_of_tool (flag_letter x) = Some false) by (now destruct x). rewrite E, IH. now destruct (cluster _ cs).
Qed.
Lemma cluster_file o name : cluster options_of_tool (file_letter o :: name) =
  match name with [] => ([], Some (file_letter o)) | _ => ([GArg (file_letter o) name], None) end.
Proof. cbn [cluster]. assert (E : options_of_tool (file_letter o) = Some true) by (now destruct o). now rewrite E. Qed.

Lemma getopt_word w r : proper_word w -> getopt options_of_tool None (typed w ++ r) = word_options w ++ getopt options_of_tool None r.
Proof.
  destruct w as [l|l o joined name|t]; cbn [typed proper_word word_options].
  - intros Nl. cbn [app]. destruct l as [|x l]; [congruence|].
    cbn [getopt]. change (str "-" ++ map flag_letter (x :: l)) with (45 :: flag_letter x :: map flag_letter l).
    cbv iota. change (negb (45 =? 45)) with false. cbv iota.
    assert (E : list_eqb (flag_letter x :: map flag_letter l) [45] = false) by (now destruct x). rewrite E.
    pose proof (cluster_flags (x :: l) []) as C. rewrite app_nil_r in C. cbn [map] in C. rewrite C. cbn [cluster]. rewrite app_nil_r. reflexivity.
  - intros J. set (cs := map flag_letter l ++ [file_letter o] ++ (if joined then name else [])).
    assert (C : cluster options_of_tool cs = (map (fun x => GOpt (flag_letter x)) l ++ (if joined then [GArg (file_letter o) name] else []),
                  if joined then None else Some (file_letter o))).
    { unfold cs. rewrite cluster_flags. cbn [app]. rewrite cluster_file. destruct joined; [|reflexivity]. destruct name; [now destruct (J eq_refl)|reflexivity]. }
    assert (D : exists c d, cs = c :: d /\ list_eqb cs [45] = false).
    { unfold cs. destruct l as [|x l]; cbn [map app]; eexists _, _; (split; [reflexivity|]).
      - now destruct o.
      - now destruct x. }
    destruct D as (c & d & D1 & D2).
    assert (T : forall q, getopt options_of_tool None ((45 :: cs) :: q) = (map (fun x => GOpt (flag_letter x)) l ++ (if joined then [GArg (file_letter o) name] else [])) ++ getopt options_of_tool (if joined then None else Some (file_letter o)) q).
    { intros q. clearbody cs. subst cs. cbn [getopt]. change (negb (45 =? 45)) with false. cbv iota. rewrite D2, C. reflexivity. }
    destruct joined.
    + change (str "-" ++ map flag_letter l ++ [file_letter o] ++ name) with (45 :: cs). cbn [app]. rewrite T, <- app_assoc. now rewrite app_assoc.
    + unfold cs in T. cbn [app] in T. change (str "-" ++ map flag_letter l ++ [file_letter o]) with (45 :: map flag_letter l ++ [file_letter o]).
      cbn [app]. rewrite T, app_nil_r. cbn [getopt]. now rewrite <- app_assoc.
  - intros [->|H]; [reflexivity|]. cbn [app getopt]. destruct t as [|c [|d t]]; try reflexivity.
    destruct (N.eqb_spec c 45) as [->|Nc]; [|reflexivity]. now destruct (H (d :: t)).
Qed.
Lemma getopt_words tl : rest tl -> forall ws, Forall proper_word ws ->
  getopt options_of_tool None (flat_map typed ws ++ tl) = flat_map word_options ws.
Proof.
  intros R ws F. induction F as [|w ws Pw F IH]; cbn [flat_map].
  - cbn [app]. destruct R as [|l]; reflexivity.
  - rewrite <- app_assoc, getopt_word by exact Pw. now rewrite IH.
Qed.

Lemma last_app {A} (l m : list A) d : last (l ++ m) d = last m (last l d).
Proof.
  revert d. induction m as [|x m IH] using rev_ind; intros d; [now rewrite app_nil_r|]. rewrite app_assoc, !last_last. reflexivity.
Qed.
Definition asked (ws : list word) (a : arguments) : arguments :=
  {| a_input := last (flat_map (fun w => match w with WithFile _ q _ name => if same_option OptI q then [name] else [] | _ => [] end) ws) (a_input a);
     a_output := last (flat_map (fun w => match w with WithFile _ q _ name => if same_option OptO q then [name] else [] | _ => [] end) ws) (a_output a);
     a_overwrite := has_flag FlagF ws || a_overwrite a; a_jit := has_flag FlagJ ws || a_jit a |}.
Lemma take_flags l os a : take_options (map (fun x => GOpt (flag_letter x)) l ++ os) a = take_options os (asked [Flags l] a).
Proof.
  revert a. induction l as [|x l IH]; intros (i, o, f, j); [reflexivity|]. cbn [map app take_options].
  destruct x; cbn [flag_letter]; [change (102 =? 102) with true|change (106 =? 102) with false; change (106 =? 106) with true]; cbv iota;
    rewrite IH; f_equal; unfold asked; cbn [flat_map last a_input a_output a_overwrite a_jit has_flag existsb app orb]; f_equal;
    rewrite ?orb_false_r, ?orb_true_r; reflexivity.
Qed.
Lemma asked_cons w ws a : asked (w :: ws) a = asked ws (asked [w] a).
Proof.
  unfold asked. cbn [a_input a_output a_overwrite a_jit flat_map]. rewrite !app_nil_r. unfold has_flag. cbn [existsb].
  rewrite !orb_false_r. f_equal; [rewrite last_app; reflexivity|rewrite last_app; reflexivity| |];
    destruct (existsb _ ws); rewrite ?orb_true_r, ?orb_false_r; reflexivity.
Qed.
Lemma take_word w os a : take_options (word_options w ++ os) a = take_options os (asked [w] a).
Proof.
  destruct w as [l|l o joined name|t]; cbn [word_options].
  - apply take_flags.
  - rewrite <- app_assoc, take_flags. cbn [app take_options]. destruct o; cbn [file_letter].
    + change (105 =? 105) with true. cbv iota. reflexivity.
    + change (111 =? 105) with false. change (111 =? 111) with true. cbv iota. reflexivity.
  - now destruct a.
Qed.
Lemma take_words ws : forall a, take_options (flat_map word_options ws) a = Some (asked ws a).
Proof.
  induction ws as [|w ws IH]; intros a; cbn [flat_map]; [now destruct a|]. rewrite take_word, IH. f_equal. symmetry. apply asked_cons.
Qed.

(** Nothing else is accepted. *)
Lemma letters c : match options_of_tool c with
                  | Some false => exists x, c = flag_letter x
                  | Some true => exists o, c = file_letter o
                  | None => True
                  end.
Proof.
  unfold options_of_tool. destruct (N.eqb_spec c 106) as [->|_]; [now exists FlagJ|]. destruct (N.eqb_spec c 102) as [->|_]; [now exists FlagF|].
  cbn [orb]. destruct (N.eqb_spec c 105) as [->|_]; [now exists OptI|]. destruct (N.eqb_spec c 111) as [->|_]; [now exists OptO|]. exact Logic.I.
Qed.
Lemma cluster_inv cs : forall os p more a, cluster options_of_tool cs = (os, p) -> take_options (os ++ more) a <> None ->
  exists l, (p = None /\ cs = map flag_letter l) \/
    (exists o, p = Some (file_letter o) /\ cs = map flag_letter l ++ [file_letter o]) \/
    (exists o n name, p = None /\ cs = map flag_letter l ++ file_letter o :: n :: name).
Proof.
  induction cs as [|c cs IH]; intros os p more a; cbn [cluster].
  - intros [= <- <-] _. exists []. now left.
  - pose proof (letters c) as L. destruct (options_of_tool c) as [[|]|].
    + destruct L as (o & ->). destruct cs as [|n name]; intros [= <- <-] _; exists []; right; [left; now exists o|right; now exists o, n, name].
    + destruct L as (x & ->). destruct (cluster options_of_tool cs) as (os', p') eqn:C. intros [= <- <-]. cbn [app].
      intros T. assert (T' : take_options (os' ++ more) (asked [Flags [x]] a) <> None).
      { intros E. apply T. exact (eq_trans (take_flags [x] (os' ++ more) a) E). }
      destruct (IH _ _ _ _ eq_refl T') as (l & [(-> & ->)|[(o & -> & ->)|(o & n & name & -> & ->)]]); exists (x :: l).
      * now left.
      * right. left. now exists o.
      * right. right. now exists o, n, name.
    + destruct (cluster options_of_tool cs) as (os', p'). intros [= <- <-]. cbn [app take_options]. congruence.
Qed.
Lemma take_more os : forall more a, take_options (os ++ more) a <> None -> exists a', take_options more a' <> None.
Proof.
  induction os as [|o os IH]; intros more a; cbn [app]; [eauto|]. destruct o as [c|c v|c|c]; cbn [take_options]; try congruence.
  - destruct (c =? 102); [apply IH|]. destruct (c =? 106); [apply IH|congruence].
  - destruct (c =? 105); [apply IH|]. destruct (c =? 111); [apply IH|congruence].
Qed.
Lemma accepted_words : forall n args a, (List.length args <= n)%nat -> take_options (getopt options_of_tool None args) a <> None ->
  exists ws tl, Forall proper_word ws /\ rest tl /\ args = flat_map typed ws ++ tl.
Proof.
  induction n as [|n IH]; intros [|w args] a Ln; cbn [List.length] in Ln; try (exists [], []; repeat constructor; fail); [lia|].
  cbn [getopt].
  assert (Op : take_options (getopt options_of_tool None args) a <> None -> proper_word (Operand w) ->
               exists ws tl, Forall proper_word ws /\ rest tl /\ w :: args = flat_map typed ws ++ tl).
  { intros T Pw. destruct (IH args a ltac:(lia) T) as (ws & tl & F & R & ->). exists (Operand w :: ws), tl. split; [now constructor|]. now split. }
  destruct w as [|c [|d cs]].
  - intros T. apply Op; [exact T|]. right. intros r. discriminate.
  - intros T. apply Op; [exact T|]. destruct (N.eqb_spec c 45) as [->|Nc]; [now left|right]. intros r [= E _]. contradiction.
  - destruct (N.eqb_spec c 45) as [->|Nc]; cbn [negb].
    2:{ intros T. apply Op; [exact T|]. right. intros r [= E _]. contradiction. }
    destruct (list_eqb (d :: cs) [45]) eqn:DD.
    { intros _. apply HugePageProofs.leqb_eq in DD. injection DD as -> ->. exists [], ([45; 45] :: args). repeat constructor. }
    destruct (cluster options_of_tool (d :: cs)) as (os, p) eqn:C. intros T.
    destruct (cluster_inv _ _ _ _ _ C T) as (l & [(-> & E)|[(o & -> & E)|(o & m & name & -> & E)]]).
    + destruct (take_more _ _ _ T) as (a' & T'). destruct (IH args a' ltac:(lia) T') as (ws & tl & F & R & ->).
      exists (Flags l :: ws), tl. split; [constructor; [destruct l; [discriminate|discriminate]|exact F]|]. split; [exact R|]. cbn [flat_map typed].
      rewrite <- app_assoc, E. reflexivity.
    + destruct (take_more _ _ _ T) as (a' & T'). destruct args as [|v args]; [now destruct T'|]. cbn [getopt] in T'.
      destruct (take_more [GArg (file_letter o) v] _ _ T') as (a2 & T2). cbn [List.length] in Ln.
      destruct (IH args a2 ltac:(lia) T2) as (ws & tl & F & R & ->).
      exists (WithFile l o false v :: ws), tl. split; [constructor; [discriminate|exact F]|]. split; [exact R|]. cbn [flat_map typed].
      rewrite <- app_assoc, E. reflexivity.
    + destruct (take_more _ _ _ T) as (a' & T'). destruct (IH args a' ltac:(lia) T') as (ws & tl & F & R & ->).
      exists (WithFile l o true (m :: name) :: ws), tl. split; [constructor; [discriminate|exact F]|]. split; [exact R|]. cbn [flat_map typed].
      rewrite <- app_assoc, E. reflexivity.
Qed.

(** ** Files of perf are not protos *)
Lemma zero_byte s0 s1 s2 s3 s4 s5 s6 s7 : bytes_ok [s0; s1; s2; s3; s4; s5; s6; s7] = true ->
  of_le [s0; s1; s2; s3; s4; s5; s6; s7] < 2 ^ 40 -> s5 = 0.
Proof.
  unfold bytes_ok, byte_ok. cbn [forallb]. rewrite !andb_true_iff, !N.ltb_lt. cbn [of_le]. lia.
Qed.
Lemma field_P n l : wire_fields (S n) None (80 :: 69 :: l) =
  match wire_fields n None l with Some (fs, l) => Some ({| wf_number := 10; wf_kind := 0; wf_bytes := [] |} :: fs, l) | None => None end.
Proof. reflexivity. Qed.
Lemma field_R n l : wire_fields (S n) None (82 :: 70 :: l) =
  match take 70 l with
  | Some (b, l) => match wire_fields n None l with Some (fs, l) => Some ({| wf_number := 10; wf_kind := 2; wf_bytes := b |} :: fs, l) | None => None end
  | None => None
  end.
Proof. reflexivity. Qed.
Lemma field_I n l : wire_fields (S n) None (73 :: l) =
  match take 8 l with
  | Some (_, l) => match wire_fields n None l with Some (fs, l) => Some ({| wf_number := 9; wf_kind := 1; wf_bytes := [] |} :: fs, l) | None => None end
  | None => None
  end.
Proof. reflexivity. Qed.
Lemma field_0 n l : wire_fields n None (0 :: l) = None.
Proof. destruct n; reflexivity. Qed.
Lemma inner_none n a0 a1 a2 a3 a4 a5 a6 a7 l : wire_fields n None (73 :: a0 :: a1 :: a2 :: a3 :: a4 :: a5 :: a6 :: a7 :: 0 :: l) = None.
Proof.
  destruct n as [|n]; [reflexivity|]. rewrite field_I. set (m := a0 :: _).
  assert (E : take 8 m = None \/ exists b, take 8 m = Some (b, 0 :: l)).
  { unfold take. destruct (len m <? 8); [now left|right]. eexists. change (N.to_nat 8) with 8%nat. unfold m. cbn [skipn]. reflexivity. }
  clearbody m. destruct E as [->|(b & ->)]; [reflexivity|]. now rewrite field_0.
Qed.
Lemma outer_some n t fs r : wire_fields n None (80 :: 69 :: 82 :: 70 :: t) = Some (fs, r) ->
  In {| wf_number := 10; wf_kind := 2; wf_bytes := firstn (N.to_nat 70) t |} fs.
Proof.
  destruct n as [|n]; [discriminate|]. rewrite field_P. destruct n as [|n]; [discriminate|]. rewrite field_R. unfold take.
  destruct (len t <? 70); [discriminate|]. destruct (wire_fields n None _) as [(fs', r')|]; [|discriminate]. intros [= <- _]. right. now left.
Qed.
Lemma inner_message a0 a1 a2 a3 a4 a5 a6 a7 l : message_fields (73 :: a0 :: a1 :: a2 :: a3 :: a4 :: a5 :: a6 :: a7 :: 0 :: l) = None.
Proof. unfold message_fields. generalize (S (List.length (73 :: a0 :: a1 :: a2 :: a3 :: a4 :: a5 :: a6 :: a7 :: 0 :: l))). intros n. now rewrite inner_none. Qed.
Lemma outer_message t fs : message_fields (80 :: 69 :: 82 :: 70 :: t) = Some fs ->
  In {| wf_number := 10; wf_kind := 2; wf_bytes := firstn (N.to_nat 70) t |} fs.
Proof.
  unfold message_fields. generalize (S (List.length (80 :: 69 :: 82 :: 70 :: t))). intros n.
  destruct (wire_fields n None _) as [(fs', r)|] eqn:W; [|discriminate]. intros [= <-]. exact (outer_some _ _ _ _ W).
Qed.
Lemma not_proto l : bytes_ok l = true -> slice l 0 8 = FileSpec.magic_bytes false -> 16 <= len l -> FileSpec.int_at false l 8 8 < 2 ^ 40 ->
  ~ maybe_proto l.
Proof.
  intros B M L S (fs & Hf & Sub).
  do 16 (let c := fresh "c" in destruct l as [|c l]; [unfold len in L; cbn [List.length] in L; lia|]).
  unfold slice in M. change (N.to_nat 0) with 0%nat in M. change (N.to_nat 8) with 8%nat in M. cbn [skipn firstn] in M.
  injection M as -> -> -> -> -> -> -> ->.
  unfold FileSpec.int_at, slice in S. change (N.to_nat 8) with 8%nat in S. change (N.to_nat (N.of_nat 8)) with 8%nat in S. cbn [skipn firstn] in S.
  assert (Z : c12 = 0).
  { apply (zero_byte c7 c8 c9 c10 c11 c12 c13 c14); [|exact S]. clear - B. unfold bytes_ok in *. cbn [forallb] in B.
    repeat (apply andb_prop in B as (?H & B)). cbn [forallb]. now repeat (apply andb_true_intro; split; [assumption|]). }
  clear B L S. apply outer_message in Hf. apply (Sub _ Hf eq_refl eq_refl). cbn [wf_bytes]. subst c12. clear.
  replace (firstn (N.to_nat 70) (73 :: 76 :: 69 :: 50 :: c7 :: c8 :: c9 :: c10 :: c11 :: 0 :: c13 :: c14 :: l))
    with (73 :: 76 :: 69 :: 50 :: c7 :: c8 :: c9 :: c10 :: c11 :: 0 :: firstn 60 (c13 :: c14 :: l)) by reflexivity.
  apply inner_message.
Qed.

(** ** One profile *)
Lemma assign_one c hs : grouped c = false -> Forall (fun h => ~ execs 0 h) hs -> forall n openp,
  (openp 0 = None /\ n = 0%nat \/ openp 0 = Some 0%nat) -> forall k, In (Some k) (assign c n openp hs) -> k = 0%nat.
Proof.
  intros G F. induction F as [|h hs Ph F IH]; intros n openp O k; cbn [assign]; [intros []|].
  destruct h as [cx|cm e|pid m].
  - destruct (kept c cx); [|intros [X|X]; [discriminate|eauto]]. unfold filed_under. rewrite G.
    destruct O as [(O & ->)| O]; rewrite O.
    + intros [[= <-]|X]; [reflexivity|]. apply (IH 1%nat _ (or_intror eq_refl) k X).
    + intros [[= <-]|X]; [reflexivity|]. apply (IH n openp (or_intror O) k X).
  - intros [X|X]; [discriminate|]. apply (IH n _) in X; [exact X|]. cbv beta.
    destruct e; cbn [andb]; [|exact O]. destruct (N.eqb_spec 0 (cm_pid cm)) as [E|_]; [|exact O]. now destruct Ph.
  - intros [X|X]; [discriminate|eauto].
Qed.
Lemma filed_in k : forall hs os, filed k hs os <> [] -> In (Some k) os.
Proof.
  induction hs as [|h hs IH]; intros [|o os]; cbn [filed]; try (destruct h; congruence); try congruence.
  destruct h as [cx| |], o as [j|]; try (intros X; right; now apply IH). destruct (Nat.eqb_spec j k) as [->|_]; [now left|].
  cbn [app]. intros X. right. now apply IH.
Qed.
Lemma one_profile c hs ps : NormalizerModel.process (cf_data c) = Ok hs -> grouped c = false -> never_reset c hs ->
  convert c = Ok ps -> (List.length ps <= 1)%nat.
Proof.
  intros P G [NR|NR] C; [congruence|]. destruct (Nat.le_gt_cases (List.length ps) 1) as [|Gt]; [assumption|exfalso].
  destruct (nth_error ps 1) as [p|] eqn:E; [|apply nth_error_None in E; lia].
  destruct (ConverterProps.C29_pid_and_span c hs ps 1 p P C E) as (Nl & _).
  apply filed_in in Nl. apply (assign_one c hs G NR 0 _ (or_introl (conj eq_refl eq_refl))) in Nl. discriminate.
Qed.
