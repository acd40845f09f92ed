(** Proofs about the search for build ids and what is done with them. *)
From Coq Require Import String Lia Permutation Sorted.
From Verif Require Import Base BytesModel BytesProofs TextModel TextProofs Assoc BufferModel BufferSpec
  HugePageProofs ReaderOpsModel ReaderOpsSpec ReaderOpsProofs ParserModel DsoModel DsoSpec DsoProofs.
Local Open Scope N_scope.
Local Open Scope list_scope.
Local Notation length := List.length.

Lemma split_div v : split_u64 v = (v / 2 ^ 32, v mod 2 ^ 32).
Proof.
  unfold split_u64. rewrite N.shiftr_div_pow2, N.land_comm.
  change 4294967295 with (N.ones 32). now rewrite N.land_ones.
Qed.

Lemma insert_perm x l : Permutation (insert_number x l) (x :: l).
Proof.
  induction l as [|y l IH]; [reflexivity|]. cbn [insert_number]. destruct (x <=? y); [reflexivity|].
  rewrite IH. apply perm_swap.
Qed.

Lemma sort_perm l : Permutation (sort_numbers l) l.
Proof. induction l as [|x l IH]; [reflexivity|]. cbn. rewrite insert_perm. now constructor. Qed.

Lemma insert_sorted x l : StronglySorted N.le l -> StronglySorted N.le (insert_number x l).
Proof.
  induction 1 as [|y l S IH A]; [repeat constructor|]. cbn [insert_number].
  destruct (x <=? y) eqn:E.
  - constructor; [now constructor|]. constructor; [lia|]. eapply Forall_impl; [|exact A]. cbv beta. lia.
  - constructor; [exact IH|]. eapply Permutation_Forall; [symmetry; apply insert_perm|].
    constructor; [lia|exact A].
Qed.

Lemma sort_sorted l : StronglySorted N.le (sort_numbers l).
Proof. induction l as [|x l IH]; [constructor|]. now apply insert_sorted. Qed.

Lemma sorted_later l1 (a : N) l2 b l3 : StronglySorted N.le (l1 ++ a :: l2 ++ b :: l3) -> a <= b.
Proof.
  induction l1 as [|x l1 IH]; cbn [app]; intros H; inversion H as [|? ? H1 H2]; subst; [|now apply IH].
  rewrite Forall_forall in H2. apply H2. apply in_or_app. right. now left.
Qed.

Lemma map_cut {A B} (f : A -> B) l : forall l1 a l2 b l3, map f l = l1 ++ a :: l2 ++ b :: l3 ->
  exists k1 x k2 y k3, l = k1 ++ x :: k2 ++ y :: k3 /\ f x = a /\ f y = b.
Proof.
  intros l1 a l2 b l3 E. apply map_eq_app in E as (k1 & r & -> & _ & E).
  destruct r as [|x r]; [discriminate|]. cbn in E. injection E as E1 E.
  apply map_eq_app in E as (k2 & r' & -> & _ & E). destruct r' as [|y r']; [discriminate|].
  cbn in E. injection E as E2 E. exists k1, x, k2, y, r'. auto.
Qed.

Lemma threads_ok (d : dso) : exists ths, ths = map split_u64 (sort_numbers (d_threads d)) /\ in_thread_order ths /\
  Permutation (map (fun pt => fst pt * 2 ^ 32 + snd pt) ths) (d_threads d) /\
  Forall (fun pt => snd pt < 2 ^ 32) ths.
Proof.
  eexists. split; [reflexivity|]. split; [|split].
  - intros l1 a l2 b l3 E. apply map_cut in E as (k1 & x & k2 & y & k3 & E & <- & <-).
    pose proof (sort_sorted (d_threads d)) as S. rewrite E in S. apply sorted_later in S.
    rewrite !split_div. cbn [fst snd].
    pose proof (N.div_mod x (2 ^ 32) ltac:(discriminate)) as Dx. pose proof (N.div_mod y (2 ^ 32) ltac:(discriminate)) as Dy.
    pose proof (N.mod_lt x (2 ^ 32) ltac:(discriminate)). pose proof (N.mod_lt y (2 ^ 32) ltac:(discriminate)).
    set (qx := x / 2 ^ 32) in *. set (qy := y / 2 ^ 32) in *. set (mx := x mod 2 ^ 32) in *. set (my := y mod 2 ^ 32) in *.
    clearbody qx qy mx my. change (2 ^ 32) with 4294967296 in *.
    destruct (N.lt_trichotomy qx qy) as [?|[?|?]]; [now left|right; lia|exfalso; nia].
  - rewrite map_map. erewrite map_ext; [rewrite map_id; apply sort_perm|].
    intros v. rewrite split_div. cbn [fst snd]. pose proof (N.div_mod v (2 ^ 32) ltac:(discriminate)). lia.
  - apply Forall_forall. intros pt H. apply in_map_iff in H as (v & <- & _). rewrite split_div. cbn [snd].
    apply N.mod_lt. discriminate.
Qed.

Lemma bracketed name : (2 <=? len name) && (hd 0 name =? 91) && (last name 0 =? 93) = true <->
  exists m, module_name m name.
Proof.
  unfold module_name. change (str "[") with [91]. change (str "]") with [93]. split.
  - intros H. apply andb_prop in H as [H H3]. apply andb_prop in H as [H1 H2].
    destruct name as [|x name]; [discriminate|]. cbn [hd] in H2. apply N.eqb_eq in H2. subst x.
    destruct name as [|y name] using rev_ind; [discriminate|].
    replace (last (91 :: name ++ [y]) 0) with y in H3 by (symmetry; apply (last_last (91 :: name))).
    apply N.eqb_eq in H3. subst y. exists name. reflexivity.
  - intros (m & ->). replace (last ([91] ++ m ++ [93]) 0) with 93 by (symmetry; apply (last_last ([91] ++ m))).
    cbn [hd app]. replace (2 <=? len (91 :: m ++ [93])) with true; [reflexivity|].
    symmetry. apply N.leb_le. unfold len. cbn [length]. rewrite app_length. cbn. lia.
Qed.

Lemma unbracket m : removelast (tl (str "[" ++ m ++ str "]")) = m.
Proof. change (str "[") with [91]. change (str "]") with [93]. cbn [app tl]. apply removelast_last. Qed.

Lemma starts_iff p s : list_eqb (firstn (length p) s) p = true <-> starts_with p s.
Proof.
  rewrite leqb_eq. unfold starts_with. split.
  - intros E. exists (skipn (length p) s). rewrite <- E at 1. symmetry. apply firstn_skipn.
  - intros (r & ->). rewrite firstn_app, Nat.sub_diag, firstn_all. cbn. apply app_nil_r.
Qed.

Lemma kernel_iff name : is_kernel_non_module name = true <-> kernel_part name.
Proof.
  unfold is_kernel_non_module, kernel_names, kernel_part. cbn [existsb].
  rewrite !Bool.orb_true_iff, !starts_iff. intuition discriminate.
Qed.

Section Search.
Variables (fs : file_system) (libelf : list N -> elf) (d : dso).

Definition given (path : list N) : option (list N) := build_id_if_same_inode fs libelf path d.

Lemma given_iff path b : given path = Some b <-> gives fs libelf d path b.
Proof.
  unfold given, build_id_if_same_inode, gives, right_file, same_inode.
  destruct (fs path) as [n|]; [|split; [discriminate|intros (n & ? & _); discriminate]].
  destruct (negb (d_maj d =? 0) && negb (d_min d =? 0) &&
            negb ((d_maj d =? nd_maj n) && (d_min d =? nd_min n) && (d_ino d =? nd_ino n))) eqn:C.
  - split; [discriminate|]. intros (m & [= <-] & R & _). exfalso. lia.
  - destruct (elf_build_id (libelf (nd_bytes n))) as [x| | | |] eqn:E; split; intros H;
      try discriminate; try (destruct H as (m & [= <-] & _ & H); congruence).
    + injection H as ->. exists n. split; [reflexivity|]. split; [|exact E]. lia.
Qed.

Fixpoint first_some (l : list (list N)) : option (list N) :=
  match l with
  | [] => None
  | p :: r => match given p with Some b => Some b | None => first_some r end
  end.

Lemma first_some_app l l' : first_some (l ++ l') = match first_some l with Some b => Some b | None => first_some l' end.
Proof. induction l as [|p l IH]; [reflexivity|]. cbn. destruct (given p); auto. Qed.

Lemma first_some_spec l :
  match first_some l with
  | Some b => first_given fs libelf d l b
  | None => forall q b, In q l -> ~ gives fs libelf d q b
  end.
Proof.
  induction l as [|p l IH]; [intros q b []|]. cbn [first_some]. destruct (given p) as [b|] eqn:G.
  - exists [], p, l. split; [reflexivity|]. split; [now apply given_iff|intros ? ? []].
  - assert (Np : forall b, ~ gives fs libelf d p b) by (intros b H; apply given_iff in H; congruence).
    destruct (first_some l) as [b|].
    + destruct IH as (l1 & path & l2 & -> & H1 & H2). exists (p :: l1), path, l2.
      split; [reflexivity|]. split; [exact H1|]. intros q b' [<-|Q]; [apply Np|now apply H2].
    + intros q b [<-|Q]; [apply Np|now apply IH].
Qed.

Definition thread_paths (name : list N) (pt : N * N) : list (list N) :=
  root_of (snd pt) name :: if fst pt =? 0 then [] else [root_of (fst pt) name].

Lemma try_threads_eq name ts : StronglySorted N.le ts ->
  forall last, (last = 0 \/ given (root_of last name) = None) ->
  Forall (fun t => last <= fst (split_u64 t)) ts ->
  try_threads fs libelf name d last ts = first_some (flat_map (thread_paths name) (map split_u64 ts)).
Proof.
  induction 1 as [|t ts _ IH S]; intros last H A; [reflexivity|].
  inversion A as [|? ? A1 A2]; subst.
  assert (M : Forall (fun u => fst (split_u64 t) <= fst (split_u64 u)) ts).
  { eapply Forall_impl; [|exact S]. cbv beta. intros u U. rewrite !split_div. cbn [fst].
    apply N.div_le_mono; [discriminate|exact U]. }
  cbn [try_threads map flat_map]. destruct (split_u64 t) as [pid tid]. unfold thread_paths at 1. cbn [fst snd] in *.
  cbn [app first_some]. change (proc_path tid name) with (root_of tid name). change (proc_path pid name) with (root_of pid name).
  fold (given (root_of tid name)). fold (given (root_of pid name)).
  destruct (given (root_of tid name)) as [b|] eqn:G; [reflexivity|].
  destruct (pid =? 0) eqn:Z; cbn [app].
  - replace (pid =? last) with true by lia. cbn [orb]. now apply IH.
  - destruct ((pid =? last) || (pid =? tid)) eqn:C; cbn [app first_some].
    + assert (Gp : given (root_of pid name) = None).
      { apply Bool.orb_true_iff in C as [C|C]; apply N.eqb_eq in C; subst; [|exact G].
        destruct H as [->|H]; [discriminate|exact H]. }
      rewrite Gp. now apply IH.
    + destruct (given (root_of pid name)) as [b|] eqn:Gp; [reflexivity|].
      apply IH; [now right|exact M].
Qed.

Lemma find_ordinary name : ~ kernel_part name -> (forall m, ~ module_name m name) ->
  find_dso_build_id fs libelf name d =
  match first_some (paths name (map split_u64 (sort_numbers (d_threads d)))) with Some b => b | None => [] end.
Proof.
  intros K M. unfold find_dso_build_id.
  destruct (is_kernel_non_module name) eqn:E; [exfalso; now apply K, kernel_iff|].
  destruct (_ && _) eqn:B; [apply bracketed in B as (m & B); exfalso; exact (M m B)|].
  rewrite try_threads_eq; [|apply sort_sorted|now left|apply Forall_forall; intros; apply N.le_0_l].
  unfold paths. fold (thread_paths name). rewrite first_some_app.
  destruct (first_some (flat_map _ _)); [reflexivity|]. cbn [first_some]. unfold given.
  now destruct (build_id_if_same_inode fs libelf name d).
Qed.
End Search.

(** ** FillInDsoBuildIds *)
Lemma aget_entries {V} (m : list (list N * V)) : forall seen f, ~ In f seen ->
  aget list_eqb f (entries seen m) = aget list_eqb f m.
Proof.
  induction m as [|(k & v) m IH]; intros seen f Nf; [reflexivity|]. cbn [entries].
  destruct (mem_by list_eqb k seen) eqn:S.
  - rewrite IH by exact Nf. cbn [aget]. apply mem_by_spec in S. rewrite list_eqb_neq; [reflexivity|]. congruence.
  - cbn [aget]. destruct (list_eqb f k) eqn:E; [reflexivity|]. apply IH. intros [->|H]; [|auto].
    rewrite list_eqb_refl in E. discriminate.
Qed.

Lemma entries_fresh {V} (m : list (list N * V)) : forall seen,
  NoDup (map fst (entries seen m)) /\ (forall f, In f seen -> ~ In f (map fst (entries seen m))).
Proof.
  induction m as [|(k & v) m IH]; intros seen; [split; [constructor|intros ? ? []]|]. cbn [entries].
  destruct (mem_by list_eqb k seen) eqn:S; [apply IH|].
  destruct (IH (k :: seen)) as [I1 I2]. cbn [map fst]. split.
  - constructor; [apply I2; now left|exact I1].
  - intros f F [->|H]; [apply mem_by_spec in F; congruence|]. exact (I2 f (or_intror F) H).
Qed.

Lemma aget_map {V W} (g : list N -> V -> W) (m : list (list N * V)) f :
  aget list_eqb f (map (fun kv => (fst kv, g (fst kv) (snd kv))) m) =
  option_map (g f) (aget list_eqb f m).
Proof.
  induction m as [|(k & v) m IH]; [reflexivity|]. cbn [map aget fst snd].
  destruct (list_eqb f k) eqn:E; [apply leqb_eq in E; now subst|exact IH].
Qed.

Lemma map_set_keys k v m f : In f (map fst (map_set k v m)) <-> f = k \/ In f (map fst m).
Proof.
  induction m as [|(k' & v') m IH]; [cbn; intuition|]. cbn [map_set].
  destruct (string_less k k'); [cbn; intuition|].
  destruct (list_eqb k k') eqn:E; [apply leqb_eq in E; subst; cbn; intuition|].
  cbn [map fst In]. rewrite IH. intuition.
Qed.

Lemma map_set_nodup k v m : NoDup (map fst m) -> ~ In k (map fst m) -> NoDup (map fst (map_set k v m)).
Proof.
  induction m as [|(k' & v') m IH]; intros ND NI; [cbn; constructor; [intros []|constructor]|]. cbn [map_set].
  destruct (string_less k k'); [now constructor|].
  cbn [map fst] in *. inversion ND; subst.
  destruct (list_eqb k k') eqn:E; [apply leqb_eq in E; subst; exfalso; apply NI; now left|].
  cbn [map fst]. constructor; [|apply IH; [assumption|intros H; apply NI; now right]].
  rewrite map_set_keys. intros [->|H]; [apply NI; now left|contradiction].
Qed.

Lemma map_set_get k v m f : aget list_eqb f (map_set k v m) = if list_eqb f k then Some v else aget list_eqb f m.
Proof.
  induction m as [|(k' & v') m IH]; [reflexivity|]. cbn [map_set].
  destruct (string_less k k'); [reflexivity|].
  destruct (list_eqb k k') eqn:E; cbn [aget].
  - apply leqb_eq in E. subst k'. now destruct (list_eqb f k).
  - rewrite IH. destruct (list_eqb f k') eqn:F; [|reflexivity].
    apply leqb_eq in F. subst f. now rewrite (list_eqb_sym k' k), E.
Qed.

Definition new_ids {V} (done : list (list N * (V * option (list N)))) (acc : list (list N * list N)) :=
  fold_left (fun acc x => match snd (snd x) with
                          | Some b => map_set (fst x) b acc
                          | None => acc
                          end) done acc.

Lemma new_ids_spec {V} (done : list (list N * (V * option (list N)))) : forall acc,
  NoDup (map fst done) -> NoDup (map fst acc) -> (forall f, In f (map fst done) -> ~ In f (map fst acc)) ->
  NoDup (map fst (new_ids done acc)) /\
  forall f, aget list_eqb f (new_ids done acc) =
    match aget list_eqb f done with
    | Some (_, Some b) => Some b
    | _ => aget list_eqb f acc
    end.
Proof.
  induction done as [|(k & (v & o)) done IH]; intros acc ND NA NI; [now split|].
  cbn [map fst] in *. inversion ND as [|? ? K1 K2]; subst. unfold new_ids. cbn [fold_left snd fst].
  fold (new_ids done (match o with Some b => map_set k b acc | None => acc end)).
  assert (Nk : ~ In k (map fst acc)) by (apply NI; now left).
  destruct (IH (match o with Some b => map_set k b acc | None => acc end)) as [I1 I2].
  - exact K2.
  - destruct o; [now apply map_set_nodup|exact NA].
  - intros f F. destruct o; [rewrite map_set_keys; intros [->|H]; [contradiction|]; eapply NI; [now right; apply F|exact H]
                            |apply NI; now right].
  - split; [exact I1|]. intros f. rewrite I2. cbn [aget].
    destruct (list_eqb f k) eqn:E.
    + apply leqb_eq in E. subst f. rewrite (proj2 (aget_none k done) K1).
      destruct o; [rewrite map_set_get, list_eqb_refl; reflexivity|reflexivity].
    + destruct o; [rewrite map_set_get, E|]; reflexivity.
Qed.

(** ** Ids are bytes *)
Lemma cut_bytes b d l1 l2 : bytes_ok b = true -> b = l1 ++ d ++ l2 -> bytes_ok d = true.
Proof.
  intros B ->. rewrite !bytes_ok_app in B. apply andb_prop in B as [_ B]. now apply andb_prop in B as [B _].
Qed.

Lemma buffer_cut b : len b < two63 -> cut_of b (buffer_build_id b).
Proof.
  intros L. unfold buffer_build_id. apply note_safe; [exact L|reflexivity|cbn [roff]; lia|cbn [roff]].
  unfold len. lia.
Qed.

Lemma file_buffer b : len b < two63 -> bytes_ok b = true -> file_build_id b true = buffer_build_id b.
Proof. intros L B. symmetry. apply (note_alike _ b L B), open_alike. Qed.

Lemma pipe_build_id b : file_build_id b false = Fail.
Proof. reflexivity. Qed.

Lemma section_in names l : forall best found d, find_elf_section names best found l = Some (Some d) ->
  (forall x, found = Some (Some x) -> x <> d) -> exists nm, In (nm, Some d) l.
Proof.
  induction l as [|[[n|] e] l IH]; intros best found d H F; cbn [find_elf_section] in H.
  - exfalso. exact (F d H eq_refl).
  - destruct (Nat.ltb _ _).
    + destruct (Nat.eqb _ 0); [injection H as ->; exists (Some n); now left|].
      destruct e as [e|].
      * destruct (list_eqb e d) eqn:E; [apply leqb_eq in E; subst; exists (Some n); now left|].
        destruct (IH _ _ _ H) as (nm & I).
        -- intros x [= ->] ->. rewrite list_eqb_refl in E. discriminate.
        -- exists nm. now right.
      * destruct (IH _ _ _ H) as (nm & I); [discriminate|]. exists nm. now right.
    + destruct (IH _ _ _ H F) as (nm & I). exists nm. now right.
  - discriminate.
Qed.

Lemma section_cut d : len d < two63 -> cut_of d (section_build_id (S (length d)) d 0).
Proof. intros L. apply (section_safe d L (S (length d)) 0 eq_refl). unfold len. lia. Qed.

Section Bytes.
Variables (fs : file_system) (libelf : list N -> elf).
Hypotheses (Ff : files_of_bytes fs) (Fs : sections_of_bytes libelf).

Lemma elf_bytes b x : elf_build_id (libelf b) = Ok x -> bytes_ok x = true.
Proof using Fs.
  unfold elf_build_id. destruct (libelf b) as [| |l] eqn:E; try discriminate.
  destruct (find_elf_section note_sections 3 None l) as [[d|]|] eqn:S; try discriminate.
  apply section_in in S as (nm & I); [|discriminate].
  destruct (Fs b l nm d E I) as [B L]. pose proof (section_cut d L) as C. intros H. rewrite H in C.
  destruct C as (l1 & l2 & C). exact (cut_bytes _ _ _ _ B C).
Qed.

Lemma given_bytes d path x : build_id_if_same_inode fs libelf path d = Some x -> bytes_ok x = true.
Proof using Fs.
  unfold build_id_if_same_inode. destruct (fs path) as [n|]; [|discriminate].
  destruct (_ && _); [discriminate|].
  destruct (elf_build_id (libelf (nd_bytes n))) as [b| | | |] eqn:E; try discriminate.
  intros [= <-]. exact (elf_bytes _ _ E).
Qed.

Lemma try_bytes name d ts : forall l x, try_threads fs libelf name d l ts = Some x -> bytes_ok x = true.
Proof using Fs.
  induction ts as [|t ts IH]; intros l x; [discriminate|]. cbn [try_threads].
  destruct (split_u64 t) as [pid tid].
  destruct (build_id_if_same_inode fs libelf (proc_path tid name) d) eqn:E1;
    [intros [= <-]; exact (given_bytes _ _ _ E1)|].
  destruct (_ || _); [apply IH|].
  destruct (build_id_if_same_inode fs libelf (proc_path pid name) d) eqn:E2;
    [intros [= <-]; exact (given_bytes _ _ _ E2)|apply IH].
Qed.

Lemma find_bytes name d : bytes_ok (find_dso_build_id fs libelf name d) = true.
Proof using Ff Fs.
  unfold find_dso_build_id. destruct (is_kernel_non_module name); [reflexivity|].
  destruct (_ && _).
  - unfold read_module_build_id. destruct (fs _) as [n|] eqn:E; [|reflexivity].
    destruct (Ff _ _ E) as [B L]. destruct (nd_seekable n); [|reflexivity].
    rewrite file_buffer by assumption. pose proof (buffer_cut _ L) as C.
    destruct (buffer_build_id (nd_bytes n)); try reflexivity. destruct C as (l1 & l2 & C).
    exact (cut_bytes _ _ _ _ B C).
  - destruct (try_threads _ _ _ _ _ _) as [x|] eqn:E; [exact (try_bytes _ _ _ _ _ E)|].
    destruct (build_id_if_same_inode fs libelf name d) as [x|] eqn:G; [exact (given_bytes _ _ _ G)|reflexivity].
Qed.

Lemma find_same name b d : find_dso_build_id fs libelf name (set_build b d) = find_dso_build_id fs libelf name d.
Proof.
  unfold find_dso_build_id. destruct (is_kernel_non_module name); [reflexivity|].
  destruct (_ && _); [reflexivity|].
  assert (G : forall p, build_id_if_same_inode fs libelf p (set_build b d) = build_id_if_same_inode fs libelf p d) by reflexivity.
  cbn [d_threads set_build].
  assert (T : forall ts l, try_threads fs libelf name (set_build b d) l ts = try_threads fs libelf name d l ts).
  { induction ts as [|t ts IH]; intros l; [reflexivity|]. cbn [try_threads].
    destruct (split_u64 t). now rewrite !G, !IH. }
  now rewrite T, G.
Qed.

(** The id newly found for a DSO. *)
Definition found_id (rm : bool) (name : list N) (d : dso) : option (list N) :=
  if rm && d_hit d then
    match find_dso_build_id fs libelf name d with [] => None | b => Some (raw_to_hex b) end
  else None.

Definition recorded_dso (recorded : list (list N * list N)) (name : list N) (d : dso) : dso :=
  match aget list_eqb name recorded with Some b => set_build b d | None => d end.

Lemma fill_one_eq rm recorded name d :
  fill_one fs libelf rm recorded name d =
  (match found_id rm name d with Some b => set_build b d | None => recorded_dso recorded name d end,
   found_id rm name d).
Proof.
  unfold fill_one. fold (recorded_dso recorded name d). unfold found_id.
  assert (H : d_hit (recorded_dso recorded name d) = d_hit d) by (unfold recorded_dso; now destruct (aget _ _ _)).
  assert (F : find_dso_build_id fs libelf name (recorded_dso recorded name d) = find_dso_build_id fs libelf name d)
    by (unfold recorded_dso; destruct (aget _ _ _); [apply find_same|reflexivity]).
  rewrite H, F. destruct (rm && d_hit d); [|reflexivity].
  destruct (find_dso_build_id fs libelf name d); [reflexivity|].
  unfold recorded_dso. now destruct (aget _ _ _).
Qed.

Lemma fill_spec rm dsos p :
  (forall f d, aget list_eqb f dsos = Some d -> ~ In 0 f) ->
  exists dsos' p', fill_in_build_ids fs libelf rm dsos p = (true, dsos', p') /\
    same_but_builds p p' /\
    forall f,
      aget list_eqb f dsos' =
        match aget list_eqb f dsos with
        | None => None
        | Some d => Some (match found_id rm f d with
                          | Some b => set_build b d
                          | None => recorded_dso (filenames_to_build_ids p) f d
                          end)
        end /\
      aget list_eqb f (filenames_to_build_ids p') =
        match aget list_eqb f dsos with
        | Some d => match found_id rm f d with
                    | Some b => Some (perfize_build_id b)
                    | None => aget list_eqb f (filenames_to_build_ids p)
                    end
        | None => aget list_eqb f (filenames_to_build_ids p)
        end.
Proof using Ff Fs.
  intros Z. unfold fill_in_build_ids.
  set (done := map (fun kv => (fst kv, fill_one fs libelf rm (filenames_to_build_ids p) (fst kv) (snd kv))) (entries [] dsos)).
  assert (D : forall f, aget list_eqb f done =
                match aget list_eqb f dsos with
                | None => None
                | Some d => Some (match found_id rm f d with
                          | Some b => set_build b d
                          | None => recorded_dso (filenames_to_build_ids p) f d
                          end, found_id rm f d)
                end).
  { intros f. unfold done.
    rewrite (aget_map (fun n d => fill_one fs libelf rm (filenames_to_build_ids p) n d)).
    rewrite (aget_entries dsos [] f (fun x => x)). destruct (aget list_eqb f dsos); [|reflexivity].
    cbn [option_map]. now rewrite fill_one_eq. }
  assert (K : NoDup (map fst done)).
  { unfold done. rewrite map_map. cbn [fst]. apply (proj1 (entries_fresh dsos [])). }
  fold (new_ids done []).
  destruct (new_ids_spec done [] K (NoDup_nil _) (fun f _ H => H)) as [N1 N2].
  assert (DD : forall f, aget list_eqb f (map (fun x => (fst x, fst (snd x))) done) = option_map fst (aget list_eqb f done))
    by (intros f; apply (aget_map (fun _ x => fst x))).
  assert (J : injectable (new_ids done [])).
  { split; [exact N1|]. intros f id I. apply (aget_nodup _ _ _ N1) in I. rewrite N2, D in I.
    destruct (aget list_eqb f dsos) as [d|] eqn:A; [|discriminate I].
    split; [exact (Z f d A)|]. destruct (found_id rm f d) as [b|] eqn:Fo; [|discriminate I].
    assert (b = id) as -> by congruence.
    unfold found_id in Fo. destruct (rm && d_hit d); [|discriminate].
    pose proof (find_bytes f d) as B. destruct (find_dso_build_id fs libelf f d); [discriminate|].
    injection Fo as <-. eauto. }
  destruct (new_ids done []) as [|kv new] eqn:En.
  - eexists _, p. split; [reflexivity|]. split; [now repeat split|]. intros f. rewrite DD, D.
    specialize (N2 f). rewrite D in N2.
    destruct (aget list_eqb f dsos) as [d|]; [|auto]. cbn [option_map fst]. split; [reflexivity|].
    destruct (found_id rm f d); [discriminate N2|reflexivity].
  - destruct (new_entries (kv :: new) p J) as (nw & E & _).
    destruct (inject_build_ids (kv :: new) p) as [ok p'] eqn:I. assert (ok = true) as -> by congruence.
    eexists _, p'. split; [reflexivity|]. split; [exact (proj1 (inject_keeps _ _ _ _ I))|].
    intros f. rewrite DD, D, (lookup_after (kv :: new) p p' J I f). specialize (N2 f). rewrite D in N2.
    rewrite N2. destruct (aget list_eqb f dsos) as [d|]; [|auto]. cbn [option_map fst].
    split; [reflexivity|]. now destruct (found_id rm f d).
Qed.
End Bytes.
