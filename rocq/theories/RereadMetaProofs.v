(** Reading the metadata that was written. *)
From Verif Require Import Base BytesModel BytesProofs BytesMoreProofs BufferModel BufferSpec BufferProofs
  EventSizeModel EventSizeSpec Assoc TextModel TextProofs ReaderOpsModel ReaderOpsProofs SampleModel FileModel SerializerModel SerializerSpec AttrModel
  MapperProofs WriteModel WriteSpec WriteProofs WriteFileProofs WriteLayoutProofs RereadProofs RereadSpec.
Local Open Scope N_scope.

Ltac next := eapply gets_bind; [|cbn beta].

Section Meta.
Variable f : list N.
Hypothesis Hf : len f < two63.
Notation gets := (gets f).

(** Strings behind each other in a limited space. *)
Lemma gets_string_loop (l : list (list N)) : Forall text_ok l -> forall o read max,
  at_off f o (concat (map counted_text l)) -> max = read + len (concat (map counted_text l)) -> max < two63 ->
  gets (string_loop (length l) read max) o l (o + len (concat (map counted_text l))).
Proof.
  induction 1 as [|t l [Z S] F IH]; intros o rd0 max A M B.
  - cbn [map concat length string_loop]. change (len []) with 0. rewrite N.add_0_r. apply gets_ret.
  - cbn [map concat length string_loop] in *. rewrite len_app in M. rewrite len_app, N.add_assoc.
    assert (A1 := at_left _ _ _ _ A). assert (A2 := at_right _ _ _ _ A). assert (E2 := at_end_le _ _ _ A2).
    assert (L := len_counted t). assert (R := room_of_gt t).
    assert (LT : (rd0 <? max) = true) by (apply N.ltb_lt; clear - M L; lia). rewrite LT.
    eapply gets_bind; [apply gets_ask|]. cbn beta.
    eapply gets_bind.
    { unfold read_single_string. rewrite (proj2 (N.eqb_neq _ _)) by (clear - M L; lia).
      apply gets_text; [exact Hf|exact A1|exact Z|exact S]. }
    cbn beta. eapply gets_bind; [apply gets_ask|]. cbn beta.
    eapply gets_bind; [|apply gets_ret].
    assert (D : sub64 (tell (rd f (o + len (counted_text t)))) (tell (rd f o)) = len (counted_text t)).
    { unfold tell. cbn [roff rd]. rewrite sub64_le; clear - Hf E2; unfold two63, two64 in *; lia. }
    rewrite D. unfold w64. rewrite N.mod_small by (clear - M B; unfold two63, two64 in *; lia).
    apply IH; [exact A2|clear - M; lia|exact B].
Qed.

Lemma gets_number_loop n (l : list N) : (0 < n)%nat -> Forall (fun v => v < 256 ^ N.of_nat n) l -> forall fuel o,
  (length l < fuel)%nat -> at_off f o (concat (map (le_bytes n) l)) ->
  gets (number_loop fuel n (len (concat (map (le_bytes n) l)))) o l (o + len (concat (map (le_bytes n) l))).
Proof.
  intros N0. induction 1 as [|v l V F IH]; intros fuel o K A; (destruct fuel as [|fuel]; [inversion K|]).
  - cbn [map concat number_loop]. change (len []) with 0. rewrite N.add_0_r. apply gets_ret.
  - cbn [map concat number_loop] in *. assert (A1 := at_left _ _ _ _ A). assert (A2 := at_right _ _ _ _ A).
    assert (E := at_end_le _ _ _ A). rewrite len_app, len_le_bytes in *.
    rewrite (proj2 (N.eqb_neq _ _)) by (clear - N0; lia).
    rewrite N.add_assoc. eapply gets_bind; [apply gets_int; [exact Hf|exact A1|exact V]|]. cbn beta.
    eapply gets_bind; [|apply gets_ret].
    rewrite sub64_le by (clear - Hf E; unfold two63, two64 in *; lia).
    replace (N.of_nat n + len (concat (map (le_bytes n) l)) - N.of_nat n) with (len (concat (map (le_bytes n) l))) by (clear; lia).
    apply IH; [cbn [length] in K; lia|exact A2].
Qed.
Lemma length_words n (l : list N) : (0 < n)%nat -> (length l <= length (concat (map (le_bytes n) l)))%nat.
Proof.
  intros N0. induction l as [|v l IH]; [apply le_n|]. cbn [map concat length]. rewrite app_length, le_bytes_length. lia.
Qed.
Lemma gets_numbers n (l : list N) o : (0 < n)%nat -> Forall (fun v => v < 256 ^ N.of_nat n) l -> l <> [] ->
  at_off f o (concat (map (le_bytes n) l)) ->
  gets (read_numbers n (len (concat (map (le_bytes n) l)))) o l (o + len (concat (map (le_bytes n) l))).
Proof.
  intros N0 F NE A. unfold read_numbers. eapply gets_bind; [apply gets_ask|]. cbn beta.
  assert (E := at_end_le _ _ _ A). assert (X := length_words n l N0).
  eapply gets_bind; [apply gets_number_loop; [exact N0|exact F| |exact A]|].
  { unfold loop_fuel. cbn [rbuf rd]. unfold len in E. lia. }
  cbn beta. eapply gets_bind; [apply gets_guard; destruct l; [contradiction|reflexivity]|]. apply gets_ret.
Qed.

Lemma split2 o (a b : list N) : at_off f o (a ++ b) -> at_off f o a /\ at_off f (o + len a) b.
Proof. intros A. split; [now apply at_left in A|now apply at_right in A]. Qed.
Lemma split_int n o v (b : list N) : at_off f o (le_bytes n v ++ b) -> at_off f o (le_bytes n v) /\ at_off f (o + N.of_nat n) b.
Proof. intros A. apply split2 in A. now rewrite len_le_bytes in A. Qed.




(** The sections of each kind. *)
Lemma gets_numa p s o : metadata_ok p -> at_off f o (feature_bytes p 14) ->
  gets (read_numa s) o (put_meta (put_numa (fm_numa (fs_meta s) ++ fm_numa (wd_meta p)) (fs_meta s)) s)
    (o + len (feature_bytes p 14)).
Proof.
  intros M A. change (feature_bytes p 14) with
    (le_bytes 4 (len (fm_numa (wd_meta p))) ++
     concat (map (fun x => let '(id, size, free, cpus) := x in
                           le_bytes 4 id ++ le_bytes 8 size ++ le_bytes 8 free ++ counted_text cpus) (fm_numa (wd_meta p)))) in *.
  destruct (mk_numa _ M) as [F L]. generalize (fm_numa (wd_meta p)) F L A. clear F L A. intros l F L A.
  apply split_int in A as [A1 A2]. unfold read_numa. rewrite len_app, len_le_bytes, N.add_assoc.
  next; [apply gets_u32; [exact Hf|exact A1|exact L]|].
  next; [|apply gets_ret]. rewrite to_nat_len. rewrite <- (map_id l) at 2.
  apply (gets_n f _ _ (fun x => x)); [|exact A2].
  intros [[[id size] free] cpus] o' I P. rewrite Forall_forall in F. destruct (F _ I) as (B1 & B2 & B3 & Z & S).
  apply split_int in P as [P1 P]. apply split_int in P as [P2 P]. apply split_int in P as [P3 P4].
  rewrite !len_app, !len_le_bytes, !N.add_assoc.
  next; [apply gets_u32; [exact Hf|exact P1|exact B1]|].
  next; [apply gets_u64; [exact Hf|exact P2|exact B2]|].
  next; [apply gets_u64; [exact Hf|exact P3|exact B3]|].
  next; [apply gets_text; [exact Hf|exact P4|exact Z|exact S]|]. apply gets_ret.
Qed.
Lemma gets_pmu p s o : metadata_ok p -> asked p 16 = true -> at_off f o (feature_bytes p 16) ->
  gets (read_pmu s) o (put_meta (put_pmu (fm_pmu (fs_meta s) ++ fm_pmu (wd_meta p)) (fs_meta s)) s)
    (o + len (feature_bytes p 16)).
Proof.
  intros M K A. change (feature_bytes p 16) with
    (le_bytes 4 (len (fm_pmu (wd_meta p))) ++
     concat (map (fun x => le_bytes 4 (fst x) ++ counted_text (snd x)) (fm_pmu (wd_meta p)))) in *.
  destruct (mk_pmu _ M) as (F & L & NE). specialize (NE K). generalize (fm_pmu (wd_meta p)) F L NE A. clear F L NE A. intros l F L NE A.
  apply split_int in A as [A1 A2]. unfold read_pmu. rewrite len_app, len_le_bytes, N.add_assoc.
  next; [apply gets_u32; [exact Hf|exact A1|exact L]|].
  next; [apply gets_guard; destruct l; [contradiction|reflexivity]|].
  next; [|apply gets_ret]. rewrite to_nat_len. rewrite <- (map_id l) at 2.
  apply (gets_n f _ _ (fun x => x)); [|exact A2].
  intros [id name] o' I P. rewrite Forall_forall in F. destruct (F _ I) as (B1 & Z & S). cbn [fst snd] in *.
  apply split_int in P as [P1 P2].
  rewrite !len_app, !len_le_bytes, !N.add_assoc.
  next; [apply gets_u32; [exact Hf|exact P1|exact B1]|].
  next; [apply gets_text; [exact Hf|exact P2|exact Z|exact S]|]. apply gets_ret.
Qed.
Lemma gets_group p s o : metadata_ok p -> at_off f o (feature_bytes p 17) ->
  gets (read_groups s) o (put_meta (put_group (fm_group (fs_meta s) ++ fm_group (wd_meta p)) (fs_meta s)) s)
    (o + len (feature_bytes p 17)).
Proof.
  intros M A. change (feature_bytes p 17) with
    (le_bytes 4 (len (fm_group (wd_meta p))) ++
     concat (map (fun x => let '(name, leader, members) := x in
                             counted_text name ++ le_bytes 4 leader ++ le_bytes 4 members) (fm_group (wd_meta p)))) in *.
  destruct (mk_group _ M) as [F L]. generalize (fm_group (wd_meta p)) F L A. clear F L A. intros l F L A.
  apply split_int in A as [A1 A2]. unfold read_groups. rewrite len_app, len_le_bytes, N.add_assoc.
  next; [apply gets_u32; [exact Hf|exact A1|exact L]|].
  next; [|apply gets_ret]. rewrite to_nat_len. rewrite <- (map_id l) at 2.
  apply (gets_n f _ _ (fun x => x)); [|exact A2].
  intros [[name leader] members] o' I P. rewrite Forall_forall in F. destruct (F _ I) as ((Z & S) & B1 & B2).
  apply split2 in P as [P1 P]. apply split_int in P as [P2 P3].
  rewrite !len_app, !len_le_bytes, !N.add_assoc.
  next; [apply gets_text; [exact Hf|exact P1|exact Z|exact S]|].
  next; [apply gets_u32; [exact Hf|exact P2|exact B1]|].
  next; [apply gets_u32; [exact Hf|exact P3|exact B2]|]. apply gets_ret.
Qed.
Definition hybrid_pair (h : x_hybrid) : list N * list N := (xh_name h, hybrid_cpus h).
Lemma gets_hybrid p s o : metadata_ok p -> at_off f o (feature_bytes p 30) ->
  gets (read_hybrid s) o (put_meta (put_hybrid (fm_hybrid (fs_meta s) ++ map hybrid_pair (wd_hybrid p)) (fs_meta s)) s)
    (o + len (feature_bytes p 30)).
Proof.
  intros M A. change (feature_bytes p 30) with
    (le_bytes 4 (len (wd_hybrid p)) ++
     concat (map (fun h => counted_text (xh_name h) ++ counted_text (hybrid_cpus h)) (wd_hybrid p))) in *.
  destruct (mk_hybrid _ M) as [F L]. generalize (wd_hybrid p) F L A. clear F L A. intros l F L A.
  apply split_int in A as [A1 A2]. unfold read_hybrid. rewrite len_app, len_le_bytes, N.add_assoc.
  next; [apply gets_u32; [exact Hf|exact A1|exact L]|].
  next; [|apply gets_ret]. rewrite to_nat_len.
  apply (gets_n f _ _ hybrid_pair); [|exact A2].
  intros h o' I P. rewrite Forall_forall in F. destruct (F _ I) as ((Z1 & S1) & (Z2 & S2)).
  apply split2 in P as [P1 P2].
  rewrite !len_app, !N.add_assoc.
  next; [apply gets_text; [exact Hf|exact P1|exact Z1|exact S1]|].
  next; [apply gets_text; [exact Hf|exact P2|exact Z2|exact S2]|]. apply gets_ret.
Qed.
Lemma gets_string_feature p ty s o : metadata_ok p -> In ty string_features -> at_off f o (feature_bytes p ty) ->
  gets (read_feature ty (len (feature_bytes p ty)) s) o
    (put_meta (put_strings ((ty, text_or_empty (aget N.eqb ty (fm_strings (wd_meta p)))) :: fm_strings (fs_meta s)) (fs_meta s)) s)
    (o + len (feature_bytes p ty)).
Proof.
  intros M I A.
  assert (E : feature_bytes p ty = counted_text (text_or_empty (aget N.eqb ty (fm_strings (wd_meta p))))).
  { repeat (destruct I as [<-|I]; [reflexivity|]). destruct I. }
  rewrite E in *.
  assert (T : text_ok (text_or_empty (aget N.eqb ty (fm_strings (wd_meta p))))).
  { assert (F := mk_strings _ M). clear A E. induction (fm_strings (wd_meta p)) as [|(k, d) l IH]; cbn [aget].
    - split; [intros []|reflexivity].
    - inversion F; subst. destruct (ty =? k); [assumption|auto]. }
  destruct T as [Z S].
  assert (R : read_feature ty (len (counted_text (text_or_empty (aget N.eqb ty (fm_strings (wd_meta p)))))) s =
              rbind (read_single_string (len (counted_text (text_or_empty (aget N.eqb ty (fm_strings (wd_meta p)))))))
                (fun t => rret (put_meta (put_strings (aset ty t (fm_strings (fs_meta s))) (fs_meta s)) s))).
  { repeat (destruct I as [<-|I]; [reflexivity|]). destruct I. }
  rewrite R. next; [|apply gets_ret]. unfold read_single_string. rewrite len_counted at 1.
  destruct (N.eqb_spec (4 + room_of (text_or_empty (aget N.eqb ty (fm_strings (wd_meta p))))) 0) as [X|X]; [clear - X; lia|].
  apply gets_text; [exact Hf|exact A|exact Z|exact S].
Qed.
Lemma gets_cmdline p s o : metadata_ok p -> at_off f o (feature_bytes p 11) ->
  gets (read_feature 11 (len (feature_bytes p 11)) s) o
    (put_meta (put_cmdline (fm_cmdline (fs_meta s) ++ fm_cmdline (wd_meta p))
      (put_cmdwhole (join_tokens (fm_cmdline (wd_meta p))) (fs_meta s))) s)
    (o + len (feature_bytes p 11)).
Proof.
  intros M A. change (feature_bytes p 11) with (counted_texts (fm_cmdline (wd_meta p))) in *.
  destruct (mk_cmdline _ M) as [F L]. generalize (fm_cmdline (wd_meta p)) F L A. clear F L A. intros l F L A.
  change (read_feature 11 (len (counted_texts l)) s) with
    (rlet count := read_u32 in
     rlet l' := string_loop (N.to_nat count) 4 (len (counted_texts l)) in
     rret (put_meta (put_cmdline (fm_cmdline (fs_meta s) ++ l') (put_cmdwhole (join_tokens l') (fs_meta s))) s)).
  assert (E := at_end_le _ _ _ A). unfold counted_texts in *.
  apply split_int in A as [A1 A2]. rewrite len_app, len_le_bytes in *. rewrite N.add_assoc.
  next; [apply gets_u32; [exact Hf|exact A1|exact L]|].
  next; [|apply gets_ret]. rewrite to_nat_len. apply gets_string_loop; [exact F|exact A2|reflexivity|].
  clear - E Hf. lia.
Qed.
Lemma gets_cpus p s o : metadata_ok p -> asked p 7 = true -> at_off f o (feature_bytes p 7) ->
  gets (read_feature 7 (len (feature_bytes p 7)) s) o
    (put_meta (put_u32 (fm_u32 (fs_meta s) ++ fm_u32 (wd_meta p)) (fs_meta s)) s) (o + len (feature_bytes p 7)).
Proof.
  intros M K A. change (feature_bytes p 7) with (concat (map (le_bytes 4) (numbers_of 7 (fm_u32 (wd_meta p))))) in *.
  destruct (mk_cpus _ M K) as (d & E & NE & F). rewrite E in *. change (numbers_of 7 [(7, d)]) with d in *.
  change (read_feature 7 (len (concat (map (le_bytes 4) d))) s) with
    (rlet l := read_numbers 4 (len (concat (map (le_bytes 4) d))) in
     rret (put_meta (put_u32 (fm_u32 (fs_meta s) ++ [(7, l)]) (fs_meta s)) s)).
  next; [|apply gets_ret]. apply gets_numbers; [clear; lia|exact F|exact NE|exact A].
Qed.
Lemma gets_memory p s o : metadata_ok p -> asked p 10 = true -> at_off f o (feature_bytes p 10) ->
  gets (read_feature 10 (len (feature_bytes p 10)) s) o
    (put_meta (put_u64 (fm_u64 (fs_meta s) ++ fm_u64 (wd_meta p)) (fs_meta s)) s) (o + len (feature_bytes p 10)).
Proof.
  intros M K A. change (feature_bytes p 10) with (concat (map (le_bytes 8) (numbers_of 10 (fm_u64 (wd_meta p))))) in *.
  destruct (mk_memory _ M K) as (d & E & NE & F). rewrite E in *. change (numbers_of 10 [(10, d)]) with d in *.
  change (read_feature 10 (len (concat (map (le_bytes 8) d))) s) with
    (rlet l := read_numbers 8 (len (concat (map (le_bytes 8) d))) in
     rret (put_meta (put_u64 (fm_u64 (fs_meta s) ++ [(10, l)]) (fs_meta s)) s)).
  next; [|apply gets_ret]. apply gets_numbers; [clear; lia|exact F|exact NE|exact A].
Qed.
Lemma gets_tracing p s o : at_off f o (feature_bytes p 1) ->
  gets (read_tracing (len (feature_bytes p 1)) s) o
    (if len (fm_tracing (wd_meta p)) =? 0 then s else put_meta (put_tracing (fm_tracing (wd_meta p)) (fs_meta s)) s)
    (o + len (feature_bytes p 1)).
Proof.
  intros A. change (feature_bytes p 1) with (fm_tracing (wd_meta p)) in *. unfold read_tracing.
  next; [apply gets_data; [exact Hf|exact A]|]. destruct (len (fm_tracing (wd_meta p)) =? 0); apply gets_ret.
Qed.

(** CPU topology. *)
Lemma counted_many (l : list (list N)) : len l <= len (concat (map counted_text l)).
Proof.
  clear. induction l as [|t l IH]; [apply N.le_refl|]. cbn [map concat]. rewrite len_cons, len_app, len_counted. lia.
Qed.
Lemma gets_topology p s o : metadata_ok p -> asked p 13 = true ->
  (asked p 7 = true -> fm_u32 (fs_meta s) = fm_u32 (wd_meta p)) -> at_off f o (feature_bytes p 13) ->
  gets (read_cpu_topology (len (feature_bytes p 13)) s) o
    (put_meta (put_cores (fm_cores (fs_meta s) ++ fm_cores (wd_meta p))
                (put_threads (fm_threads (fs_meta s) ++ fm_threads (wd_meta p))
                  (put_cpus (fm_cpus (fs_meta s) ++ fm_cpus (wd_meta p)) (fs_meta s)))) s)
    (o + len (feature_bytes p 13)).
Proof.
  intros M K U A. set (enc := fun c : N * N => le_bytes 4 (fst c) ++ le_bytes 4 (snd c)).
  change (feature_bytes p 13) with
    (counted_texts (fm_cores (wd_meta p)) ++ counted_texts (fm_threads (wd_meta p)) ++
     concat (map enc (fm_cpus (wd_meta p)))) in *.
  destruct (mk_cores _ M) as [F1 L1]. destruct (mk_threads _ M) as [F2 L2]. assert (F3 := mk_places _ M).
  assert (T : fm_cpus (wd_meta p) = [] \/ nr_cpus s = len (fm_cpus (wd_meta p))).
  { destruct (mk_topology _ M K) as [T|(T & r & E)]; [now left|right].
    unfold nr_cpus. rewrite (U T), E. reflexivity. }
  clear U M K. generalize (fm_cores (wd_meta p)) (fm_threads (wd_meta p)) (fm_cpus (wd_meta p)) F1 L1 F2 L2 F3 T A.
  clear F1 L1 F2 L2 F3 T A. intros cores threads cpus F1 L1 F2 L2 F3 T A.
  assert (E := at_end_le _ _ _ A). assert (C1 := counted_many cores). assert (C2 := counted_many threads).
  set (size := len (counted_texts cores ++ counted_texts threads ++ concat (map enc cpus))) in *.
  assert (SZ : size = 4 + len (concat (map counted_text cores)) + (4 + len (concat (map counted_text threads))) +
                      len (concat (map enc cpus))).
  { unfold size, counted_texts. rewrite !len_app, !len_le_bytes. clear. lia. }
  unfold counted_texts in A. apply split2 in A as [A1 A]. apply split2 in A as [A2 A3].
  apply split_int in A1 as [A1 B1]. apply split_int in A2 as [A2 B2]. rewrite !len_app, !len_le_bytes in *.
  change (N.of_nat 4) with 4 in *.
  unfold read_cpu_topology.
  next; [apply gets_ask|]. next; [apply gets_u32; [exact Hf|exact A1|exact L1]|].
  next; [apply gets_guard, N.leb_le; clear - SZ C1; lia|].
  next; [rewrite to_nat_len; apply gets_texts; [exact Hf|exact F1|exact B1]|].
  next; [apply gets_u32; [exact Hf|rewrite <- !N.add_assoc in *; exact A2|exact L2]|].
  next; [apply gets_guard, N.leb_le; clear - SZ C2; lia|].
  next; [rewrite to_nat_len; apply gets_texts; [exact Hf|exact F2|rewrite <- !N.add_assoc in *; exact B2]|].
  next; [apply gets_ask|]. cbn [tell roff rd].
  assert (P : sub64 (o + 4 + len (concat (map counted_text cores)) + 4 + len (concat (map counted_text threads))) o =
              4 + len (concat (map counted_text cores)) + (4 + len (concat (map counted_text threads)))).
  { rewrite sub64_le; clear - SZ E Hf; unfold two63, two64 in *; lia. }
  change (tell (rd f (o + 4 + len (concat (map counted_text cores)) + 4 + len (concat (map counted_text threads)))))
    with (o + 4 + len (concat (map counted_text cores)) + 4 + len (concat (map counted_text threads))).
  change (tell (rd f o)) with o. rewrite P.
  replace (o + size) with (o + 4 + len (concat (map counted_text cores)) + 4 + len (concat (map counted_text threads)) +
     len (concat (map enc cpus))) by (clear - SZ; lia).
  next; [|apply gets_ret].
  destruct cpus as [|c cpus].
  - cbn [map concat] in *. change (len []) with 0 in *.
    destruct (N.ltb_spec (4 + len (concat (map counted_text cores)) + (4 + len (concat (map counted_text threads)))) size) as [X|X];
      [clear - X SZ; lia|]. rewrite N.add_0_r. apply gets_ret.
  - destruct T as [T|T]; [discriminate|].
    destruct (N.ltb_spec (4 + len (concat (map counted_text cores)) + (4 + len (concat (map counted_text threads)))) size) as [X|X].
    2: { cbn [map concat] in SZ. unfold enc at 1 in SZ. rewrite !len_app, !len_le_bytes in SZ. clear - SZ X. lia. }
    next; [apply gets_guard; rewrite T; reflexivity|]. rewrite T, to_nat_len.
    rewrite <- (map_id (c :: cpus)) at 2. apply (gets_n f _ enc (fun x => x)).
    + intros [x y] o' I P2. rewrite Forall_forall in F3. destruct (F3 _ I) as [X1 X2]. unfold enc in *. cbn [fst snd] in *.
      apply split_int in P2 as [P2 P3]. rewrite !len_app, !len_le_bytes, !N.add_assoc.
      next; [apply gets_u32; [exact Hf|exact P2|exact X1]|].
      next; [apply gets_u32; [exact Hf|exact P3|exact X2]|]. apply gets_ret.
    + rewrite <- !N.add_assoc in *. exact A3.
Qed.
End Meta.
