(** What a reader holds after reading a file. *)
From Verif Require Import Base BytesModel BytesProofs BytesMoreProofs BufferModel BufferSpec BufferProofs TextModel TextProofs Assoc
  EventSizeModel EventSizeSpec EventSizeProofs SampleModel ReaderOpsModel ReaderOpsProofs FileModel FileSpec
  FileProofs FileEventProofs FileOrderProofs FileReadProofs FileMetaProofs SerializerModel AttrModel AttrSpec WriteSpec RereadSpec RereadBuildProofs.
From Verif Require RereadAttrProofs.
Local Open Scope N_scope.

Lemma obind_inv {A B} (o : outcome A) (f : A -> outcome B) v : obind o f = Ok v -> exists a, o = Ok a /\ f a = Ok v.
Proof. destruct o as [a| | | |]; cbn [obind]; try discriminate. intros H. exists a. auto. Qed.

(** A build id that was read. *)
Definition build_read (x : rbuild) : Prop :=
  build_ok x /\ rb_size x = (if N.testbit (rb_misc x) 15 then Some (value_or 0 (rb_size x) mod 256) else None).
Lemma trimmed_ok misc pid size id file : misc < two16 -> pid < two32 -> size < 256 -> bytes_ok id = true -> len id = 20 ->
  ~ In 0 file -> len file < 4096 ->
  build_read (snd (serialize_build_id_event (mkBIE misc pid size id file))).
Proof.
  intros B1 B2 B3 B4 L N0 F. unfold serialize_build_id_event. cbn [be_misc be_pid be_size be_build_id be_filename].
  destruct (trim_hex id B4) as (k & T & D & K & M). rewrite T.
  assert (L' : length id = 20%nat) by (unfold len in L; lia). rewrite L' in *.
  set (h := firstn (20 - 4 * k) id) in *.
  assert (Bh : bytes_ok h = true) by now apply bytes_ok_firstn.
  assert (Lh : (length h = 20 - 4 * k)%nat) by (unfold h; rewrite firstn_length; lia).
  rewrite hex_roundtrip_gen by exact Bh. cbn [snd]. rewrite hex_length.
  replace (2 * length h)%nat with (length h * 2)%nat by lia. rewrite Nat.div_mul by lia.
  rewrite repeat_length. unfold build_id_array.
  assert (E : firstn (length h) (firstn 20 h ++ skipn (length h) (repeat 0 20)) = h).
  { rewrite (firstn_all2 h) by lia. rewrite firstn_app, firstn_all, Nat.sub_diag. cbn [firstn]. apply app_nil_r. }
  assert (G : forall b' r, r = h -> build_read (mkRBuild misc pid file (Some file) (if N.testbit misc 15 then Some size else None) r b')).
  { intros b' r ->. split; [constructor; cbn [rb_misc rb_pid rb_file rb_hash]; auto|].
    - split; [exact Bh|]. unfold len. rewrite Lh. split; [lia|]. split.
      + replace (N.of_nat (20 - 4 * k)) with ((5 - N.of_nat k) * 4) by lia. apply N.mod_mul. discriminate.
      + intros t E'. exact (M t E').
    - cbn [rb_size rb_misc]. destruct (N.testbit misc 15); [|reflexivity]. cbn [value_or].
      f_equal. symmetry. now apply N.mod_small. }
  apply G, E.
Qed.

(** Partial correctness over the bytes [b] of a file in the byte order of the machine. *)
Section Reading.
Variable b : list N.
Hypothesis Hb : bytes_ok b = true.
Hypothesis Lb : len b < 2 ^ 31.

Definition at_b (r : reader) : Prop := good r /\ rbuf r = b /\ rswap r = false.
Definition gives {A} (m : rcall A) (Q : A -> Prop) : Prop :=
  forall r, at_b r -> forall a r', m r = (Ok a, r') -> at_b r' /\ Q a.

Lemma at_same r r' : at_b r -> good r' -> same r r' -> at_b r'.
Proof. intros (G & B & S) G' [S1 S2]. split; [exact G'|]. split; congruence. Qed.
Lemma gives_wp {A} (m : rcall A) (Q : A -> Prop) :
  (forall r, at_b r -> wp m r (fun a r' => good r' /\ same r r' /\ Q a)) -> gives m Q.
Proof.
  intros H r A0 a r' E. specialize (H r A0). unfold wp in H. rewrite E in H. destruct H as (H1 & H2 & H3).
  split; [exact (at_same r r' A0 H1 H2)|exact H3].
Qed.
Lemma gives_ret {A} (a : A) (Q : A -> Prop) : Q a -> gives (rret a) Q.
Proof. intros H r A0 a' r' E. injection E as <- <-. now split. Qed.
Lemma gives_fail {A} (Q : A -> Prop) : gives rfail Q.
Proof. intros r A0 a' r' E. discriminate E. Qed.
Lemma gives_hang {A} (Q : A -> Prop) : gives rhang Q.
Proof. intros r A0 a' r' E. discriminate E. Qed.
Lemma gives_bind {A B} (m : rcall A) (f : A -> rcall B) (P : A -> Prop) (Q : B -> Prop) :
  gives m P -> (forall a, P a -> gives (f a) Q) -> gives (rbind m f) Q.
Proof.
  intros H1 H2 r A0 c r' E. unfold rbind in E. destruct (m r) as [[a| | | |] r1] eqn:M; try discriminate E.
  destruct (H1 r A0 a r1 M) as [A1 Pa]. exact (H2 a Pa r1 A1 c r' E).
Qed.
Lemma gives_mono {A} (m : rcall A) (P Q : A -> Prop) : gives m P -> (forall a, P a -> Q a) -> gives m Q.
Proof. intros H1 H2 r A0 a r' E. destruct (H1 r A0 a r' E). auto. Qed.
Lemma gives_guard c : gives (rguard c) (fun _ => c = true).
Proof. intros r A0 a r' E. unfold rguard in E. destruct c; [|discriminate E]. now injection E as <- <-. Qed.
Lemma gives_check c : gives (rcheck c) (fun _ => c = true).
Proof. intros r A0 a r' E. unfold rcheck in E. destruct c; [|discriminate E]. now injection E as <- <-. Qed.
Lemma gives_ask {A} (f : reader -> A) : gives (rask f) (fun _ => True).
Proof. intros r A0 a r' E. now injection E as <- <-. Qed.
Lemma gives_swap : gives (rask rswap) (fun v => v = false).
Proof. intros r A0 a r' E. injection E as <- <-. split; [exact A0|apply A0]. Qed.
Lemma gives_tell : gives (rask tell) (fun v => v <= len b).
Proof. intros r A0 a r' E. injection E as <- <-. split; [exact A0|]. destruct A0 as ((_ & _ & G) & <- & _). exact G. Qed.
Lemma gives_lift {A} (o : outcome A) : gives (rlift o) (fun a => o = Ok a).
Proof. intros r A0 a r' E. unfold rlift in E. injection E as -> <-. now split. Qed.
Lemma gives_seek o : gives (seek_set o) (fun _ => True).
Proof. apply gives_wp. intros r (G & _). apply wp_seek; [exact G|]. auto. Qed.
Lemma gives_data n : n < two64 -> gives (read_data n) (fun d => bytes_ok d = true /\ len d = n /\ n <= len b).
Proof.
  intros H. apply gives_wp. intros r (G & B & _). apply wp_data; auto. intros r' G' S E L K.
  split; [exact G'|]. split; [exact S|]. split; [exact K|]. split; [exact L|].
  destruct G' as (_ & _ & G'). rewrite (proj1 S), B in G'. lia.
Qed.

(** Texts: no NUL in them, not longer than the file. *)
Definition tx (t : list N) : Prop := ~ In 0 t /\ len t <= len b.
Lemma gives_str n : n < two64 -> gives (read_string n) tx.
Proof.
  intros H. apply gives_wp. intros r (G & B & _). apply wp_str; auto. intros t r' G' S E (U & rest & U2 & _) K.
  split; [exact G'|]. split; [exact S|]. split; [exact U|].
  destruct G' as (_ & _ & G'). rewrite (proj1 S), B in G'.
  assert (X := f_equal len U2). rewrite len_app in X. unfold slice in X.
  assert (len (firstn (N.to_nat n) (skipn (N.to_nat (roff r)) (rbuf r))) <= n) by (unfold len; rewrite firstn_length; lia). lia.
Qed.
Lemma gives_u32 : gives read_u32 (fun v => v < two32).
Proof. apply gives_wp. intros r (G & _). apply wp_u32; auto. Qed.
Lemma gives_u64 : gives read_u64 (fun v => v < two64).
Proof. apply gives_wp. intros r (G & _). apply wp_u64; auto. Qed.
Lemma gives_sized : gives read_string_with_size tx.
Proof.
  unfold read_string_with_size. eapply gives_bind; [apply gives_u32|]. cbv beta. intros l H.
  apply gives_str. unfold two32, two64 in *. lia.
Qed.
Lemma gives_n {A} n (f : rcall A) P : gives f P -> gives (read_n n f) (fun l => Forall P l /\ length l = n).
Proof.
  intros H. induction n as [|n IH]; cbn [read_n]; [apply gives_ret; auto|].
  eapply gives_bind; [exact H|]. intros a Pa. eapply gives_bind; [exact IH|]. intros l [F L]. apply gives_ret.
  split; [now constructor|]. cbn [length]. now rewrite L.
Qed.
Lemma gives_event_header : gives read_event_header (fun h => h_type h < two32 /\ h_misc h < two16 /\ 8 <= h_size h < two16).
Proof.
  apply gives_wp. intros r (G & _). apply wp_event_header; [exact G|]. intros r1 G1 S1 E1 h B1 B2 B3 _. auto.
Qed.
Lemma gives_section : gives read_section (fun s => sc_offset s + sc_size s <= len b).
Proof.
  unfold read_section. eapply gives_bind; [apply gives_data; reflexivity|]. intros d _.
  eapply gives_bind; [apply gives_ask|]. intros sw _. cbv zeta.
  eapply (gives_bind _ _ (fun v => v = len b)).
  { intros r A0 a r' E. injection E as <- <-. split; [exact A0|]. now destruct A0 as (_ & -> & _). }
  intros total ->. eapply gives_bind; [apply gives_guard|]. cbv beta. intros u1 H1. eapply gives_bind; [apply gives_guard|]. cbv beta. intros u2 H2.
  apply gives_ret. cbn [sc_offset sc_size]. lia.
Qed.

Ltac go := repeat match goal with
  | |- gives (rbind (rguard _) _) _ => eapply gives_bind; [apply gives_guard|cbv beta; intros ? ?]
  | |- gives (rbind (rask rswap) _) _ => eapply gives_bind; [apply gives_swap|cbv beta; intros ? ->]
  | |- gives (rbind (rask tell) _) _ => eapply gives_bind; [apply gives_tell|cbv beta; intros ? ?]
  | |- gives (rbind (rask _) _) _ => eapply gives_bind; [apply gives_ask|cbv beta; intros ? ?]
  | |- gives (rbind read_u32 _) _ => eapply gives_bind; [apply gives_u32|cbv beta; intros ? ?]
  | |- gives (rbind read_u64 _) _ => eapply gives_bind; [apply gives_u64|cbv beta; intros ? ?]
  | |- gives (rbind read_string_with_size _) _ => eapply gives_bind; [apply gives_sized|cbv beta; intros ? ?]
  | |- gives (rbind (seek_set _) _) _ => eapply gives_bind; [apply gives_seek|cbv beta; intros ? ?]
  | |- gives (rbind read_section _) _ => eapply gives_bind; [apply gives_section|cbv beta; intros ? ?]
  | |- gives (rbind (rlift _) _) _ => eapply gives_bind; [apply gives_lift|cbv beta; intros ? ?]
  | |- gives (rret _) _ => apply gives_ret
  | |- gives rfail _ => apply gives_fail
  | |- gives rhang _ => apply gives_hang
  end.

(** ** Metadata *)
Lemma gives_string_loop count : forall a max, gives (string_loop count a max) (fun l => Forall tx l /\ (length l <= count)%nat).
Proof.
  induction count as [|count IH]; intros a max; cbn [string_loop]; [apply gives_ret; auto|].
  destruct (a <? max); [|apply gives_ret; split; [auto|apply Nat.le_0_l]]. go.
  eapply (gives_bind _ _ tx).
  { unfold read_single_string. destruct (_ =? 0); [apply gives_ret; split; [tauto|apply N.le_0_l]|apply gives_sized]. }
  intros t Ht. go. eapply gives_bind; [apply IH|]. intros l [F L]. apply gives_ret. split; [now constructor|cbn [length]; lia].
Qed.
Lemma gives_number_loop n fuel : In n [4%nat; 8%nat] -> forall size, gives (number_loop fuel n size) (Forall (fun v => v < 256 ^ N.of_nat n)).
Proof.
  intros Hn. induction fuel as [|fuel IH]; intros size; cbn [number_loop]; (destruct (size =? 0); [apply gives_ret; auto|]); [apply gives_hang|].
  eapply (gives_bind _ _ (fun v => v < 256 ^ N.of_nat n)).
  { destruct Hn as [<-|[<-|[]]]; [apply gives_u32|apply gives_u64]. }
  intros v Hv. eapply gives_bind; [apply IH|]. intros l F. apply gives_ret. now constructor.
Qed.
Lemma gives_numbers n size : In n [4%nat; 8%nat] ->
  gives (read_numbers n size) (fun l => l <> [] /\ Forall (fun v => v < 256 ^ N.of_nat n) l).
Proof.
  intros Hn. unfold read_numbers. go. eapply gives_bind; [apply gives_number_loop, Hn|]. intros l F. go.
  split; [destruct l; [discriminate|discriminate]|exact F].
Qed.

(** ** The state between the features *)
Variable M : N.
Definition part {A} (k ty : N) (l : list A) (P : Prop) : Prop := if (ty <? k) && N.testbit M ty then P else l = [].
Definition nums (ty bound : N) (l : list (N * list N)) : Prop :=
  exists d, l = [(ty, d)] /\ d <> [] /\ Forall (fun v => v < bound) d.
Definition texts (l : list (list N)) : Prop := Forall tx l /\ len l < two32.

Record meta_inv (k : N) (m : fmeta) : Prop := mkMetaInv {
  mi_strings : Forall (fun x => tx (snd x)) (fm_strings m);
  mi_which : forall ty, match aget N.eqb ty (fm_strings m) with Some _ => true | None => false end =
    existsb (N.eqb ty) string_features && ((ty <? k) && N.testbit M ty);
  mi_cmdline : part k 11 (fm_cmdline m) (texts (fm_cmdline m));
  mi_u32 : part k 7 (fm_u32 m) (nums 7 two32 (fm_u32 m));
  mi_u64 : part k 10 (fm_u64 m) (nums 10 two64 (fm_u64 m));
  mi_cores : part k 13 (fm_cores m) (texts (fm_cores m));
  mi_threads : part k 13 (fm_threads m) (texts (fm_threads m));
  mi_cpus : part k 13 (fm_cpus m) (Forall (fun c => fst c < two32 /\ snd c < two32) (fm_cpus m) /\
    (fm_cpus m = [] \/ (N.testbit M 7 = true /\ exists r, fm_u32 m = [(7, len (fm_cpus m) :: r)])));
  mi_numa : part k 14 (fm_numa m) (Forall (fun x => let '(id, size, free, cpus) := x in
     id < two32 /\ size < two64 /\ free < two64 /\ tx cpus) (fm_numa m) /\ len (fm_numa m) < two32);
  mi_pmu : part k 16 (fm_pmu m) (Forall (fun x => fst x < two32 /\ tx (snd x)) (fm_pmu m) /\ len (fm_pmu m) < two32 /\ fm_pmu m <> []);
  mi_group : part k 17 (fm_group m) (Forall (fun x => let '(name, leader, members) := x in
     tx name /\ leader < two32 /\ members < two32) (fm_group m) /\ len (fm_group m) < two32);
  mi_hybrid : part k 30 (fm_hybrid m) (Forall (fun x => tx (fst x) /\ tx (snd x)) (fm_hybrid m) /\ len (fm_hybrid m) < two32);
  mi_tracing : part k 1 (fm_tracing m) True }.

(** The attributes and their names. *)
Definition attr_read (a : fattr) : Prop :=
  is_attr (fa_attr a) /\ member (fa_attr a) 4 4 = 96 /\ len (fa_ids a) < two32 /\ Forall (fun id => id < two64) (fa_ids a).
Definition named (a : fattr) (t : N * list N) : Prop := fst t = attr_config (fa_attr a) /\ tx (snd t).
Definition serializer_of (s : fstate) : sstate :=
  mkSS (map (fun r => (fst r, raw_attr (snd r))) (fs_readers s)) false (fs_sample_pos s) (fs_other_pos s).
Record attr_inv (k : N) (s : fstate) : Prop := mkAttrInv {
  ai_before : N.testbit M 12 = true -> k <= 12 -> fs_attrs s = [] /\ fs_types s = [];
  ai_attrs : Forall attr_read (fs_attrs s);
  ai_count : len (fs_attrs s) < 2 ^ 31;
  ai_types : (N.testbit M 12 = false /\ fs_types s = []) \/ Forall2 named (fs_attrs s) (fs_types s);
  ai_readers : create_readers (map (fun a => (raw_attr (fa_attr a), fa_ids a)) (fs_attrs s)) (new_serializer false)
               = Ok (serializer_of s) }.

Record state_inv (k : N) (s : fstate) : Prop := mkStateInv {
  si_mask : fs_mask s = M;
  si_meta : meta_inv k (fs_meta s);
  si_attr : attr_inv k s;
  si_builds : Forall build_read (fs_builds s);
  si_events : fs_events s = [] }.

(** ** Attributes *)
Lemma mem_write_size a : len a = 96 -> forall c, mem_write a 4 (le_bytes 4 96) = Ok c -> member c 4 4 = 96.
Proof.
  intros L c H. unfold mem_write in H. rewrite L in H. change (len (le_bytes 4 96)) with 4 in H.
  change (4 + 4 <=? 96) with true in H. cbv iota in H. apply Ok_inj in H. subst c.
  unfold member, slice. change (N.to_nat 4) with 4%nat. change (N.to_nat (4 + 4)) with 8%nat.
  assert (H : (length (firstn 4 a) = 4)%nat) by (rewrite firstn_length; unfold len in L; lia).
  rewrite skipn_app, H, Nat.sub_diag. rewrite (skipn_all2 (firstn 4 a)) by lia. cbn [skipn app].
  rewrite firstn_app. change (length (le_bytes 4 96)) with 4%nat. rewrite Nat.sub_diag. cbn [firstn]. rewrite app_nil_r.
  reflexivity.
Qed.
Lemma gives_event_attr : gives read_event_attr (fun a => is_attr a /\ member a 4 4 = 96).
Proof.
  intros r A0 a r' E.
  assert (X : at_b r' /\ bytes_ok a = true /\ len a = 96).
  { assert (G : gives read_event_attr (fun a => bytes_ok a = true /\ len a = 96)); [|exact (G r A0 a r' E)].
    apply gives_wp. intros r0 (G & _). apply wp_event_attr; [exact G|]. auto. }
  destruct X as (A1 & B & L). split; [exact A1|]. split; [split; [unfold len in L; lia|exact B]|].
  assert (G : gives read_event_attr (fun a => exists c, mem_write c 4 (le_bytes 4 96) = Ok a)).
  { unfold read_event_attr. go. eapply gives_bind; [apply gives_data; unfold sub64, two64; apply N.mod_lt; lia|]. intros d _. go.
    eapply gives_mono; [apply gives_lift|]. cbv beta. intros c Hc. eexists. exact Hc. }
  destruct (G r A0 a r' E) as (_ & c & Hc). apply (mem_write_size c); [|exact Hc].
  now rewrite <- (len_mem_write _ _ _ _ Hc).
Qed.
Lemma gives_ids n : gives (read_ids n) (fun l => len l = n /\ Forall (fun v => v < two64) l).
Proof.
  unfold read_ids. eapply gives_mono; [apply gives_n, gives_u64|]. cbv beta. intros l [F L]. split; [unfold len; lia|exact F].
Qed.
Lemma create_readers_snoc l x : forall s, create_readers (l ++ [x]) s = let! s' := create_readers l s in create_reader (fst x) (snd x) s'.
Proof.
  induction l as [|(a, ids) l IH]; intros s; cbn [app create_readers].
  - destruct x as [a ids]. cbn [fst snd obind]. now destruct (create_reader a ids s).
  - destruct (create_reader a ids s) as [s'| | | |]; cbn [obind]; auto.
Qed.
Lemma add_attr_inv a s s' : add_file_attr a s = Ok s' ->
  fs_mask s' = fs_mask s /\ fs_meta s' = fs_meta s /\ fs_builds s' = fs_builds s /\ fs_events s' = fs_events s /\
  fs_types s' = fs_types s /\ fs_attrs s' = fs_attrs s ++ [a] /\
  create_reader (raw_attr (fa_attr a)) (fa_ids a) (serializer_of s) = Ok (serializer_of s').
Proof.
  unfold add_file_attr, update_positions, create_reader, set_positions. cbv zeta.
  change (at_sample_type (raw_attr (fa_attr a))) with (attr_sample_type (fa_attr a)).
  destruct (id_positions _) as [sp op].
  destruct s as [a1 a2 a3 a4 a5 a6 a7 a8 a9 a10 a11 a12 a13]. cbn [put_attrs put_readers fs_sample_pos fs_other_pos fs_attrs fs_readers serializer_of ss_sample_pos ss_other_pos ss_readers ss_swap].
  destruct (match a8 with None => true | Some o => pos_eqb o sp end && match a9 with None => true | Some o => pos_eqb o op end); [|discriminate].
  cbn [obind put_sample_pos put_other_pos]. intros H. apply Ok_inj in H.
  assert (R : forall ids, fold_left (fun m id => reader_set id (raw_attr (fa_attr a)) m) ids (map (fun r => (fst r, raw_attr (snd r))) a7)
            = map (fun r => (fst r, raw_attr (snd r))) (fold_left (fun m id => omset id (fa_attr a) m) ids a7))
    by (intros ids; symmetry; exact (RereadAttrProofs.omsets_reader (fa_attr a) ids a7)).
  destruct (fa_ids a) as [|id ids]; subst s'; repeat (split; [reflexivity|]); unfold serializer_of;
    cbn [put_configs_seen put_ids_seen fs_readers fs_sample_pos fs_other_pos]; now rewrite R.
Qed.

(** ** Build ids *)
Lemma of_le_small d n : bytes_ok d = true -> len d = n -> of_le d < 256 ^ n.
Proof. intros B <-. now apply of_le_bound. Qed.
Lemma mem_read_inv e o n d : mem_read e o n = Ok d -> d = slice e o n /\ o + n <= len e.
Proof. unfold mem_read. destruct (N.leb_spec (o + n) (len e)); [|discriminate]. intros X. apply Ok_inj in X. auto. Qed.
Lemma gives_build_id h s : h_type h < two32 -> h_misc h < two16 -> 8 <= h_size h < two16 ->
  gives (read_build_id h s) (fun s' => exists x, s' = put_builds (fs_builds s ++ [x]) s /\ build_read x).
Proof.
  intros B1 B2 B3. unfold read_build_id. go.
  eapply gives_bind; [apply gives_data; unfold two16, two64 in *; lia|]. intros d (D1 & D2 & _). go. cbv iota.
  match goal with H : _ = Ok ?e |- _ => apply Ok_inj in H; subst e end.
  destruct (new_block_ok h d B1 B2 B3 D1 D2) as (W & _ & _ & _ & L).
  fold (new_block h d) in *. set (e := new_block h d) in *.
  assert (Be : bytes_ok e = true) by apply W.
  set (max := N.min (h_size h - 36) 4096) in *.
  repeat match goal with
  | H : obind (mem_read _ _ _) _ = Ok _ |- _ => let q := fresh "q" in let X := fresh "X" in
      apply obind_inv in H as (q & X & H); apply Ok_inj in H; apply mem_read_inv in X as [-> X]
  | H : mem_read _ _ _ = Ok _ |- _ => apply mem_read_inv in H as [-> H]
  end.
  match goal with H : ev_strnlen e 36 max = Ok ?n |- _ => rename n into sl; rename H into Hn end.
  match goal with H : (36 <=? h_size h) = true |- _ => rename H into H36 end.
  rewrite ev_strnlen_ok in Hn by lia. apply Ok_inj in Hn.
  assert (Ln : len (slice e 36 max) = max) by (apply len_slice; lia).
  assert (Sle := strnlen_le (slice e 36 max)). rewrite Hn, Ln in Sle.
  assert (Lt : sl < max) by (match goal with H : negb (sl =? max) = true |- _ => apply negb_true_iff, N.eqb_neq in H; lia end).
  assert (U := until_nul_strnlen (slice e 36 max)). rewrite Hn in U. destruct U as (U & _).
  assert (Es : firstn (N.to_nat sl) (slice e 36 max) = slice e 36 sl).
  { unfold slice. rewrite firstn_firstn. f_equal. lia. }
  rewrite Es in U.
  match goal with |- gives (let '(ok, b) := serialize_build_id_event ?v in _) _ =>
    assert (T : build_read (snd (serialize_build_id_event v))) end.
  { apply trimmed_ok; auto.
    - subst. apply (of_le_small _ 4); [apply bytes_ok_slice, Be|apply len_slice; lia].
    - subst. apply (of_le_small _ 1); [apply bytes_ok_slice, Be|apply len_slice; lia].
    - apply bytes_ok_slice, Be.
    - apply len_slice. lia.
    - rewrite len_slice by lia. lia. }
  destruct (serialize_build_id_event _) as [[|] x]; go. exists x. split; [reflexivity|exact T].
Qed.
Lemma gives_build_loop fuel : forall left s, gives (build_id_loop fuel left s)
  (fun s' => exists l, s' = put_builds (fs_builds s ++ l) s /\ Forall build_read l).
Proof.
  induction fuel as [|fuel IH]; intros left s; cbn [build_id_loop]; (destruct (left =? 0);
    [apply gives_ret; exists []; split; [destruct s; cbn; now rewrite app_nil_r|constructor]|]); [apply gives_hang|].
  eapply gives_bind; [apply gives_event_header|]. intros h (B1 & B2 & B3). go.
  eapply gives_bind; [now apply gives_build_id|]. cbv beta. intros s1 (x & -> & Hx).
  eapply gives_mono; [apply IH|]. cbv beta. intros s2 (l & -> & Hl). exists (x :: l). split; [|now constructor].
  destruct s as [x0 x1 x2 x3 x4 x5 x6 x7 x8 x9 x10 x11 x12]. cbn [put_builds fs_builds]. now rewrite <- app_assoc.
Qed.

(** ** Event descriptions *)
Lemma named_snoc l t a x : Forall2 named l t -> named a x -> Forall2 named (l ++ [a]) (t ++ [x]).
Proof. intros F H. apply Forall2_app; auto. Qed.
Lemma attrs_snoc l a s : create_readers (map (fun a => (raw_attr (fa_attr a), fa_ids a)) l) (new_serializer false) = Ok s -> forall s',
  create_reader (raw_attr (fa_attr a)) (fa_ids a) s = Ok s' ->
  create_readers (map (fun a => (raw_attr (fa_attr a), fa_ids a)) (l ++ [a])) (new_serializer false) = Ok s'.
Proof. intros H s' H'. rewrite map_app. cbn [map]. rewrite create_readers_snoc, H. exact H'. Qed.

(** What adding descriptions changes. *)
Definition desc_inv (n : nat) (s0 s : fstate) : Prop :=
  fs_mask s = fs_mask s0 /\ fs_meta s = fs_meta s0 /\ fs_builds s = fs_builds s0 /\ fs_events s = fs_events s0 /\
  Forall attr_read (fs_attrs s) /\ length (fs_attrs s) = n /\ Forall2 named (fs_attrs s) (fs_types s) /\
  create_readers (map (fun a => (raw_attr (fa_attr a), fa_ids a)) (fs_attrs s)) (new_serializer false) = Ok (serializer_of s).
Lemma put_types_serializer v s : serializer_of (put_types v s) = serializer_of s.
Proof. now destruct s. Qed.
Lemma gives_event_desc n s0 s : desc_inv n s0 s -> gives (read_event_desc s) (desc_inv (S n) s0).
Proof.
  intros (D1 & D2 & D3 & D4 & D5 & D6 & D7 & D8). unfold read_event_desc.
  eapply gives_bind; [apply gives_event_attr|]. cbv beta. intros a (A1 & A2). go.
  eapply gives_bind; [apply gives_ids|]. cbv beta. intros ids (I1 & I2). go.
  match goal with H : add_file_attr _ _ = Ok _ |- _ => destruct (add_attr_inv _ _ _ H) as (E1 & E2 & E3 & E4 & E5 & E6 & E7) end.
  unfold desc_inv. rewrite put_types_serializer.
  match goal with |- context [put_types ?v ?z] => assert (P : fs_mask (put_types v z) = fs_mask z /\ fs_meta (put_types v z) = fs_meta z /\
     fs_builds (put_types v z) = fs_builds z /\ fs_events (put_types v z) = fs_events z /\ fs_attrs (put_types v z) = fs_attrs z /\
     fs_types (put_types v z) = v) by (destruct z; repeat split); destruct P as (-> & -> & -> & -> & -> & ->) end.
  rewrite E1, E2, E3, E4, E6. repeat (split; [assumption|]). split; [|split; [|split]].
  - apply Forall_app. split; [exact D5|]. constructor; [|constructor]. repeat split; auto; [apply A1|apply A1|]. cbn [fa_ids]. now rewrite I1.
  - rewrite app_length, D6. cbn [length]. lia.
  - rewrite E5. apply named_snoc; [exact D7|]. split; [reflexivity|assumption].
  - exact (attrs_snoc _ _ _ D8 _ E7).
Qed.
Lemma gives_repeat (f : fstate -> rcall fstate) (P : nat -> fstate -> Prop) :
  (forall n s, P n s -> gives (f s) (P (S n))) -> forall n k s, P k s -> gives (repeat_read n f s) (P (n + k)%nat).
Proof.
  intros H. induction n as [|n IH]; intros k s HP; cbn [repeat_read]; [now apply gives_ret|].
  eapply gives_bind; [apply H, HP|]. intros s' HP'. replace (S n + k)%nat with (n + S k)%nat by lia. now apply IH.
Qed.

(** ** One feature after the other *)
Lemma part_next {A} k ty (l : list A) P : ty <> k -> part k ty l P -> part (k + 1) ty l P.
Proof.
  intros H. unfold part. replace (ty <? k + 1) with (ty <? k); [auto|].
  destruct (N.ltb_spec ty k), (N.ltb_spec ty (k + 1)); auto; lia.
Qed.
Lemma part_empty {A} ty (l : list A) P : part ty ty l P -> l = [].
Proof. unfold part. now rewrite N.ltb_irrefl. Qed.
Lemma part_done {A} ty (l : list A) (P : Prop) : N.testbit M ty = true -> P -> part (ty + 1) ty l P.
Proof. intros H HP. unfold part. rewrite H. replace (ty <? ty + 1) with true by lia. exact HP. Qed.
Lemma part_skip {A} ty (l : list A) (P : Prop) : N.testbit M ty = false -> part ty ty l P -> part (ty + 1) ty l P.
Proof. intros H HP. apply part_empty in HP. unfold part. rewrite H, Bool.andb_false_r. exact HP. Qed.
Lemma which_next k ty : ty <> k -> ((ty <? k + 1) && N.testbit M ty) = ((ty <? k) && N.testbit M ty).
Proof. intros H. f_equal. destruct (N.ltb_spec ty k), (N.ltb_spec ty (k + 1)); auto; lia. Qed.

Lemma meta_skip k m : N.testbit M k = false -> meta_inv k m -> meta_inv (k + 1) m.
Proof.
  intros H [? W ? ? ? ? ? ? ? ? ? ? ?].
  assert (S : forall A ty (l : list A) P, part k ty l P -> part (k + 1) ty l P).
  { intros A ty l P HP. destruct (N.eq_dec ty k) as [->|D]; [now apply part_skip|now apply part_next]. }
  constructor; auto. intros ty. rewrite W. f_equal. destruct (N.eq_dec ty k) as [->|D]; [now rewrite H, !Bool.andb_false_r|].
  symmetry. now apply which_next.
Qed.
Lemma attr_skip k s : N.testbit M k = false \/ k <> 12 -> attr_inv k s -> attr_inv (k + 1) s.
Proof.
  intros H [I1 I2 I3 I4 I5]. constructor; auto. intros B K. apply I1; [exact B|].
  destruct H as [H|H]; [|lia]. destruct (N.eq_dec k 12) as [->|]; [congruence|lia].
Qed.

Lemma which_other k ty : existsb (N.eqb k) string_features = false ->
  existsb (N.eqb ty) string_features && ((ty <? k + 1) && N.testbit M ty) = existsb (N.eqb ty) string_features && ((ty <? k) && N.testbit M ty).
Proof. intros H. destruct (N.eq_dec ty k) as [->|D]; [now rewrite H|]. now rewrite which_next. Qed.
Ltac meta_step :=
  match goal with
  | I : meta_inv ?k ?m, B : N.testbit M ?k = true |- _ =>
    destruct m as [y0 y1 y2 y3 y4 y5 y6 y7 y8 y9 y10 y11 y12]; destruct I as [? ? ? ? ? ? ? ? ? ? ? ? ?];
    cbn [fm_strings fm_cmdline fm_cmdwhole fm_u32 fm_u64 fm_cores fm_threads fm_cpus fm_numa fm_pmu fm_group fm_hybrid fm_tracing
         put_strings put_cmdline put_cmdwhole put_u32 put_u64 put_cores put_threads put_cpus put_numa put_pmu put_group put_hybrid put_tracing] in *;
    constructor;
    cbn [fm_strings fm_cmdline fm_cmdwhole fm_u32 fm_u64 fm_cores fm_threads fm_cpus fm_numa fm_pmu fm_group fm_hybrid fm_tracing];
    try assumption;
    try (apply part_next; [discriminate|assumption]);
    try (intros ty; rewrite which_other by reflexivity; auto);
    repeat (match goal with E : part k k ?l _ |- _ => apply part_empty in E; subst; cbn [app] end)
  end.
Lemma state_meta k s m : k <> 12 -> state_inv k s -> meta_inv (k + 1) m -> state_inv (k + 1) (put_meta m s).
Proof.
  intros K [S1 S2 S3 S4 S5] H. destruct s as [x0 x1 x2 x3 x4 x5 x6 x7 x8 x9 x10 x11 x12].
  apply (attr_skip k) in S3; [|now right]. constructor; auto. destruct S3. constructor; auto.
Qed.
Lemma state_skip k s : N.testbit M k = false -> state_inv k s -> state_inv (k + 1) s.
Proof. intros H [S1 S2 S3 S4 S5]. constructor; auto; [now apply meta_skip|now apply attr_skip; [left|]]. Qed.
(** A feature that keeps nothing of its own in the metadata. *)
Lemma meta_plain k m : existsb (N.eqb k) (string_features ++ [11; 7; 10; 13; 14; 16; 17; 30; 1]) = false -> meta_inv k m -> meta_inv (k + 1) m.
Proof.
  intros H [? W ? ? ? ? ? ? ? ? ? ? ?]. rewrite existsb_app in H. apply orb_false_iff in H as (H1 & H2).
  cbn [existsb] in H2. rewrite !orb_false_iff, !N.eqb_neq in H2.
  constructor; auto; try (apply part_next; [lia|assumption]). intros ty. now rewrite which_other.
Qed.
Lemma wide_count n : n < two32 -> forall (A : Type) (l : list A), length l = N.to_nat n -> len l < two32.
Proof. intros H A l L. unfold len. lia. Qed.

Lemma part_nonempty {A} k ty (l : list A) (P : Prop) : part k ty l P -> l <> [] -> N.testbit M ty = true /\ P.
Proof. unfold part. destruct (_ <? _), (N.testbit M ty); cbn [andb]; intros H N0; auto; contradiction. Qed.

Ltac change_meta := apply state_meta; [discriminate|assumption|].
Ltac count_of nm := match goal with H : _ /\ length ?l = N.to_nat ?n |- _ => destruct H as [nm ?]; assert (len l < two32) by (apply (wide_count n); assumption) end.
Lemma string_step ty size s : existsb (N.eqb ty) string_features = true -> N.testbit M ty = true -> state_inv ty s ->
  gives (rlet t := read_single_string size in rret (put_meta (put_strings (aset ty t (fm_strings (fs_meta s))) (fs_meta s)) s)) (state_inv (ty + 1)).
Proof.
  intros Hs B S. pose proof (si_meta _ _ S) as I.
  eapply (gives_bind _ _ tx).
  { unfold read_single_string. destruct (_ =? 0); [apply gives_ret; split; [tauto|apply N.le_0_l]|apply gives_sized]. }
  intros t Ht. apply gives_ret. apply state_meta; [intros ->; discriminate|assumption|].
  assert (Nt : forall k, In k [11; 7; 10; 13; 14; 16; 17; 30; 1] -> k <> ty).
  { intros k Hk ->. cbn in Hk. repeat (destruct Hk as [<-|Hk]; [discriminate|]). contradiction. }
  destruct (fs_meta s) as [y0 y1 y2 y3 y4 y5 y6 y7 y8 y9 y10 y11 y12]. destruct I as [I0 W ? ? ? ? ? ? ? ? ? ? ?].
  cbn [put_strings fm_strings] in *.
  constructor; cbn [fm_strings fm_cmdline fm_cmdwhole fm_u32 fm_u64 fm_cores fm_threads fm_cpus fm_numa fm_pmu fm_group fm_hybrid fm_tracing] in *;
    try (apply part_next; [apply Nt; cbn; tauto|assumption]).
  - constructor; auto.
  - intros k. unfold aset. cbn [aget]. destruct (N.eqb_spec k ty) as [->|D].
    + rewrite Hs, B. replace (ty <? ty + 1) with true by lia. reflexivity.
    + rewrite W. f_equal. symmetry. now apply which_next.
Qed.
Lemma feature_step ty size s : In ty feature_types -> N.testbit M ty = true -> size < two64 -> state_inv ty s ->
  gives (read_feature ty size s) (state_inv (ty + 1)).
Proof.
  intros Hin B Hs S. pose proof (si_meta _ _ S) as I. unfold read_feature.
  cbn in Hin. repeat (destruct Hin as [<-|Hin]); try contradiction; cbn [N.eqb Pos.eqb existsb string_features orb];
    try (apply gives_ret; destruct S as [S1 S2 S3 S4 S5]; constructor; auto; [now apply meta_plain|apply attr_skip; [right; discriminate|exact S3]]);
    try (apply (string_step _ size s); [reflexivity|exact B|exact S]).
  - (* tracing *) unfold read_tracing.
    eapply gives_bind; [now apply gives_data|]. intros d _. destruct (size =? 0); apply gives_ret.
    + destruct S as [S1 S2 S3 S4 S5]. constructor; auto; [|apply attr_skip; [right; discriminate|exact S3]].
      clear S2. revert I. generalize (fs_meta s). intros m I. meta_step. now apply part_done.
    + change_meta. revert I. generalize (fs_meta s). intros m I. meta_step. now apply part_done.
  - (* build ids *) go. eapply gives_mono; [apply gives_build_loop|]. cbv beta. intros s' (l & -> & Hl).
    destruct S as [S1 S2 S3 S4 S5]. destruct s as [x0 x1 x2 x3 x4 x5 x6 x7 x8 x9 x10 x11 x12].
    constructor; auto; [now apply meta_plain| |apply Forall_app; auto].
    apply (attr_skip 2) in S3; [|right; discriminate]. destruct S3. constructor; auto.
  - (* number of cpus *) eapply gives_bind; [apply gives_numbers; cbn; auto|]. cbv beta. intros l (L1 & L2). apply gives_ret. change_meta.
    revert I. generalize (fs_meta s). intros m I. meta_step.
    apply part_done; [exact B|]. exists l. auto.
  - (* total memory *) eapply gives_bind; [apply gives_numbers; cbn; auto|]. cbv beta. intros l (L1 & L2). apply gives_ret. change_meta.
    revert I. generalize (fs_meta s). intros m I. meta_step. apply part_done; [exact B|]. exists l. auto.
  - (* command line *) go. eapply gives_bind; [apply gives_string_loop|]. cbv beta. intros l (L1 & L2). apply gives_ret. change_meta.
    revert I. generalize (fs_meta s). intros m I. meta_step. apply part_done; [exact B|]. split; [exact L1|]. unfold len, two32 in *. lia.
  - (* event descriptions *) unfold read_event_descs. go. destruct S as [S1 S2 [A1 A2 A3 A4 A5] S4 S5].
    destruct (A1 B ltac:(lia)) as (E1 & E2). cbv zeta.
    match goal with H : (?n <=? 2 ^ 31 - 1) = true |- _ => apply N.leb_le in H; rename n into nr end.
    match goal with |- gives (repeat_read ?n ?f ?z) _ => set (s0 := z) in *; eapply gives_mono; [apply (gives_repeat f (fun k => desc_inv k s0)) with (k := O)|] end.
    + intros n s'. apply gives_event_desc.
    + unfold s0. destruct s as [x0 x1 x2 x3 x4 x5 x6 x7 x8 x9 x10 x11 x12]. cbn in E1, E2. subst. repeat split; auto. constructor.
    + cbv beta. intros s' (D1 & D2 & D3 & D4 & D5 & D6 & D7 & D8).
      assert (P : fs_mask s0 = fs_mask s /\ fs_meta s0 = fs_meta s /\ fs_builds s0 = fs_builds s /\ fs_events s0 = fs_events s) by (unfold s0; destruct s; repeat split).
      destruct P as (P1 & P2 & P3 & P4). rewrite P1 in D1. rewrite P2 in D2. rewrite P3 in D3. rewrite P4 in D4.
      constructor; try congruence.
      * rewrite D2. now apply meta_plain.
      * constructor; auto; [intros _ K; lia|]. unfold len. rewrite D6. lia.
  - (* cpu topology *) unfold read_cpu_topology. go.
    eapply gives_bind; [apply gives_n, gives_sized|]. cbv beta. intros cores C. go.
    eapply gives_bind; [apply gives_n, gives_sized|]. cbv beta. intros threads T. go.
    match goal with |- gives (rbind ?m _) _ => eapply (gives_bind m _ (fun l => Forall (fun c => fst c < two32 /\ snd c < two32) l /\ (l = [] \/ len l = nr_cpus s /\ nr_cpus s <> 0))) end.
    { destruct (_ <? size); [|apply gives_ret; auto]. go.
      eapply gives_mono.
      - apply gives_n with (P := fun c => fst c < two32 /\ snd c < two32). go. cbn [fst snd]. auto.
      - cbv beta. intros l (F & L). split; [exact F|]. right. split; [unfold len; lia|].
        match goal with H : negb _ = true |- _ => apply negb_true_iff, N.eqb_neq in H; exact H end. }
    cbv beta. intros cpus (P1 & P2). apply gives_ret. change_meta. count_of FC. count_of FT.
    revert I P2. unfold nr_cpus. generalize (fs_meta s). intros m I P2. meta_step.
    + apply part_done; [exact B|]. split; assumption.
    + apply part_done; [exact B|]. split; assumption.
    + apply part_done; [exact B|]. split; [exact P1|]. destruct P2 as [P2|[P2 P3]]; [now left|right].
      apply part_nonempty in mi_u33; [|intros ->; apply P3; reflexivity]. destruct mi_u33 as (B7 & d & -> & Nd & Fd). split; [exact B7|].
      destruct d as [|n r]; [contradiction|]. cbn in P2. rewrite P2. now exists r.
  - (* numa *) unfold read_numa. go.
    eapply gives_bind; [apply gives_n with (P := fun x => let '(id, size, free, cpus) := x in id < two32 /\ size < two64 /\ free < two64 /\ tx cpus)|].
    { go. auto. }
    cbv beta. intros l Hl. apply gives_ret. change_meta. count_of F. revert I. generalize (fs_meta s). intros m I. meta_step. apply part_done; auto.
  - (* pmu *) unfold read_pmu. go.
    eapply gives_bind; [apply gives_n with (P := fun x => fst x < two32 /\ tx (snd x))|].
    { go. auto. }
    cbv beta. intros l Hl. apply gives_ret. change_meta. count_of F. revert I. generalize (fs_meta s). intros m I. meta_step. apply part_done; [exact B|].
    split; [exact F|]. split; [assumption|]. intros ->. match goal with H : negb (_ =? 0) = true |- _ => apply negb_true_iff, N.eqb_neq in H end. cbn [length] in *. lia.
  - (* groups *) unfold read_groups. go.
    eapply gives_bind; [apply gives_n with (P := fun x => let '(name, leader, members) := x in tx name /\ leader < two32 /\ members < two32)|].
    { go. auto. }
    cbv beta. intros l Hl. apply gives_ret. change_meta. count_of F. revert I. generalize (fs_meta s). intros m I. meta_step. apply part_done; auto.
  - (* hybrid *) unfold read_hybrid. go.
    eapply gives_bind; [apply gives_n with (P := fun x => tx (fst x) /\ tx (snd x))|].
    { go. auto. }
    cbv beta. intros l Hl. apply gives_ret. change_meta. count_of F. revert I. generalize (fs_meta s). intros m I. meta_step. apply part_done; auto.
Qed.
Lemma gives_remaining : gives (rask remaining) (fun v => v <= len b).
Proof. intros r A0 a r' E. injection E as <- <-. split; [exact A0|]. destruct A0 as (G & <- & _). rewrite remaining_good by exact G. lia. Qed.
Lemma feature_again ty s k : N.testbit M ty = true -> state_inv k s -> state_inv k (add_feature ty s).
Proof.
  intros B [S1 S2 S3 S4 S5]. destruct s as [x0 x1 x2 x3 x4 x5 x6 x7 x8 x9 x10 x11 x12]. cbn in S1. subst x0.
  constructor; auto.
  - cbn. apply N.bits_inj. intros i. rewrite N.setbit_eqb. destruct (N.eqb_spec ty i) as [->|]; [now rewrite B|reflexivity].
  - destruct S3. constructor; auto.
Qed.
Lemma item_step ty size s : In ty feature_types -> N.testbit M ty = true -> state_inv ty s ->
  gives (read_metadata_item ty size s) (state_inv (ty + 1)).
Proof.
  intros Hin B S. unfold read_metadata_item. eapply gives_bind; [apply gives_remaining|]. cbv beta. intros av Hav. go.
  assert (size < two64) by (match goal with H : (size <=? av) = true |- _ => apply N.leb_le in H end; unfold two64; change (2 ^ 31) with 2147483648 in Lb; lia).
  eapply gives_bind; [now apply feature_step|]. cbv beta. intros s' S'.
  assert (S2 : state_inv (ty + 1) (if existsb (N.eqb ty) supported_features then add_feature ty s' else s')).
  { destruct (existsb _ _); [now apply feature_again|exact S']. }
  go. destruct (size =? _); go. exact S2. exact S2.
Qed.
Lemma loop_step : forall n k, (1 <= k)%nat -> (k + n = 31)%nat -> forall sections s, state_inv (N.of_nat k) s ->
  gives (metadata_loop (map N.of_nat (List.seq k n)) sections s) (state_inv 31).
Proof.
  induction n as [|n IH]; intros k K1 K sections s S; cbn [List.seq map metadata_loop].
  - apply gives_ret. replace 31 with (N.of_nat k) by lia. exact S.
  - unfold has_feature. rewrite (si_mask _ _ S). destruct (N.testbit M (N.of_nat k)) eqn:B.
    + destruct sections as [|sec rest]; [intros r A0 a r' E; discriminate E|]. go.
      eapply gives_bind.
      * apply item_step; [|exact B|exact S]. unfold feature_types. apply in_map, in_seq. lia.
      * cbv beta. intros s' S'. apply IH; [lia|lia|]. rewrite Nat2N.inj_succ, <- N.add_1_r. exact S'.
    + apply IH; [lia|lia|]. rewrite Nat2N.inj_succ, <- N.add_1_r. now apply state_skip.
Qed.
Lemma gives_metadata h s : state_inv 1 s -> gives (read_metadata h s) (state_inv 31).
Proof.
  intros S. unfold read_metadata. go. eapply gives_bind; [apply gives_n, gives_section|]. cbv beta. intros l _.
  now apply (loop_step 30 1).
Qed.

(** ** The attributes of a file without descriptions *)
Definition attrs_inv (n : nat) (s : fstate) : Prop :=
  fs_mask s = M /\ fs_meta s = fs_meta fs_new /\ fs_builds s = [] /\ fs_events s = [] /\
  Forall attr_read (fs_attrs s) /\ length (fs_attrs s) = n /\ fs_types s = [] /\
  create_readers (map (fun a => (raw_attr (fa_attr a), fa_ids a)) (fs_attrs s)) (new_serializer false) = Ok (serializer_of s).
Lemma gives_attr n s : attrs_inv n s -> gives (read_attr s) (attrs_inv (S n)).
Proof.
  intros (D1 & D2 & D3 & D4 & D5 & D6 & D7 & D8). unfold read_attr.
  eapply gives_bind; [apply gives_event_attr|]. cbv beta. intros a (A1 & A2). go.
  match goal with H : sc_offset ?x + sc_size ?x <= len b |- _ => rename x into sec; rename H into Hsec end.
  eapply gives_bind; [apply gives_ids|]. cbv beta. intros ids (I1 & I2). go.
  eapply gives_mono; [apply gives_lift|]. cbv beta. intros s' H'.
  destruct (add_attr_inv _ _ _ H') as (E1 & E2 & E3 & E4 & E5 & E6 & E7).
  unfold attrs_inv. rewrite E1, E2, E3, E4, E5, E6. repeat (split; [assumption|]). split; [|split; [|split]].
  - apply Forall_app. split; [exact D5|]. constructor; [|constructor]. repeat split; auto; [apply A1|apply A1|]. cbn [fa_ids]. rewrite I1.
    assert (sc_size sec / 8 <= sc_size sec) by (apply N.div_le_upper_bound; lia). unfold two32. change (2 ^ 31) with 2147483648 in Lb. lia.
  - rewrite app_length, D6. cbn [length]. lia.
  - exact D7.
  - exact (attrs_snoc _ _ _ D8 _ E7).
Qed.
Definition types_inv (n i : nat) (s : fstate) : Prop :=
  fs_mask s = M /\ fs_meta s = fs_meta fs_new /\ fs_builds s = [] /\ fs_events s = [] /\
  Forall attr_read (fs_attrs s) /\ length (fs_attrs s) = n /\ Forall2 named (firstn i (fs_attrs s)) (fs_types s) /\
  create_readers (map (fun a => (raw_attr (fa_attr a), fa_ids a)) (fs_attrs s)) (new_serializer false) = Ok (serializer_of s).
Lemma firstn_next {A} (l : list A) : forall i a, nth_error l i = Some a -> firstn (S i) l = firstn i l ++ [a].
Proof.
  induction l as [|x l IH]; intros [|i] a H; try discriminate.
  - injection H as ->. reflexivity.
  - cbn [firstn app]. f_equal. now apply IH.
Qed.
Lemma gives_types n : forall k i s, (i + k <= n)%nat -> types_inv n i s -> gives (read_event_types k (N.of_nat i) s) (types_inv n (i + k)).
Proof.
  induction k as [|k IH]; intros i s K T; cbn [read_event_types].
  - apply gives_ret. now rewrite Nat.add_0_r.
  - eapply (gives_bind _ _ (types_inv n (S i))).
    + unfold read_event_type. go. eapply gives_bind; [apply gives_str; reflexivity|]. intros name Hn.
      rewrite Nat2N.id. destruct (nth_error (fs_attrs s) i) as [at0|] eqn:E; [|apply gives_fail]. go.
      destruct T as (D1 & D2 & D3 & D4 & D5 & D6 & D7 & D8). unfold types_inv. rewrite put_types_serializer.
      destruct s as [x0 x1 x2 x3 x4 x5 x6 x7 x8 x9 x10 x11 x12]. cbn [put_types fs_mask fs_meta fs_builds fs_events fs_attrs fs_types] in *.
      repeat (split; [assumption|]). split; [|exact D8]. rewrite (firstn_next _ _ _ E). apply named_snoc; [exact D7|]. now split.
    + intros s' T'. replace (N.of_nat i + 1) with (N.of_nat (S i)) by lia. replace (i + S k)%nat with (S i + k)%nat by lia. apply IH; [lia|exact T'].
Qed.
Lemma start_meta : meta_inv 1 (fs_meta fs_new).
Proof.
  constructor; try (unfold part; cbn; try (destruct (N.testbit M _)); reflexivity).
  - constructor.
  - intros ty. cbn [fs_meta fs_new fm_strings aget]. destruct (existsb _ _) eqn:E; [|reflexivity].
    cbn in E. replace (ty <? 1) with false; [reflexivity|]. symmetry. apply N.ltb_ge.
    rewrite !orb_true_iff, !N.eqb_eq in E. lia.
Qed.
Lemma gives_file_attrs h : N.testbit M 12 = false -> sc_size (fh_attrs h) <= len b -> sc_size (fh_types h) <= len b ->
  gives (rlet s := read_attrs_section h (put_mask M fs_new) in read_event_types_section h s) (state_inv 1).
Proof.
  intros B H1 H2. eapply (gives_bind _ _ (fun s => exists n, N.of_nat n < 2 ^ 31 /\ attrs_inv n s)).
  - unfold read_attrs_section. go. eapply gives_mono; [apply (gives_repeat read_attr attrs_inv) with (k := O)|].
    + intros n s. apply gives_attr.
    + repeat split; auto. constructor.
    + cbv beta. intros s S. exists (N.to_nat (sc_size (fh_attrs h) / fh_attr_size h) + 0)%nat. split; [|exact S].
      assert (sc_size (fh_attrs h) / fh_attr_size h <= sc_size (fh_attrs h)).
      { match goal with H : negb (_ =? 0) = true |- _ => apply negb_true_iff, N.eqb_neq in H end. apply N.div_le_upper_bound; [assumption|]. nia. }
      lia.
  - intros s (n & Ln & D1 & D2 & D3 & D4 & D5 & D6 & D7 & D8). unfold read_event_types_section. cbv zeta.
    destruct (w32 _ =? 0) eqn:E.
    + apply gives_ret. constructor; auto; [rewrite D2; apply start_meta| |rewrite D3; constructor].
      constructor; auto; [congruence|]. unfold len. now rewrite D6.
    + go. match goal with H : (len (fs_attrs s) =? ?m) = true |- _ => apply N.eqb_eq in H; rename H into Hn; set (cnt := m) in * end.
      assert (Hc : N.to_nat cnt = n) by (rewrite <- Hn; unfold len; lia). rewrite Hc.
      eapply gives_mono; [apply (gives_types n n 0); [lia|]|].
      * repeat (split; [assumption|]). split; [rewrite D7; constructor|exact D8].
      * cbv beta. intros s' (G1 & G2 & G3 & G4 & G5 & G6 & G7 & G8). cbn [Nat.add] in G7. rewrite firstn_all2 in G7 by lia.
        constructor; auto; [rewrite G2; apply start_meta| |rewrite G3; constructor].
        constructor; auto; [congruence|]. unfold len. now rewrite G6.
Qed.
Lemma start_inv : state_inv 1 (put_mask M fs_new).
Proof.
  constructor; [reflexivity|exact start_meta| |constructor|reflexivity].
  constructor; [auto|constructor|reflexivity|right; constructor|reflexivity].
Qed.
End Reading.
