(** C30, C31: combining mappings and deducing huge pages
    (src/quipper/huge_page_deducer.cc). *)
From Coq Require Import String Permutation.
From Verif Require Import Base BytesModel TextModel Assoc HugePageModel HugePageSpec HugePageProofs HugePageDeduceProofs HugePageCombineProofs.
Local Open Scope N_scope.
Local Open Scope list_scope.

(** ** C30 *)

(** C30. Combining never fails. Only mmap events are dropped or changed, and those
    kept keep their time, process, start, protection, flags and device data. For
    each process, an address is covered after it iff it was before; and an address
    of a mapping that is no huge page stays in the same file at the same offset. *)
Theorem C30_translation_preserved (evs : list pevent) :
  Forall ends_in_memory evs -> exists res, combine_mappings evs = Ok res /\ thinned evs res /\
  forall k a, match owner k a evs with
    | None => owner k a res = None
    | Some m => exists m', owner k a res = Some m' /\
        (~ huge_name (v_file m) -> v_file m' = v_file m /\ offset m' a = offset m a)
    end.
Proof.
  intros H. destruct (combine_ok evs H) as (res & E & T & O). exists res. split; [exact E|]. split; [exact T|].
  intros k a. specialize (O k a). destruct (owner k a evs) as [m|]; [|exact O]. destruct O as (m' & O & P).
  exists m'. split; [exact O|]. intros NH. apply P. destruct (is_huge m) eqn:X; [|reflexivity].
  exfalso. apply NH. now apply huge_iff.
Qed.
Print Assumptions C30_translation_preserved.

(** C30. Mappings of device files are neither merged nor changed. *)
Theorem C30_devices_kept (evs res : list pevent) :
  combine_mappings evs = Ok res -> filter deviceb res = filter deviceb evs.
Proof. intros H. exact (combine_devices evs [] [] res H). Qed.
Print Assumptions C30_devices_kept.

(** C30. However a mapping that is neither anonymous nor of a device is cut into
    consecutive pieces, combining them gives back the whole mapping, in the event of
    the first piece. *)
Theorem C30_pieces_joined (m : vmap) (e : pevent) (n : N) (cuts : list (pevent * N)) :
  ~ anonymous (v_file m) -> starts_with (str "/dev/") (v_file m) = false ->
  v_start m + total ((e, n) :: cuts) < 2 ^ 64 -> v_pgoff m + total ((e, n) :: cuts) < 2 ^ 64 ->
  combine_mappings (pieces m 0 ((e, n) :: cuts)) = Ok [set_map (piece m 0 (total ((e, n) :: cuts))) e].
Proof.
  intros A0 D B1 B2. assert (A : is_anon m = false) by (destruct (is_anon m) eqn:X; [now apply anon_iff in X|reflexivity]).
  cbn [total fold_right snd] in *. unfold combine_mappings.
  cbn [pieces combine_loop e_map set_map aget app List.length aset].
  assert (P0 : piece m 0 n = set_len n m) by (unfold piece, set_len; now rewrite !N.add_0_r).
  assert (P1 : piece m 0 (n + fold_right (fun x a => snd x + a) 0 cuts) = set_len (n + fold_right (fun x a => snd x + a) 0 cuts) m)
    by (unfold piece, set_len; now rewrite !N.add_0_r).
  rewrite P0, P1, N.add_0_l.
  assert (PS : forall at_ l, pieces m at_ l = pieces (set_len 0 (set_len n m)) at_ l).
  { intros at_ l. revert at_. induction l as [|(e1, n1) l IH]; intros at_; [reflexivity|]. cbn [pieces]. now rewrite IH. }
  rewrite PS.
  change (set_map (set_len (n + fold_right (fun x a => snd x + a) 0 cuts) m) e)
    with (set_map (set_len (n + fold_right (fun x a => snd x + a) 0 cuts) (set_len n m)) (set_map (set_len n m) e)).
  apply (combine_pieces (key_of m)); try reflexivity; try assumption.
  - cbn. rewrite <- N.add_assoc. exact B1.
  - cbn. rewrite <- N.add_assoc. exact B2.
Qed.
Print Assumptions C30_pieces_joined.

(** Example data. *)
Definition vm (pid start len_ pgoff : N) (f : list N) : vmap :=
  {| v_pid := Some pid; v_start := start; v_len := len_; v_pgoff := pgoff; v_file := f; v_md5 := len f; v_build := None;
     v_prot := 5; v_flags := 2; v_maj := Some 8; v_min := Some 1; v_ino := Some 77; v_gen := Some 3 |}.
Definition mev (t : N) (m : vmap) : pevent :=
  {| e_time := t; e_size := 72 + aligned_string_length (len (v_file m)); e_map := Some m; e_other := 0 |}.
Definition oev (t n : N) : pevent := {| e_time := t; e_size := 8; e_map := None; e_other := n |}.

Definition split_exe : list pevent :=
  [mev 0 (vm 7 4096 4096 0 (str "/bin/ls")); mev 0 (vm 8 4096 4096 0 (str "/bin/cat")); oev 5 9;
   mev 0 (vm 7 8192 8192 4096 (str "/bin/ls")); mev 0 (vm 7 65536 4096 0 (str "/dev/zero"));
   mev 0 (vm 7 69632 4096 4096 (str "/dev/zero"))].
Example C30_split_exe :
  Forall ends_in_memory split_exe /\
  combine_mappings split_exe =
    Ok [mev 0 (vm 7 4096 12288 0 (str "/bin/ls")); mev 0 (vm 8 4096 4096 0 (str "/bin/cat")); oev 5 9;
        mev 0 (vm 7 65536 4096 0 (str "/dev/zero")); mev 0 (vm 7 69632 4096 4096 (str "/dev/zero"))] /\
  owner 7 9000 split_exe = Some (vm 7 8192 8192 4096 (str "/bin/ls")) /\
  option_map (fun m => offset m 9000) (owner 7 9000 split_exe) = Some 4904.
Proof. split; [repeat constructor|]. repeat split; vm_compute; reflexivity. Qed.

Example C30_three_pieces :
  combine_mappings (pieces (vm 7 4096 0 512 (str "/bin/ls")) 0 [(oev 0 1, 10); (oev 0 2, 20); (oev 0 3, 30)])
  = Ok [set_map (vm 7 4096 60 512 (str "/bin/ls")) (oev 0 1)].
Proof. vm_compute. reflexivity. Qed.

(** C30 does not hold event by event: a mapping merged into an earlier one is in
    force before events that preceded it. Here an address is not mapped at the
    time of event 9 before combining, but is afterwards. *)
Theorem C30_history_refuted :
  exists evs res i j k a, Forall ends_in_memory evs /\ combine_mappings evs = Ok res /\
    nth_error evs i = Some (oev 5 9) /\ nth_error res j = Some (oev 5 9) /\
    owner k a (firstn i evs) = None /\ owner k a (firstn j res) <> None.
Proof.
  exists split_exe, [mev 0 (vm 7 4096 12288 0 (str "/bin/ls")); mev 0 (vm 8 4096 4096 0 (str "/bin/cat")); oev 5 9;
        mev 0 (vm 7 65536 4096 0 (str "/dev/zero")); mev 0 (vm 7 69632 4096 4096 (str "/dev/zero"))], 2%nat, 2%nat, 7, 9000.
  split; [repeat constructor|]. split; [vm_compute; reflexivity|]. split; [reflexivity|]. split; [reflexivity|].
  split; [vm_compute; reflexivity|]. vm_compute. discriminate.
Qed.
Print Assumptions C30_history_refuted.

(** C30 needs mappings that end below 2^64: one that ends there is taken to be
    followed by one at address 0, and the addresses of the latter are lost. *)
Theorem C30_end_of_memory_refuted :
  exists evs res k a, combine_mappings evs = Ok res /\ Forall typed evs /\ owner k a evs <> None /\ owner k a res = None.
Proof.
  exists [mev 0 (vm 7 18446744073709547520 4096 0 (str "/x")); mev 0 (vm 7 0 4096 4096 (str "/x"))],
    [mev 0 (vm 7 18446744073709547520 8192 0 (str "/x"))], 7, 5.
  split; [vm_compute; reflexivity|]. split; [repeat constructor|]. split; [vm_compute; discriminate|vm_compute; reflexivity].
Qed.
Print Assumptions C30_end_of_memory_refuted.

(** ** C31 *)

(** C31. For all processes in any order, deduction never fails; it keeps the number
    and order of the events; and each event is unchanged, or is a huge page renamed
    after a later unchanged mapping of the same process that is no huge page. *)
Theorem C31_only_huge_pages_renamed (order : list N) (evs : list pevent) :
  NoDup order -> Forall typed evs ->
  exists evs', deduce order evs = Ok evs' /\ List.length evs' = List.length evs /\
    forall i e, nth_error evs i = Some e -> exists e', nth_error evs' i = Some e' /\ deduced evs evs' i e e'.
Proof. exact (deduce_ok order evs). Qed.
Print Assumptions C31_only_huge_pages_renamed.

(** C31. The result does not depend on the order in which the hash map delivers the
    processes. *)
Theorem C31_order_of_processes_irrelevant (order order' : list N) (evs : list pevent) :
  NoDup order -> Permutation order order' -> Forall typed evs -> deduce order evs = deduce order' evs.
Proof. exact (deduce_order order order' evs). Qed.
Print Assumptions C31_order_of_processes_irrelevant.

(** C31. Among the synthesized mappings of a process, a run of adjacent huge pages
    of one name at offset 0, with a mapping of a file right after it whose offset
    says that the run is the text of that file before it, is renamed after it. *)
Theorem C31_text_pages_renamed (k : N) (a : list (pevent * vmap)) (e : pevent) (m : vmap) (r : list (pevent * vmap))
    (en : pevent) (n : vmap) (b : list (pevent * vmap)) (base : N) :
  let l := a ++ ((e, m) :: r) ++ (en, n) :: b in
  k < 2 ^ 32 -> Forall typed (map fst l) -> (forall x, In x l -> synthesized k x) ->
  (forall x, In x ((e, m) :: r) -> huge_name (v_file (snd x)) /\ v_file (snd x) = v_file m /\ v_pgoff (snd x) = 0) ->
  adjoin (map snd ((e, m) :: r)) (v_start n) -> ~ huge_name (v_file n) ->
  (forall a' x, a = a' ++ [x] -> ~ huge_name (v_file (snd x))) ->
  base_offset (match rev a with [] => None | x :: _ => Some (snd x) end) (v_start m) n base ->
  v_pgoff n = base + (v_start n - v_start m) ->
  exists oa orr ob, deduce [k] (map fst l) = Ok (oa ++ orr ++ en :: ob) /\
    List.length oa = List.length a /\ Forall2 (fun x e' => renamed (fst x) (snd x) n e') ((e, m) :: r) orr.
Proof. exact (pages_renamed k a e m r en n b base). Qed.
Print Assumptions C31_text_pages_renamed.

Definition anon_exe : list pevent :=
  [mev 0 (vm 7 4096 4096 0 (str "/bin/ls")); mev 0 (vm 7 8192 4096 0 (str "//anon")); oev 5 9;
   mev 0 (vm 7 12288 8192 0 (str "//anon")); mev 0 (vm 7 20480 4096 16384 (str "/bin/ls"));
   mev 0 (vm 8 4096 4096 0 (str "/huge/ls.buildid_12ab")); mev 0 (vm 8 8192 4096 4096 (str "/bin/ls"))].
Example C31_anon_exe :
  NoDup [7; 8] /\ Forall typed anon_exe /\
  deduce [7; 8] anon_exe =
    Ok [mev 0 (vm 7 4096 4096 0 (str "/bin/ls")); mev 0 (vm 7 8192 4096 4096 (str "/bin/ls")); oev 5 9;
        mev 0 (vm 7 12288 8192 8192 (str "/bin/ls")); mev 0 (vm 7 20480 4096 16384 (str "/bin/ls"));
        mev 0 (vm 8 4096 4096 0 (str "/bin/ls")); mev 0 (vm 8 8192 4096 4096 (str "/bin/ls"))] /\
  deduce [8; 7] anon_exe = deduce [7; 8] anon_exe.
Proof.
  split; [repeat constructor; cbn; intuition discriminate|]. split; [repeat constructor|].
  split; vm_compute; reflexivity.
Qed.

(** The hypotheses of C31_text_pages_renamed: two anonymous pages between two parts
    of /bin/ls. *)
Example C31_text_pages_case :
  let x1 := vm 7 4096 4096 0 (str "/bin/ls") in let x2 := vm 7 8192 4096 0 (str "//anon") in
  let x3 := vm 7 12288 8192 0 (str "//anon") in let x4 := vm 7 20480 4096 16384 (str "/bin/ls") in
  (forall x, In x [(mev 0 x1, x1); (mev 0 x2, x2); (mev 0 x3, x3); (mev 0 x4, x4)] -> synthesized 7 x) /\
  huge_name (v_file x2) /\ adjoin [x2; x3] (v_start x4) /\ ~ huge_name (v_file x1) /\ ~ huge_name (v_file x4) /\
  base_offset (Some x1) (v_start x2) x4 4096 /\ v_pgoff x4 = 4096 + (v_start x4 - v_start x2).
Proof.
  cbv zeta. split; [|split; [|split; [|split; [|split; [|split]]]]].
  - intros x H. repeat (destruct H as [<-|H]; [repeat split; reflexivity|]). destruct H.
  - left. reflexivity.
  - vm_compute. auto.
  - intros H. pose proof (proj2 (huge_iff (vm 7 4096 4096 0 (str "/bin/ls"))) H) as X. vm_compute in X. discriminate X.
  - intros H. pose proof (proj2 (huge_iff (vm 7 20480 4096 16384 (str "/bin/ls"))) H) as X. vm_compute in X. discriminate X.
  - left. vm_compute. auto.
  - reflexivity.
Qed.

(** A huge page whose offset is not 0 keeps it, although it takes another file's
    name: two mappings of one file now put different offsets next to each other. *)
Theorem C31_offset_of_renamed_page_refuted :
  exists evs evs' m n, deduce [7] evs = Ok evs' /\ evs' = [mev 0 m; mev 0 n] /\ Forall typed evs /\
    v_file m = v_file n /\ v_start m + v_len m = v_start n /\ v_pgoff m + v_len m <> v_pgoff n /\
    exists m0, evs = [mev 0 m0; mev 0 n] /\ v_file m0 <> v_file m.
Proof.
  exists [mev 0 (vm 7 4096 8192 4096 (str "/huge/ls.buildid_12ab")); mev 0 (vm 7 12288 4096 8192 (str "/bin/ls"))],
    [mev 0 (vm 7 4096 8192 4096 (str "/bin/ls")); mev 0 (vm 7 12288 4096 8192 (str "/bin/ls"))],
    (vm 7 4096 8192 4096 (str "/bin/ls")), (vm 7 12288 4096 8192 (str "/bin/ls")).
  split; [vm_compute; reflexivity|]. split; [reflexivity|]. split; [repeat constructor|].
  split; [reflexivity|]. split; [reflexivity|]. split; [vm_compute; discriminate|].
  eexists. split; [reflexivity|]. vm_compute. discriminate.
Qed.
Print Assumptions C31_offset_of_renamed_page_refuted.

(** The code's comment says that mappings with a timestamp are skipped. They are
    not if they lie between two without one: here all that is renamed has one. *)
Theorem C31_timestamped_skipped_refuted :
  exists evs evs' e e', deduce [7] evs = Ok evs' /\ Forall typed evs /\
    nth_error evs 1 = Some e /\ e_time e <> 0 /\ nth_error evs' 1 = Some e' /\ e' <> e.
Proof.
  exists [mev 0 (vm 7 4096 4096 0 (str "/lib/a.so")); mev 5 (vm 7 65536 4096 0 (str "//anon"));
          mev 6 (vm 7 69632 4096 4096 (str "/bin/ls")); mev 0 (vm 7 131072 4096 0 (str "/lib/b.so"))].
  do 3 eexists. split; [vm_compute; reflexivity|]. split; [repeat constructor|]. split; [reflexivity|].
  split; [vm_compute; discriminate|]. split; [reflexivity|]. vm_compute. discriminate.
Qed.
Print Assumptions C31_timestamped_skipped_refuted.
