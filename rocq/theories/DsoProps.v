(** C71: files are their bytes, and the build ids read from them. *)
From Coq Require Import String Permutation.
From Verif Require Import Base BytesModel BytesProofs BytesMoreProofs TextModel Assoc BufferModel BufferSpec HugePageProofs
  ReaderOpsModel ReaderOpsSpec ReaderOpsProofs ParserModel DsoModel DsoSpec DsoProofs DsoFindProofs.
Local Open Scope N_scope.
Local Open Scope list_scope.
Local Notation length := List.length.

(** C71. Whoever reads a file through a FileReader, seeking and reading in any way,
    gets every answer, and so every result, that reading its bytes in memory through a
    BufferReader gives; no call does anything but work or fail. *)
Theorem C71_file_is_its_bytes {A} (c : client A) (bytes : list N) :
  len bytes < two63 -> words c ->
  exists a, run_on_file c (fr_open bytes true) = Some a /\ run_on_memory c bytes = Some a.
Proof.
  intros L W. destruct (run_alike c bytes L W _ _ (open_alike bytes)) as [E (a & R)].
  exists a. split; [exact R|]. unfold run_on_memory. rewrite E. exact R.
Qed.
Print Assumptions C71_file_is_its_bytes.

(** A client that seeks, reads a number, then a string of that length. *)
Definition ex_client : client (option (list N)) :=
  Seek 2 (fun _ => Data 1 (fun a => match a with
                                   | Some [n] => Str n (fun s => Tell (fun t => Done (option_map (fun s => t :: s) s)))
                                   | _ => Done None
                                   end)).
Example C71_client_nontrivial :
  run_on_file ex_client (fr_open [9; 9; 3; 65; 0; 66; 7] true) = Some (Some [6; 65]) /\
  run_on_memory ex_client [9; 9; 3; 65; 0; 66; 7] = Some (Some [6; 65]) /\
  run_on_file ex_client (fr_open [9; 9; 4; 65] true) = Some None.
Proof. vm_compute. repeat split. Qed.

(** C71. Also when the file changes after it was opened, what is read is what the file
    holds: all the bytes asked for, from the position, or a failure. *)
Theorem C71_changed_file (r : file_reader) (n : N) :
  n < two64 -> fr_pos r < two64 -> fr_size r < two64 ->
  match fr_read_data n r with
  | (Ok d, r') => (exists pre post, fr_bytes r = pre ++ d ++ post /\ (d <> [] -> len pre = fr_pos r)) /\
                  len d = n /\ fr_pos r' = fr_pos r + n
  | (Fail, _) => fr_seekable r = false \/ fr_size r < fr_pos r + n \/ len (fr_bytes r) < fr_pos r + n
  | _ => False
  end.
Proof.
  intros Hn Hp Hs. unfold fr_read_data. destruct (fr_seekable r); cbn [negb]; [|now left].
  destruct ((max64 - n <? fr_pos r) || (fr_size r <? w64 (fr_pos r + n))) eqn:C.
  - right. left. destruct (N.lt_ge_cases (fr_pos r + n) two64) as [H|H]; [|lia].
    rewrite w64_small in C by exact H. unfold max64, two64 in *. lia.
  - cbv zeta. destruct (len (slice (fr_bytes r) (fr_pos r) n) <? n) eqn:E.
    + right. right. destruct (N.lt_ge_cases (len (fr_bytes r)) (fr_pos r + n)) as [H|H]; [exact H|].
      rewrite len_slice in E by exact H. lia.
    + assert (Q : len (slice (fr_bytes r) (fr_pos r) n) = n).
      { apply N.ltb_ge in E. apply N.le_antisymm; [|exact E]. unfold slice, len. rewrite firstn_length. lia. }
      split; [|split; [exact Q|cbn [fr_pos fr_set_pos]; now rewrite Q]].
      destruct (N.le_gt_cases (fr_pos r + n) (len (fr_bytes r))) as [H|H].
      * eexists _, _. split; [exact (BytesProofs.slice_split _ _ _ H)|]. intros _.
        unfold len in *. rewrite firstn_length. lia.
      * assert (N0 : n = 0).
        { rewrite <- Q. revert Q. unfold slice, len in *. rewrite firstn_length, skipn_length. lia. }
        subst n. exists [], (fr_bytes r). split; [reflexivity|intros X; exfalso; apply X; reflexivity].
Qed.
Print Assumptions C71_changed_file.

Example C71_changed_nontrivial :
  fst (fr_read_data 2 (mkFR [1; 2; 3] true 1 5)) = Ok [2; 3] /\
  fst (fr_read_data 3 (mkFR [1; 2; 3] true 1 5)) = Fail.
Proof. vm_compute. split; reflexivity. Qed.

(** C71. FileToBuffer gives the bytes of a file and fails if there is none. *)
Theorem C71_file_to_buffer (fs : file_system) (path : list N) :
  (fs path = None -> file_to_buffer fs path = Fail) /\
  (forall n, fs path = Some n -> nd_seekable n = true -> len (nd_bytes n) < two63 ->
     file_to_buffer fs path = Ok (nd_bytes n)).
Proof.
  unfold file_to_buffer. split; [now intros ->|]. intros n -> S L. rewrite S.
  unfold fr_open. cbn [fr_size].
  replace (two63 - 1 <? len (nd_bytes n)) with false by (unfold two63 in *; lia).
  destruct (len (nd_bytes n) =? 0) eqn:Z.
  - apply N.eqb_eq in Z. destruct (nd_bytes n); [reflexivity|]. unfold len in Z. cbn in Z. lia.
  - unfold fr_read_data. cbn [fr_seekable fr_pos fr_size fr_bytes negb].
    rewrite N.add_0_l, w64_small by (unfold two63, two64 in *; lia).
    replace ((max64 - len (nd_bytes n) <? 0) || (len (nd_bytes n) <? len (nd_bytes n))) with false by lia.
    cbv zeta. rewrite len_slice by lia. rewrite N.ltb_irrefl. cbn [fst].
    unfold slice. cbn [N.to_nat skipn]. unfold len. now rewrite Nat2N.id, firstn_all.
Qed.
Print Assumptions C71_file_to_buffer.

(** C71, finding: the size of a pipe is taken to be 2^64 - 1, as ftell fails; reading
    one into a buffer ends the program with an exception, and nothing can be read from
    one through a FileReader. *)
Theorem C71_pipe_refuted :
  (forall fs path n, fs path = Some n -> nd_seekable n = false -> file_to_buffer fs path = Abort) /\
  (forall bytes n, fr_read_data n (fr_open bytes false) = (Fail, fr_open bytes false)).
Proof.
  split; [|reflexivity]. intros fs path n E S. unfold file_to_buffer. rewrite E, S. reflexivity.
Qed.
Print Assumptions C71_pipe_refuted.

(** C71. ReadBuildIdNote on notes as they are stored, from memory or from a file: the
    description of the first GNU build-id note, with its padding; false if there is
    none. Behind that note anything may follow. *)
Theorem C71_notes (ns : list note) (tail : list N) :
  Forall note_ok ns -> len (flat_map stored_note ns ++ tail) < two63 ->
  bytes_ok (flat_map stored_note ns ++ tail) = true ->
  let b := flat_map stored_note ns ++ tail in
  file_build_id b true = buffer_build_id b /\
  (forall n, first_build_id ns n -> buffer_build_id b = Ok (n_desc n ++ padding (n_desc n))) /\
  (Forall (fun n => ~ gnu_build_id n) ns -> len tail < 12 -> buffer_build_id b = Fail).
Proof.
  intros K L B b. split; [exact (file_buffer b L B)|].
  apply (notes_buffer ns K (S (length b)) [] tail (mkReader b 0 false)); try reflexivity; try exact L.
  unfold b. rewrite app_length. lia.
Qed.
Print Assumptions C71_notes.

(** C71. Whatever the bytes are, it ends, and finds nothing or a part of them. *)
Theorem C71_any_notes (b : list N) :
  len b < two63 -> bytes_ok b = true ->
  (file_build_id b true = Fail \/
   exists d l1 l2, file_build_id b true = Ok d /\ b = l1 ++ d ++ l2) /\
  file_build_id b false = Fail.
Proof.
  intros L B. split; [|reflexivity]. rewrite file_buffer by assumption. pose proof (buffer_cut b L) as C.
  destruct (buffer_build_id b); try contradiction; [|now left].
  right. destruct C as (l1 & l2 & C). eauto 6.
Qed.
Print Assumptions C71_any_notes.

(** C71. The notes of a section of an ELF file: the description without padding. *)
Theorem C71_elf_note (ns : list note) (tail : list N) :
  Forall note_ok ns -> len (flat_map stored_note ns ++ tail) < two63 ->
  let d := flat_map stored_note ns ++ tail in
  (forall n, first_build_id ns n -> section_build_id (S (length d)) d 0 = Ok (n_desc n)) /\
  (Forall (fun n => ~ gnu_build_id n) ns -> len tail < 12 -> section_build_id (S (length d)) d 0 = Fail).
Proof.
  intros K L d. apply (notes_section ns K (S (length d)) [] tail); [reflexivity|exact L|].
  unfold d. rewrite app_length. lia.
Qed.
Print Assumptions C71_elf_note.

(** C71. Whatever a section holds, looking for its build id ends, reads nothing outside
    it, and finds nothing or a part of it. *)
Theorem C71_any_section (d : list N) :
  len d < two63 ->
  section_build_id (S (length d)) d 0 = Fail \/
  exists b l1 l2, section_build_id (S (length d)) d 0 = Ok b /\ d = l1 ++ b ++ l2.
Proof.
  intros L. pose proof (section_cut d L) as C.
  destruct (section_build_id _ _ _); try contradiction; [|now left].
  right. destruct C as (l1 & l2 & C). eauto 6.
Qed.
Print Assumptions C71_any_section.

(** C71. Which section: the first called .note.gnu.build-id; if there is none the first
    called .notes; if there is none the first called .note. *)
Theorem C71_section (l : list (option (list N) * option (list N))) :
  Forall (fun s => fst s <> None) l ->
  elf_build_id (Sections l) =
  match (match section_named (str ".note.gnu.build-id") l with
         | Some d => Some d
         | None => match section_named (str ".notes") l with
                   | Some d => Some d
                   | None => section_named (str ".note") l
                   end
         end) with
  | Some (Some d) => section_build_id (S (length d)) d 0
  | _ => Fail
  end.
Proof.
  intros F. cbn [elf_build_id]. unfold note_sections.
  destruct (find_sections (str ".note.gnu.build-id") (str ".notes") (str ".note") l F None) as (_ & _ & ->).
  unfold orelse. destruct (section_named (str ".note.gnu.build-id") l); [reflexivity|].
  destruct (section_named (str ".notes") l); [reflexivity|].
  now destruct (section_named (str ".note") l).
Qed.
Print Assumptions C71_section.

(** C71. The build id looked up for a file that is not a part of the kernel: the one of
    the first path that has one, among the file as seen by each of the threads that had
    samples in it and their processes, in order, and then by the program itself; a file
    with another device or inode than was recorded is passed over. *)
Theorem C71_search (fs : file_system) (libelf : list N -> elf) (name : list N) (d : dso) :
  ~ kernel_part name -> (forall m, ~ module_name m name) ->
  exists threads, in_thread_order threads /\ Forall (fun pt => snd pt < 2 ^ 32) threads /\
    Permutation (map (fun pt => fst pt * 2 ^ 32 + snd pt) threads) (d_threads d) /\
    (first_given fs libelf d (paths name threads) (find_dso_build_id fs libelf name d) \/
     (find_dso_build_id fs libelf name d = [] /\
      forall q b, In q (paths name threads) -> ~ gives fs libelf d q b)).
Proof.
  intros K M. destruct (threads_ok d) as (ths & E & T1 & T2 & T3). exists ths.
  split; [exact T1|]. split; [exact T3|]. split; [exact T2|].
  rewrite (find_ordinary fs libelf d name K M), <- E.
  pose proof (first_some_spec fs libelf d (paths name ths)) as S.
  destruct (first_some fs libelf d (paths name ths)); [now left|now right].
Qed.
Print Assumptions C71_search.

(** C71. For a kernel module it is the one in its notes; for the other parts of the
    kernel nothing is looked up. *)
Theorem C71_kernel (fs : file_system) (libelf : list N -> elf) (name : list N) (d : dso) :
  (kernel_part name -> find_dso_build_id fs libelf name d = []) /\
  (forall m, ~ kernel_part name -> module_name m name ->
     find_dso_build_id fs libelf name d =
     match fs (str "/sys/module/" ++ m ++ str "/notes/.note.gnu.build-id") with
     | None => []
     | Some n => match file_build_id (nd_bytes n) (nd_seekable n) with Ok b => b | _ => [] end
     end).
Proof.
  unfold find_dso_build_id. split.
  - intros K. apply kernel_iff in K. now rewrite K.
  - intros m K M. destruct (is_kernel_non_module name) eqn:E; [exfalso; now apply K, kernel_iff|].
    assert (B := proj2 (bracketed name) (ex_intro _ m M)). rewrite B.
    unfold module_name in M. subst name. rewrite unbracket.
    unfold read_module_build_id, module_note_path. now destruct (fs _).
Qed.
Print Assumptions C71_kernel.

(** C71. What FillInDsoBuildIds leaves: it succeeds; a DSO that had samples, when
    missing ids are to be read and one is found, has the one found, also if another was
    recorded, and so has the reader, in 40 digits; every other DSO has the one recorded,
    and the reader keeps it; nothing else of the reader changes. *)
Theorem C71_fill (fs : file_system) (libelf : list N -> elf) (read_missing : bool)
        (dsos : list (list N * dso)) (p : rproto) :
  files_of_bytes fs -> sections_of_bytes libelf ->
  (forall f d, aget list_eqb f dsos = Some d -> ~ In 0 f) ->
  exists dsos' p', fill_in_build_ids fs libelf read_missing dsos p = (true, dsos', p') /\
    same_but_builds p p' /\
    (forall f, aget list_eqb f dsos = None -> aget list_eqb f dsos' = None /\
       aget list_eqb f (filenames_to_build_ids p') = aget list_eqb f (filenames_to_build_ids p)) /\
    (forall f d, aget list_eqb f dsos = Some d ->
       let b := find_dso_build_id fs libelf f d in
       if read_missing && d_hit d && negb (list_eqb b []) then
         aget list_eqb f dsos' = Some (set_build (raw_to_hex b) d) /\
         aget list_eqb f (filenames_to_build_ids p') = Some (perfize_build_id (raw_to_hex b))
       else
         aget list_eqb f (filenames_to_build_ids p') = aget list_eqb f (filenames_to_build_ids p) /\
         aget list_eqb f dsos' = Some (match aget list_eqb f (filenames_to_build_ids p) with
                                       | Some r => set_build r d | None => d end)).
Proof.
  intros Ff Fs Z. destruct (fill_spec fs libelf Ff Fs read_missing dsos p Z) as (ds & p' & E & S & H).
  exists ds, p'. split; [exact E|]. split; [exact S|]. split.
  - intros f A. specialize (H f). rewrite A in H. exact H.
  - intros f d A. specialize (H f). rewrite A in H. destruct H as [H1 H2]. cbv zeta.
    unfold found_id, recorded_dso in H1, H2.
    destruct (read_missing && d_hit d); [|cbn [andb]; auto].
    destruct (find_dso_build_id fs libelf f d) as [|x b]; [cbn [list_eqb negb andb]; auto|].
    cbn [list_eqb negb andb]. auto.
Qed.
Print Assumptions C71_fill.

(** ** A concrete system *)

(** An ELF file is taken to be its note section, for these examples. *)
Definition ex_libelf (b : list N) : elf :=
  match b with
  | [] => ElfError
  | _ => if bytes_ok b then if len b <? two63
         then Sections [(Some (str ".text"), Some [1]); (Some (str ".notes"), Some b)]
         else NotElf else NotElf
  end.
Definition ex_id : list N := [171; 205; 1; 2; 3; 4].
Definition ex_notes : list N :=
  flat_map stored_note [mkNote 1 (str "GNU" ++ [0]) [0; 0; 0; 0];
                        mkNote 3 (str "GNU" ++ [0]) ex_id].
Definition ex_fs : file_system := fun path =>
  if list_eqb path (str "/proc/7/root//lib/a") then Some (mkNode 8 1 99 true ex_notes)
  else if list_eqb path (str "/lib/a") then Some (mkNode 8 1 50 true ex_notes)
  else if list_eqb path (str "/sys/module/snd/notes/.note.gnu.build-id") then Some (mkNode 0 3 4 true ex_notes)
  else None.
Definition ex_dso (maj ino : N) : dso := mkDso maj 1 ino true [7 * 2 ^ 32 + 9] [].

Example C71_hypotheses : files_of_bytes ex_fs /\ sections_of_bytes ex_libelf.
Proof.
  split.
  - intros path n. unfold ex_fs.
    destruct (list_eqb path _); [intros [= <-]; vm_compute; split; reflexivity|].
    destruct (list_eqb path _); [intros [= <-]; vm_compute; split; reflexivity|].
    destruct (list_eqb path _); [intros [= <-]; vm_compute; split; reflexivity|discriminate].
  - intros b l nm d. unfold ex_libelf. destruct b as [|x b]; [discriminate|].
    destruct (bytes_ok (x :: b)) eqn:B; [|discriminate]. destruct (len (x :: b) <? two63) eqn:L; [|discriminate].
    intros [= <-] [H|[H|[]]]; injection H as <- <-; [vm_compute; split; reflexivity|].
    apply N.ltb_lt in L. auto.
Qed.

Example C71_nontrivial :
  find_dso_build_id ex_fs ex_libelf (str "/lib/a") (ex_dso 8 99) = ex_id /\
  find_dso_build_id ex_fs ex_libelf (str "/lib/a") (ex_dso 8 50) = ex_id /\
  find_dso_build_id ex_fs ex_libelf (str "/lib/a") (ex_dso 8 51) = [] /\
  (let '(ok, ds, p) := fill_in_build_ids ex_fs ex_libelf true
       [(str "/lib/a", ex_dso 8 99); (str "/lib/b", ex_dso 0 0)]
       (mkRProto 0 [] true [] [mkRBuild 2 9 (str "/lib/a") None None [1; 2] false;
                               mkRBuild 2 9 (str "/lib/b") None None [3; 4] false]) in
   (ok, map (fun kv => d_build (snd kv)) ds, map rb_hash (rp_builds p)) =
   (true, [str "abcd01020304"; str "0304000000000000000000000000000000000000"], [ex_id; [3; 4]])).
Proof. vm_compute. repeat split. Qed.

(** C71, finding: the id of a kernel module has the padding of its note as a part, the
    id of any other file has not: the same notes give different ids. *)
Theorem C71_module_padding_refuted :
  find_dso_build_id ex_fs ex_libelf (str "[snd]") (ex_dso 0 0) = ex_id ++ [0; 0] /\
  find_dso_build_id ex_fs ex_libelf (str "/lib/a") (ex_dso 8 99) = ex_id.
Proof. vm_compute. split; reflexivity. Qed.
Print Assumptions C71_module_padding_refuted.

(** C71, finding: "only reject based on inode if we actually have device info" - but a
    device with major number 0 (overlay, tmpfs, btrfs and other file systems without a
    device of their own have these) counts as none, and any file of that name is taken. *)
Theorem C71_device_refuted :
  exists fs libelf name d path n b,
    files_of_bytes fs /\ sections_of_bytes libelf /\ d_min d <> 0 /\
    fs path = Some n /\ same_inode d n = false /\
    elf_build_id (libelf (nd_bytes n)) = Ok b /\
    find_dso_build_id fs libelf name d = b /\ b <> [].
Proof.
  destruct C71_hypotheses as [H1 H2].
  exists ex_fs, ex_libelf, (str "/lib/a"), (ex_dso 0 12345), (str "/proc/7/root//lib/a"),
    (mkNode 8 1 99 true ex_notes), ex_id.
  split; [exact H1|]. split; [exact H2|]. vm_compute. repeat split; discriminate.
Qed.
Print Assumptions C71_device_refuted.
