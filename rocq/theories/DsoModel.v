(** Reading files and the build ids of the objects that samples fell into:
    src/quipper/{file_reader,file_utils,dso}.cc and FillInDsoBuildIds of
    src/quipper/perf_parser.cc. *)
From Coq Require Import String.
From Verif Require Import Base BytesModel TextModel Assoc BufferModel ReaderOpsModel ParserModel.
Local Open Scope N_scope.
Local Open Scope list_scope.
Local Notation length := List.length.

(** ** FileReader *)

(** file_reader.h:15-40: the stream and size_. The stream: the bytes behind it, whether
    its position can be asked for and set (a pipe's cannot), and the position. The
    bytes may differ from those there were when size_ was determined. *)
Record file_reader := mkFR {
  fr_bytes : list N; fr_seekable : bool; fr_pos : N; fr_size : N }.
Definition fr_set_pos (o : N) (r : file_reader) : file_reader :=
  mkFR (fr_bytes r) (fr_seekable r) o (fr_size r).

(** file_reader.cc:16-29, the constructor for a file that can be opened. For a pipe
    ftell gives -1, which size_t makes 2^64 - 1. *)
Definition fr_open (bytes : list N) (seekable : bool) : file_reader :=
  mkFR bytes seekable 0 (if seekable then len bytes else max64).

(** file_reader.cc:37-48, SeekSet. *)
Definition fr_seek (o : N) (r : file_reader) : outcome unit * file_reader :=
  if fr_size r <? o then (Fail, r)
  else if fr_seekable r then (Ok tt, fr_set_pos o r)
  else (Fail, r).

(** file_reader.h:24, Tell. *)
Definition fr_tell (r : file_reader) : N := if fr_seekable r then fr_pos r else max64.

(** file_reader.cc:50-63, ReadData; fread moves over the bytes there are, also when
    they are too few. *)
Definition fr_read_data (size : N) (r : file_reader) : outcome (list N) * file_reader :=
  if negb (fr_seekable r) then (Fail, r)
  else if (max64 - size <? fr_pos r) || (fr_size r <? w64 (fr_pos r + size)) then (Fail, r)
  else
    let d := slice (fr_bytes r) (fr_pos r) size in
    let r := fr_set_pos (fr_pos r + len d) r in
    if len d <? size then (Fail, r) else (Ok d, r).

(** data_reader.cc:15-29, ReadDataString, as for a BufferReader. *)
Definition fr_read_data_string (size : N) (r : file_reader) : outcome (list N) * file_reader :=
  if size =? 0 then (Ok [], r)
  else if two63 - 1 <? size then (Fail, r)
  else fr_read_data size r.

(** file_reader.cc:65-72, ReadString. *)
Definition fr_read_string (size : N) (r : file_reader) : outcome (list N) * file_reader :=
  match fr_read_data_string size r with
  | (Ok d, r) => (Ok (firstn (N.to_nat (strnlen d)) d), r)
  | x => x
  end.

(** What a path leads to: nothing that can be opened, or a file with its device,
    inode and bytes; pipes have no bytes that can be asked for by position. *)
Record node := mkNode {
  nd_maj : N; nd_min : N; nd_ino : N; nd_seekable : bool; nd_bytes : list N }.
Definition file_system := list N -> option node.

(** file_utils.cc:15-28, FileToBuffer. resize beyond the maximal size of a vector
    (2^63 - 1) throws std::length_error, which nothing catches. *)
Definition file_to_buffer (fs : file_system) (path : list N) : outcome (list N) :=
  match fs path with
  | None => Fail
  | Some n =>
      let r := fr_open (nd_bytes n) (nd_seekable n) in
      if two63 - 1 <? fr_size r then Abort
      else if fr_size r =? 0 then Ok []
      else fst (fr_read_data (fr_size r) r)
  end.

(** ** Notes *)

(** elf.h, Elf64_Nhdr (GElf_Nhdr): three words of 32 bits, in the order of bytes of
    this machine. *)
Definition note_word (i : nat) (h : list N) : N := of_le (firstn 4 (skipn (4 * i) h)).

(** elf.h: NT_GNU_BUILD_ID and ELF_NOTE_GNU. *)
Definition is_build_id_note (type : N) (name : list N) : bool :=
  (type =? 3) && list_eqb name (str "GNU").

Section NoteReader.
Context {R : Type}.
(** The DataReader the notes are read from. *)
Variables read_data read_string read_data_string : N -> R -> outcome (list N) * R.

(** dso.cc:144-161, ReadBuildIdNote. [Fail]: the result is false. Every round reads
    12 bytes, so rounds are bounded by the size of the data: [fuel]. *)
Fixpoint read_build_id_note (fuel : nat) (r : R) : outcome (list N) :=
  match fuel with
  | O => Hang
  | S fuel =>
      match read_data 12 r with
      | (Ok h, r) =>
          let name_size := align 4 (note_word 0 h) in
          let desc_size := align 4 (note_word 1 h) in
          match read_string name_size r with
          | (Ok name, r) =>
              match read_data_string desc_size r with
              | (Ok desc, r) =>
                  if is_build_id_note (note_word 2 h) name then Ok desc
                  else read_build_id_note fuel r
              | (o, _) => o
              end
          | (o, _) => o
          end
      | (o, _) => o
      end
  end.
End NoteReader.

(** ReadBuildIdNote on memory and on a file. *)
Definition buffer_build_id (bytes : list N) : outcome (list N) :=
  read_build_id_note read_data read_string read_data_string (S (length bytes))
    (mkReader bytes 0 false).
Definition file_build_id (bytes : list N) (seekable : bool) : outcome (list N) :=
  read_build_id_note fr_read_data fr_read_string fr_read_data_string (S (length bytes))
    (fr_open bytes seekable).

(** dso.cc:133-142, ReadModuleBuildId. *)
Definition module_note_path (name : list N) : list N :=
  str "/sys/module/" ++ name ++ str "/notes/.note.gnu.build-id".
Definition read_module_build_id (fs : file_system) (name : list N) : outcome (list N) :=
  match fs (module_note_path name) with
  | None => Fail
  | Some n => file_build_id (nd_bytes n) (nd_seekable n)
  end.

(** ** ELF files *)

(** What libelf makes of the bytes of a file: elf_begin fails, or it is not an ELF file
    with a table of section names, or its sections in order: the name (None: not
    readable) and the data (None: not readable). *)
Inductive elf :=
| ElfError | NotElf | Sections (l : list (option (list N) * option (list N))).

(** std::find in a vector of names: the place of the name, or the end. *)
Fixpoint place (n : list N) (names : list (list N)) : nat :=
  match names with
  | [] => 0
  | m :: r => if list_eqb m n then 0 else S (place n r)
  end.

(** dso.cc:37-57: the loop of FindElfSection; the data of the section found. *)
Fixpoint find_elf_section (names : list (list N)) (best : nat) (found : option (option (list N)))
         (l : list (option (list N) * option (list N))) : option (option (list N)) :=
  match l with
  | [] => found
  | (None, _) :: _ => None
  | (Some n, d) :: r =>
      let k := place n names in
      if Nat.ltb k best
      then if Nat.eqb k 0 then Some d else find_elf_section names k (Some d) r
      else find_elf_section names best found r
  end.

(** libelf, gelf_getnote (from its documentation and source; notes aligned to 4):
    the header, where name and description are, and where the next note is. None: no
    further note. *)
Definition gelf_getnote (d : list N) (off : N) : option (list N * N * N * N) :=
  if (len d <? off) || (len d - off <? 12) then None
  else
    let h := slice d off 12 in
    let name_off := off + 12 in
    if (len d <? note_word 0 h) || (len d - note_word 0 h <? name_off) then None
    else
      let desc_off := align 4 (name_off + note_word 0 h) in
      if (len d <? note_word 1 h) || (len d - note_word 1 h <? desc_off) then None
      else Some (h, name_off, desc_off, align 4 (desc_off + note_word 1 h)).

(** dso.cc:78-95: the loop of GetBuildID over the notes of a section. *)
Fixpoint section_build_id (fuel : nat) (d : list N) (off : N) : outcome (list N) :=
  match fuel with
  | O => Hang
  | S fuel =>
      match gelf_getnote d off with
      | None => Fail
      | Some (h, name_off, desc_off, next) =>
          let! raw := mem_read d name_off (note_word 0 h) in
          let! desc := mem_read d desc_off (note_word 1 h) in
          if is_build_id_note (note_word 2 h) (firstn (N.to_nat (strnlen raw)) raw) then Ok desc
          else section_build_id fuel d next
      end
  end.

(** dso.cc:67-68. *)
Definition note_sections : list (list N) :=
  [str ".note.gnu.build-id"; str ".notes"; str ".note"].

(** dso.cc:60-98 and 116-131, GetBuildID and ReadElfBuildId. *)
Definition elf_build_id (e : elf) : outcome (list N) :=
  match e with
  | ElfError | NotElf => Fail
  | Sections l =>
      match find_elf_section note_sections 3 None l with
      | Some (Some d) => section_build_id (S (length d)) d 0
      | _ => Fail
      end
  end.

(** ** Which file *)

(** dso.cc:163-176, IsKernelNonModuleName. *)
Definition kernel_names : list (list N) :=
  [str "[kernel.kallsyms]"; str "[guest.kernel.kallsyms"; str "[vdso]"; str "[vsyscall]"].
Definition is_kernel_non_module (name : list N) : bool :=
  existsb (fun n => list_eqb (firstn (length n) name) n) kernel_names.

(** dso.cc:178-182, SameInode. *)
Definition same_inode (d : dso) (n : node) : bool :=
  (d_maj d =? nd_maj n) && (d_min d =? nd_min n) && (d_ino d =? nd_ino n).

Section Find.
Variables (fs : file_system) (libelf : list N -> elf).

(** perf_parser.cc:362-377, ReadElfBuildIdIfSameInode; fstat of an open file does not
    fail. None: false. A note loop that ends abnormally does not occur
    (C71_any_section). *)
Definition build_id_if_same_inode (path : list N) (d : dso) : option (list N) :=
  match fs path with
  | None => None
  | Some n =>
      if negb (d_maj d =? 0) && negb (d_min d =? 0) && negb (same_inode d n) then None
      else match elf_build_id (libelf (nd_bytes n)) with Ok b => Some b | _ => None end
  end.

(** perf_parser.cc:402-404 and 412-414: the file as a process or thread sees it. *)
Definition proc_path (id : N) (name : list N) : list N :=
  str "/proc/" ++ print_dec id ++ str "/root/" ++ name.

(** perf_parser.cc:398-420, the loop over the threads. *)
Fixpoint try_threads (name : list N) (d : dso) (last_pid : N) (ts : list N) : option (list N) :=
  match ts with
  | [] => None
  | t :: r =>
      let '(pid, tid) := split_u64 t in
      match build_id_if_same_inode (proc_path tid name) d with
      | Some b => Some b
      | None =>
          if (pid =? last_pid) || (pid =? tid) then try_threads name d last_pid r
          else match build_id_if_same_inode (proc_path pid name) d with
               | Some b => Some b
               | None => try_threads name d pid r
               end
      end
  end.

(** std::sort of numbers. *)
Fixpoint insert_number (x : N) (l : list N) : list N :=
  match l with
  | [] => [x]
  | y :: r => if x <=? y then x :: l else y :: insert_number x r
  end.
Definition sort_numbers (l : list N) : list N := fold_right insert_number [] l.

(** perf_parser.cc:379-426, FindDsoBuildId; empty: none was found. *)
Definition find_dso_build_id (name : list N) (d : dso) : list N :=
  if is_kernel_non_module name then []
  else if (2 <=? len name) && (hd 0 name =? 91) && (last name 0 =? 93) then
    match read_module_build_id fs (removelast (tl name)) with Ok b => b | _ => [] end
  else
    match try_threads name d 0 (sort_numbers (d_threads d)) with
    | Some b => b
    | None => match build_id_if_same_inode name d with Some b => b | None => [] end
    end.

(** The entries of a map given as an association list: the newest of each key. *)
Fixpoint entries {V} (seen : list (list N)) (m : list (list N * V)) : list (list N * V) :=
  match m with
  | [] => []
  | (k, v) :: r =>
      if mem_by list_eqb k seen then entries seen r else (k, v) :: entries (k :: seen) r
  end.

(** [m[k] = v] for a std::map of strings: sorted by key. *)
Fixpoint map_set (k v : list N) (m : list (list N * list N)) : list (list N * list N) :=
  match m with
  | [] => [(k, v)]
  | (k', v') :: r =>
      if string_less k k' then (k, v) :: m
      else if list_eqb k k' then (k, v) :: r
      else (k', v') :: map_set k v r
  end.

Definition set_build (b : list N) (d : dso) : dso :=
  mkDso (d_maj d) (d_min d) (d_ino d) (d_hit d) (d_threads d) b.

(** perf_parser.cc:433-451, one round of the loop of FillInDsoBuildIds: the DSO
    afterwards and the id put into new_buildids. *)
Definition fill_one (read_missing : bool) (recorded : list (list N * list N))
           (name : list N) (d : dso) : dso * option (list N) :=
  let d := match aget list_eqb name recorded with Some b => set_build b d | None => d end in
  if read_missing && d_hit d then
    match find_dso_build_id name d with
    | [] => (d, None)
    | b => (set_build (raw_to_hex b) d, Some (raw_to_hex b))
    end
  else (d, None).

(** perf_parser.cc:428-455, FillInDsoBuildIds: its result, the DSOs and the reader. The
    order in which the DSOs are visited does not matter, as new_buildids is sorted. *)
Definition fill_in_build_ids (read_missing : bool) (dsos : list (list N * dso)) (p : rproto)
  : bool * list (list N * dso) * rproto :=
  let recorded := filenames_to_build_ids p in
  let done := map (fun kv => (fst kv, fill_one read_missing recorded (fst kv) (snd kv)))
                  (entries [] dsos) in
  let dsos := map (fun x => (fst x, fst (snd x))) done in
  let new := fold_left (fun acc x => match snd (snd x) with
                                     | Some b => map_set (fst x) b acc
                                     | None => acc
                                     end) done [] in
  match new with
  | [] => (true, dsos, p)
  | _ => let '(ok, p) := inject_build_ids new p in (ok, dsos, p)
  end.
End Find.
