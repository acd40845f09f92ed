(** Independent vocabulary for reading files and for the build ids of DSOs. *)
From Coq Require Import String.
From Verif Require Import Base BytesModel TextModel Assoc BufferModel BufferSpec ParserModel DsoModel.
Local Open Scope N_scope.
Local Open Scope list_scope.
Local Notation length := List.length.

(** ** Clients of a reader *)

(** Anything that uses a reader: it seeks, asks for the position and the size, and
    reads, and what it does next depends on the answers in any way. At the end it
    gives a result. *)
Inductive client (A : Type) :=
| Done (a : A)
| Seek (o : N) (k : bool -> client A)
| Tell (k : N -> client A)
| Size (k : N -> client A)
| Data (n : N) (k : option (list N) -> client A)
| Str (n : N) (k : option (list N) -> client A)
| DataStr (n : N) (k : option (list N) -> client A).
Arguments Done {A}. Arguments Seek {A}. Arguments Tell {A}. Arguments Size {A}.
Arguments Data {A}. Arguments Str {A}. Arguments DataStr {A}.

(** The answer of a call that worked or failed. None: it did neither. *)
Definition answer {A} (x : outcome A) : option (option A) :=
  match x with Ok a => Some (Some a) | Fail => Some None | _ => None end.

(** Running a client on a reader of any kind, given by its calls. None: a call neither
    worked nor failed. *)
Section Run.
Context {R A : Type}.
Variables (seek : N -> R -> outcome unit * R) (tell size : R -> N)
          (rd rs rds : N -> R -> outcome (list N) * R).
Fixpoint run (c : client A) (r : R) : option A :=
  match c with
  | Done a => Some a
  | Seek o k => let (x, r) := seek o r in
                match answer x with
                | Some (Some _) => run (k true) r | Some None => run (k false) r | None => None
                end
  | Tell k => run (k (tell r)) r
  | Size k => run (k (size r)) r
  | Data n k => let (x, r) := rd n r in
                match answer x with Some a => run (k a) r | None => None end
  | Str n k => let (x, r) := rs n r in
               match answer x with Some a => run (k a) r | None => None end
  | DataStr n k => let (x, r) := rds n r in
                   match answer x with Some a => run (k a) r | None => None end
  end.
End Run.

Definition run_on_memory {A} (c : client A) (bytes : list N) : option A :=
  run seek_set tell (fun r => len (rbuf r)) read_data read_string read_data_string c
      (mkReader bytes 0 false).
Definition run_on_file {A} (c : client A) (r : file_reader) : option A :=
  run fr_seek fr_tell fr_size fr_read_data fr_read_string fr_read_data_string c r.

(** Sizes and positions a client gives are size_t values. *)
Fixpoint words {A} (c : client A) : Prop :=
  match c with
  | Done _ => True
  | Seek o k => o < two64 /\ forall x, words (k x)
  | Tell k | Size k => forall x, words (k x)
  | Data n k | Str n k | DataStr n k => n < two64 /\ forall x, words (k x)
  end.

(** ** Notes *)

(** A note: its type, the bytes of its name and its description. *)
Record note := mkNote { n_type : N; n_name : list N; n_desc : list N }.

(** Zero bytes up to a multiple of 4. *)
Definition padding (l : list N) : list N := repeat 0 (N.to_nat ((4 - len l mod 4) mod 4)).

(** How it is stored: the two sizes and the type in 32 bits each, then name and
    description, each padded. *)
Definition stored_note (n : note) : list N :=
  le_bytes 4 (len (n_name n)) ++ le_bytes 4 (len (n_desc n)) ++ le_bytes 4 (n_type n) ++
  n_name n ++ padding (n_name n) ++ n_desc n ++ padding (n_desc n).

Definition note_ok (n : note) : Prop :=
  len (n_name n) < two32 /\ len (n_desc n) < two32 /\ n_type n < two32.

(** It is a note of type 3 whose name, up to its first NUL, is GNU. *)
Definition gnu_build_id (n : note) : Prop := n_type n = 3 /\ until_nul (n_name n) (str "GNU").

(** The first such note. *)
Definition first_build_id (ns : list note) (n : note) : Prop :=
  exists l1 l2, ns = l1 ++ n :: l2 /\ gnu_build_id n /\ Forall (fun m => ~ gnu_build_id m) l1.

(** ** Sections *)

(** The first section with that name. *)
Fixpoint section_named (name : list N) (l : list (option (list N) * option (list N)))
  : option (option (list N)) :=
  match l with
  | [] => None
  | (Some n, d) :: r => if list_eqb n name then Some d else section_named name r
  | (None, _) :: r => section_named name r
  end.

(** ** Which file *)

(** The file may be the one that was mapped: a major or minor number of 0 stands for
    "not known"; otherwise it must be the same device and inode. *)
Definition right_file (d : dso) (n : node) : Prop :=
  d_maj d = 0 \/ d_min d = 0 \/
  (d_maj d = nd_maj n /\ d_min d = nd_min n /\ d_ino d = nd_ino n).

(** A file at the path that may be the mapped one has the build id. *)
Definition gives (fs : file_system) (libelf : list N -> elf) (d : dso) (path b : list N) : Prop :=
  exists n, fs path = Some n /\ right_file d n /\ elf_build_id (libelf (nd_bytes n)) = Ok b.

(** Where to look, in this order: for each thread the samples came from, in increasing
    order of process and thread, the file as the thread sees it and as its process does
    (process 0 has no files); then the file as this program sees it. *)
Definition root_of (id : N) (name : list N) : list N :=
  str "/proc/" ++ print_dec id ++ str "/root/" ++ name.
Definition paths (name : list N) (threads : list (N * N)) : list (list N) :=
  flat_map (fun pt => root_of (snd pt) name ::
                      if fst pt =? 0 then [] else [root_of (fst pt) name]) threads ++ [name].

(** The first path that gives a build id. *)
Definition first_given (fs : file_system) (libelf : list N -> elf) (d : dso)
           (ps : list (list N)) (b : list N) : Prop :=
  exists l1 path l2, ps = l1 ++ path :: l2 /\ gives fs libelf d path b /\
    forall q b', In q l1 -> ~ gives fs libelf d q b'.

(** In increasing order of process and thread. *)
Definition in_thread_order (l : list (N * N)) : Prop :=
  forall l1 a l2 b l3, l = l1 ++ a :: l2 ++ b :: l3 ->
    fst a < fst b \/ (fst a = fst b /\ snd a <= snd b).

(** Names of parts of the kernel that are not modules, and of modules. *)
Definition starts_with (p s : list N) : Prop := exists r, s = p ++ r.
Definition kernel_part (name : list N) : Prop :=
  starts_with (str "[kernel.kallsyms]") name \/ starts_with (str "[guest.kernel.kallsyms") name \/
  starts_with (str "[vdso]") name \/ starts_with (str "[vsyscall]") name.
Definition module_name (m name : list N) : Prop := name = str "[" ++ m ++ str "]".

(** All numbers that stand for bytes are bytes. *)
Definition files_of_bytes (fs : file_system) : Prop :=
  forall path n, fs path = Some n -> bytes_ok (nd_bytes n) = true /\ len (nd_bytes n) < two63.
Definition sections_of_bytes (libelf : list N -> elf) : Prop :=
  forall b l nm d, libelf b = Sections l -> In (nm, Some d) l ->
    bytes_ok d = true /\ len d < two63.
