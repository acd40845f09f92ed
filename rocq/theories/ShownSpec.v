(** C66: the header and the mapping table of the profiles of a file. *)
From Coq Require Import String.
From Verif Require Import Base BytesModel TextModel Assoc ProfileModel PerfProto NormalizerModel NormalizerSpec
  SerializerModel.
From Verif Require FileModel ReaderOpsModel HugePageModel HugePageSpec ConverterModel ConverterSpec ConverterHeadSpec.
From Verif Require Import PipelineSpec RecordSpec.
Local Open Scope N_scope.
Local Open Scope list_scope.

(** ** The header *)

(** The names of the events: those the file tells if there is one for each, else none. *)
Definition file_names (st : FileModel.fstate) : list (option (list N)) :=
  if (List.length (FileModel.fs_types st) =? List.length (FileModel.fs_attrs st))%nat
  then map (fun t => Some (snd t)) (FileModel.fs_types st)
  else repeat None (List.length (FileModel.fs_attrs st)).

(** The comments: the version of perf, text 5 of the header, and, of the command line
    (feature 11), the words. *)
Definition file_remarks (st : FileModel.fstate) : list (list N) :=
  ConverterHeadSpec.remark (str "perf-version:") (aget N.eqb 5 (FileModel.fm_strings (FileModel.fs_meta st))) ++
  ConverterHeadSpec.remark (str "perf-command:")
    (if N.testbit (FileModel.fs_mask st) 11 then Some (FileModel.fm_cmdwhole (FileModel.fs_meta st)) else None).

(** ** Build ids *)

(** The id of an entry, as text, and the name of its file. *)
Definition id_text (b : build_id_ev) : list N := raw_to_hex (bi_hash b).
Definition named (b : build_id_ev) : list N := name_or_md5 (bi_file b) (bi_md5 b).

(** The id of a file: of the last entry of its name. That of the kernel: of the first
    entry for kernel code which is no module and has one. *)
Definition id_of (bs : list build_id_ev) (name : list N) : list N :=
  match find (fun b => list_eqb (named b) name) (rev bs) with Some b => id_text b | None => [] end.
Definition of_kernel (b : build_id_ev) : bool :=
  (N.land (bi_misc b) 7 =? 1) &&
  (existsb (fun p => begins (str p) (named b)) ["[kernel.kallsyms]"; "[guest.kernel.kallsyms"; "[vdso]"; "[vsyscall]"]%string
   || negb (ends (str ".ko") (named b))).
Definition kernel_id (bs : list build_id_ev) : list N :=
  match find (fun b => of_kernel b && negb (list_eqb (id_text b) [])) bs with Some b => id_text b | None => [] end.

(** The id a mapping is shown with: its own; or that of its file; or the kernel's. *)
Definition shown_id (bs : list build_id_ev) (m : mmap_ev) : list N :=
  let name := name_or_md5 (mm_file m) (mm_md5 m) in
  match mm_build m with
  | Some (c :: r) => c :: r
  | _ => match id_of bs name with
         | c :: r => c :: r
         | [] => if begins (str "[kernel.kallsyms]") name then kernel_id bs else []
         end
  end.

(** The message that a mapping record of a file [f] has, the last one. *)
Definition last_map_misc (f : list N) (xs : list x_event) : N :=
  match find (fun x => ((xe_type x =? 1) || (xe_type x =? 10)) && list_eqb f (xm_filename (get_mmap (xe_body x)))) (rev xs) with
  | Some x => xe_misc x mod 2 ^ 16
  | None => 1
  end.

(** Entry [b'] is the file's entry [b]; its id is the caller's, if they give one. *)
Definition kept_entry (md5 : list N -> N) (ids : list (list N * list N)) (b : ReaderOpsModel.rbuild) (b' : build_id_ev) : Prop :=
  bi_misc b' = ReaderOpsModel.rb_misc b /\ bi_file b' = ReaderOpsModel.rb_file b /\
  bi_md5 b' = match ReaderOpsModel.rb_md5 b with Some t => md5 t | None => 0 end /\
  match aget list_eqb (ReaderOpsModel.rb_file b) ids with
  | Some id => id_text b' = id
  | None => bi_hash b' = ReaderOpsModel.rb_hash b
  end.
(** Entry [b] is made for the file and the id [fi] given by the caller, of which at most
    20 bytes are kept; groups of four zero bytes at the end do not count. *)
Definition added_entry (md5 : list N -> N) (xs : list x_event) (fi : list N * list N) (b : build_id_ev) : Prop :=
  bi_misc b = last_map_misc (fst fi) xs /\ bi_file b = fst fi /\ bi_md5 b = md5 (fst fi) /\
  forall d, bytes_ok d = true -> snd fi = raw_to_hex d ->
    (exists k, firstn 20 d ++ repeat 0 (20 - List.length d) = bi_hash b ++ repeat 0 (4 * k)) /\
    (forall t, bi_hash b <> t ++ repeat 0 4).
(** The same entry for another file name. *)
Definition also (b : build_id_ev) (f : list N) : build_id_ev :=
  {| bi_misc := bi_misc b; bi_hash := bi_hash b; bi_file := f; bi_md5 := bi_md5 b; bi_injected := bi_injected b |}.

(** The table of build ids: the file's entries, the caller's for files without one, and
    those of the kernel once more under the names its mapping can have. *)
Definition build_table (md5 : list N -> N) (st : FileModel.fstate) (ids : list (list N * list N)) (xs : list x_event)
    (bs : list build_id_ev) : Prop :=
  exists old new,
    bs = (old ++ new) ++ flat_map (fun b => if list_eqb (bi_file b) (str "[kernel.kallsyms]")
                                            then [also b (str "[kernel.kallsyms]_text"); also b (str "[kernel.kallsyms]_stext")]
                                            else []) (old ++ new) /\
    Forall2 (kept_entry md5 ids) (FileModel.fs_builds st) old /\
    Forall2 (added_entry md5 xs)
      (filter (fun fi => negb (existsb (list_eqb (fst fi)) (map ReaderOpsModel.rb_file (FileModel.fs_builds st)))) ids) new.

(** ** Mappings *)

(** Mapping [v] of the converted events comes from the message [x]: same process and
    start; the same file, offset and id unless it is of huge pages. Its file and its id
    are always those of some mapping message of the process. *)
Definition mapping_of (md5 : list N -> N) (xs : list x_event) (x : x_event) (v : HugePageModel.vmap) : Prop :=
  exists m, In x xs /\ xe_body x = XBMmap m /\
    HugePageModel.v_pid v = Some (xm_pid m) /\ HugePageModel.v_start v = xm_start m /\
    (~ HugePageSpec.huge_name (xm_filename m) ->
       HugePageModel.v_file v = xm_filename m /\ HugePageModel.v_pgoff v = xm_pgoff m /\ HugePageModel.v_build v = xm_build_id m) /\
    (xm_build_id m <> None -> HugePageModel.v_build v <> None) /\
    HugePageModel.v_md5 v = md5 (HugePageModel.v_file v) /\
    (exists m', In m' (mappings xs) /\ HugePageModel.v_file v = xm_filename m') /\
    (exists m', In m' (mappings xs) /\ HugePageModel.v_build v = xm_build_id m').

(** A mapping of a profile: what it says. *)
Definition says_mapping (p : profile) (m : pmapping) (start limit off : N) (file build : list N) : Prop :=
  mp_start m = start /\ mp_limit m = limit /\ mp_off m = off /\
  ConverterSpec.string_of p (mp_file m) = Some (ConverterSpec.text file) /\ ConverterSpec.string_of p (mp_build m) = Some (ConverterSpec.text build).

(** The four kinds of mappings of a profile: of a mapping record or kernel symbol among
    the events [maps] (a mapping at 0x400000 without a name can get one); of a process
    sampled in the kernel that is known only by a name; of lost samples; of nothing. *)
Definition shown_mapping (md5 : list N -> N) (bs : list build_id_ev) (evs : list mapped_message) (maps : list perf_event)
    (p : profile) (m : pmapping) : Prop :=
  (exists ev mm f, In ev maps /\ announced ev = Some mm /\
     says_mapping p m (start_of mm) (limit_of mm) (mm_pgoff mm) (name_or_md5 f (mm_md5 mm)) (shown_id bs mm) /\
     (f = mm_file mm \/ (mm_file mm = [] /\ start_of mm = 0x400000))) \/
  (exists x c id, In (x, None) evs /\ xe_body x = XBComm c /\
     says_mapping p m 0 1 0 (name_or_md5 (xc_comm c) (md5 (xc_comm c))) id /\
     (id = [] \/ exists ev mm, In ev maps /\ announced ev = Some mm /\ id = shown_id bs mm)) \/
  says_mapping p m (9 * 2 ^ 60) (9 * 2 ^ 60 + 1) 0 (str "[lost]") [] \/
  says_mapping p m 0 1 0 [] [].
