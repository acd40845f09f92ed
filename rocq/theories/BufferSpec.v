(** What reading from / writing to a bounded buffer means. *)
From Verif Require Import Base BytesModel BufferModel.
Local Open Scope N_scope.

(** Machine-level ranges of a reader: the buffer size and the offset are
    size_t values. *)
Definition reader_words (r : reader) : bool :=
  (len (rbuf r) <? two64) && (roff r <? two64).

(** [d] is exactly the [size] bytes of the buffer starting at the read offset,
    and the reader moved past them and changed in no other way. *)
Definition delivers (r : reader) (size : N) (d : list N) (r' : reader) : Prop :=
  exists pre post,
    rbuf r = pre ++ d ++ post /\ len pre = roff r /\ len d = size /\
    rbuf r' = rbuf r /\ roff r' = roff r + size /\ rswap r' = rswap r.

(** [s] is [d] up to (not including) its first NUL byte. *)
Definition until_nul (d s : list N) : Prop :=
  ~ In 0 s /\ exists rest, d = s ++ rest /\ (rest = [] \/ exists t, rest = 0 :: t).

(** [w'] is [w] with [d] written at the write offset and nothing else changed. *)
Definition writes (w : writer) (d : list N) (w' : writer) : Prop :=
  exists pre old post,
    wbuf w = pre ++ old ++ post /\ len pre = woff w /\ len old = len d /\
    wbuf w' = pre ++ d ++ post /\ woff w' = woff w + len d.

(** A client of the reader: an arbitrary sequence of calls, continued after
    failures. *)
Inductive rop :=
| RSeek (o : N) | RData (n : N) | RStr (n : N) | RDataStr (n : N)
| RU16 | RU32 | RU64 | RStrWithSize.

Definition rstep (r : reader) (o : rop) : outcome unit * reader :=
  let fin {A} (x : outcome A * reader) : outcome unit * reader :=
    (obind (fst x) (fun _ => Ok tt), snd x) in
  match o with
  | RSeek o => fin (seek_set o r)
  | RData n => fin (read_data n r)
  | RStr n => fin (read_string n r)
  | RDataStr n => fin (read_data_string n r)
  | RU16 => fin (read_u16 r)
  | RU32 => fin (read_u32 r)
  | RU64 => fin (read_u64 r)
  | RStrWithSize => fin (read_string_with_size r)
  end.

(** Results of all calls, and the final reader. *)
Fixpoint rrun (r : reader) (ops : list rop) : list (outcome unit) * reader :=
  match ops with
  | [] => ([], r)
  | o :: ops' =>
      let (x, r') := rstep r o in
      let (xs, r'') := rrun r' ops' in (x :: xs, r'')
  end.

(** All size/offset arguments are size_t values. *)
Definition rop_words (o : rop) : bool :=
  match o with
  | RSeek n | RData n | RStr n | RDataStr n => n <? two64
  | _ => true
  end.
