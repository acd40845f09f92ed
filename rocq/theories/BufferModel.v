(** Models of src/quipper/{buffer_reader,buffer_writer,data_reader,data_writer}. *)
From Verif Require Import Base BytesModel.
Local Open Scope N_scope.

(** ** BufferReader / DataReader *)

(** buffer_reader.h:12-16,30-36 and data_reader.h:67-83: buffer, read offset,
    cross-endian flag. [size_] is the length of the buffer. *)
Record reader := mkReader { rbuf : list N; roff : N; rswap : bool }.

Definition set_off (r : reader) (o : N) : reader :=
  mkReader (rbuf r) o (rswap r).

(** A reading call: its result and the reader afterwards (also on failure). *)
Definition rcall (A : Type) := reader -> outcome A * reader.

Definition rret {A} (a : A) : rcall A := fun r => (Ok a, r).
Definition rfail {A} : rcall A := fun r => (Fail, r).
Definition rbind {A B} (x : rcall A) (f : A -> rcall B) : rcall B :=
  fun r =>
    match x r with
    | (Ok a, r') => f a r'
    | (Fail, r') => (Fail, r')
    | (Abort, r') => (Abort, r')
    | (UB, r') => (UB, r')
    | (Hang, r') => (Hang, r')
    end.
Notation "'rlet' x ':=' e 'in' f" := (rbind e (fun x => f))
  (at level 200, x pattern, right associativity).

(** buffer_reader.cc:15-22, SeekSet. *)
Definition seek_set (o : N) : rcall unit :=
  fun r => if len (rbuf r) <? o then (Fail, r) else (Ok tt, set_off r o).

(** buffer_reader.h:18, Tell. *)
Definition tell (r : reader) : N := roff r.

(** The bounds check shared by ReadData and ReadString
    (buffer_reader.cc:25, 33). SIZE_MAX - size cannot wrap for a size_t. *)
Definition read_rejected (r : reader) (size : N) : bool :=
  (max64 - size <? roff r) || (len (rbuf r) <? w64 (roff r + size)).

(** buffer_reader.cc:24-30, ReadData. *)
Definition read_data (size : N) : rcall (list N) :=
  fun r =>
    if read_rejected r size then (Fail, r)
    else match mem_read (rbuf r) (roff r) size with
         | Ok d => (Ok d, set_off r (w64 (roff r + size)))
         | o => (o, r)
         end.

(** buffer_reader.cc:32-39, ReadString: strnlen inside the [size] bytes. *)
Definition read_string (size : N) : rcall (list N) :=
  fun r =>
    if read_rejected r size then (Fail, r)
    else match mem_read (rbuf r) (roff r) size with
         | Ok d => (Ok (firstn (N.to_nat (strnlen d)) d),
                    set_off r (w64 (roff r + size)))
         | o => (o, r)
         end.

(** data_reader.cc:15-29, ReadDataString: size 0 succeeds without reading;
    dest->max_size() is 2^63 - 1 for libstdc++ (max_size check simplified to
    the requested size, the old contents of *dest play no other role). *)
Definition read_data_string (size : N) : rcall (list N) :=
  fun r =>
    if size =? 0 then (Ok [], r)
    else if two63 - 1 <? size then (Fail, r)
    else read_data size r.

(** data_reader.h:75-80 (ReadIntValue) for sizeof(T) = n bytes. *)
Definition read_int (n : nat) : rcall N :=
  fun r =>
    match read_data (N.of_nat n) r with
    | (Ok d, r') =>
        match maybe_swap n (of_le d) (rswap r) with
        | Ok v => (Ok v, r')
        | o => (o, r')
        end
    | (Fail, r') => (Fail, r')
    | (Abort, r') => (Abort, r')
    | (UB, r') => (UB, r')
    | (Hang, r') => (Hang, r')
    end.

(** data_reader.h:42-50. *)
Definition read_u16 : rcall N := read_int 2.
Definition read_u32 : rcall N := read_int 4.
Definition read_u64 : rcall N := read_int 8.

(** data_reader.cc:39-51, ReadStringWithSizeFromData. *)
Definition read_string_with_size : rcall (list N) :=
  rlet l := read_u32 in read_string l.

(** ** BufferWriter / DataWriter *)

(** buffer_writer.h:12-16,33-36. [size_] is the length of the buffer. *)
Record writer := mkWriter { wbuf : list N; woff : N }.

Definition wcall := writer -> outcome unit * writer.

Definition wbind (x y : wcall) : wcall :=
  fun w =>
    match x w with
    | (Ok _, w') => y w'
    | (o, w') => (o, w')
    end.

(** buffer_writer.h:21, SeekSet is unchecked. *)
Definition wseek (o : N) (w : writer) : writer := mkWriter (wbuf w) o.

(** buffer_writer.cc:13-21, WriteData; the source holds exactly [size] bytes. *)
Definition write_data (src : list N) : wcall :=
  fun w =>
    let size := len src in
    let size_ := len (wbuf w) in
    if (size_ <? w64 (woff w + size)) || (size_ <=? woff w) || (size_ <? size)
    then (Fail, w)
    else match mem_write (wbuf w) (woff w) src with
         | Ok b => (Ok tt, mkWriter b (w64 (woff w + size)))
         | Fail => (Fail, w) | Abort => (Abort, w) | Hang => (Hang, w)
         | UB => (UB, w)
         end.

(** memset(buffer + off, 0, n): undefined outside the block. Written without
    building the n zero bytes first, because n can be close to 2^64. *)
Definition mem_zero (buf : list N) (off n : N) : outcome (list N) :=
  if off + n <=? len buf
  then mem_write buf off (repeat 0 (N.to_nat n)) else UB.

(** buffer_writer.cc:23-34, WriteString. *)
Definition write_string (str : list N) (size : N) : wcall :=
  fun w =>
    let write_size := N.min (len str) size in
    if len (wbuf w) <? w64 (woff w + size) then (Fail, w)
    else
      wbind (write_data (firstn (N.to_nat write_size) str))
        (fun w1 =>
          match mem_zero (wbuf w1) (woff w1) (size - write_size) with
          | Ok b => (Ok tt, mkWriter b (w64 (woff w1 + (size - write_size))))
          | Fail => (Fail, w1) | Abort => (Abort, w1) | Hang => (Hang, w1)
          | UB => (UB, w1)
          end) w.

(** buffer_writer.cc:36-38, CanWriteSize. *)
Definition can_write_size (w : writer) (n : N) : bool :=
  w64 (woff w + n) <=? len (wbuf w).

(** data_writer.cc:23-36, WriteStringWithSizeToData: the length is truncated to
    32 bits, [len + sizeof(len)] is computed in 64 bits. *)
Definition write_string_with_size (src : list N) : wcall :=
  fun w =>
    let l := w32 (aligned_string_length (len src)) in
    if can_write_size w (l + 4)
    then wbind (write_data (le_bytes 4 l)) (write_string src l) w
    else (Fail, w).
