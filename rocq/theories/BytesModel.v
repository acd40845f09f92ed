(** Bytes, little-endian integers, memory blocks, byte swapping, alignment. *)
From Verif Require Import Base.
Local Open Scope N_scope.

(** Little-endian representation of an unsigned integer in [n] bytes (the host
    of the modelled program is little-endian x86-64/ARM64). *)
Fixpoint le_bytes (n : nat) (v : N) : list N :=
  match n with
  | O => []
  | S n' => (v mod 256) :: le_bytes n' (v / 256)
  end.

Fixpoint of_le (l : list N) : N :=
  match l with
  | [] => 0
  | b :: r => b + 256 * of_le r
  end.

Definition len {A} (l : list A) : N := N.of_nat (length l).

(** Sub-list of [n] elements from [off]. *)
Definition slice {A} (l : list A) (off n : N) : list A :=
  firstn (N.to_nat n) (skipn (N.to_nat off) l).

(** memcpy out of a memory block: reading outside the block is undefined. *)
Definition mem_read (buf : list N) (off n : N) : outcome (list N) :=
  if off + n <=? len buf then Ok (slice buf off n) else UB.

(** memcpy/memset into a memory block: writing outside is undefined. *)
Definition mem_write (buf : list N) (off : N) (data : list N)
  : outcome (list N) :=
  if off + len data <=? len buf
  then Ok (firstn (N.to_nat off) buf ++ data ++
           skipn (N.to_nat (off + len data)) buf)
  else UB.

(** strnlen(p, n) restricted to the given bytes: index of the first NUL, or the
    number of bytes. *)
Fixpoint strnlen (l : list N) : N :=
  match l with
  | [] => 0
  | b :: r => if b =? 0 then 0 else 1 + strnlen r
  end.

(** glibc bswap_16/32/64 (byteswap.h), called from
    src/quipper/binary_data_utils.cc:87-106, ByteSwap. *)
Definition bswap16 (x : N) : N :=
  N.lor (N.land (N.shiftr x 8) 0xff) (N.shiftl (N.land x 0xff) 8).

Definition bswap32 (x : N) : N :=
  N.lor (N.lor (N.shiftr (N.land x 0xff000000) 24)
               (N.shiftr (N.land x 0x00ff0000) 8))
        (N.lor (N.shiftl (N.land x 0x0000ff00) 8)
               (N.shiftl (N.land x 0x000000ff) 24)).

Definition bswap64 (x : N) : N :=
  N.lor (N.lor (N.lor (N.shiftr (N.land x 0xff00000000000000) 56)
                      (N.shiftr (N.land x 0x00ff000000000000) 40))
               (N.lor (N.shiftr (N.land x 0x0000ff0000000000) 24)
                      (N.shiftr (N.land x 0x000000ff00000000) 8)))
        (N.lor (N.lor (N.shiftl (N.land x 0x00000000ff000000) 8)
                      (N.shiftl (N.land x 0x0000000000ff0000) 24))
               (N.lor (N.shiftl (N.land x 0x000000000000ff00) 40)
                      (N.shiftl (N.land x 0x00000000000000ff) 56))).

(** src/quipper/binary_data_utils.cc:87-106, ByteSwap<T> by sizeof(T): one byte
    is left alone, other sizes than 1,2,4,8 are LOG(FATAL). *)
Definition byte_swap (size : nat) (x : N) : outcome N :=
  match size with
  | 1%nat => Ok x
  | 2%nat => Ok (bswap16 x)
  | 4%nat => Ok (bswap32 x)
  | 8%nat => Ok (bswap64 x)
  | _ => Abort
  end.

(** src/quipper/binary_data_utils.h:26-30, MaybeSwap. *)
Definition maybe_swap (size : nat) (x : N) (swap : bool) : outcome N :=
  if swap then byte_swap size x else Ok x.

(** src/quipper/binary_data_utils.h:59-67, Align<alignment>: 64-bit arithmetic,
    [~mask] is the 64-bit complement. *)
Definition align (alignment value : N) : N :=
  let mask := alignment - 1 in
  N.land (w64 (value + mask)) (N.lnot mask 64).

(** src/quipper/perf_data_utils.h:59-61. *)
Definition aligned_string_length (size : N) : N := align 8 (w64 (size + 1)).

(** src/quipper/binary_data_utils.h:33-36, GetNumBits: number of one bits. *)
Fixpoint pos_popcount (p : positive) : N :=
  match p with
  | xH => 1
  | xO q => pos_popcount q
  | xI q => 1 + pos_popcount q
  end.
Definition get_num_bits (x : N) : N :=
  match x with 0 => 0 | Npos p => pos_popcount p end.
