(** Shared vocabulary of the model: outcomes, machine words, bytes. *)
From Coq Require Export List Arith NArith ZArith Lia Bool.
From Coq Require Export ZifyBool ZifyNat ZifyN.
Export ListNotations.
Ltac Zify.zify_post_hook ::= Z.div_mod_to_equations.

(** Result of running a modelled C++ function.
    [Fail] is a function returning false, [Abort] is a failed CHECK /
    LOG(FATAL) (process termination), [UB] is undefined behaviour (out of
    bounds access, dereference of end(), uncaught misuse of the library),
    [Hang] is a loop that never ends. *)
Inductive outcome (A : Type) : Type :=
| Ok (a : A)
| Fail
| Abort
| UB
| Hang.
Arguments Ok {A} a.
Arguments Fail {A}.
Arguments Abort {A}.
Arguments UB {A}.
Arguments Hang {A}.

Definition obind {A B} (x : outcome A) (f : A -> outcome B) : outcome B :=
  match x with
  | Ok a => f a
  | Fail => Fail
  | Abort => Abort
  | UB => UB
  | Hang => Hang
  end.

Notation "'let!' x ':=' e 'in' f" := (obind e (fun x => f))
  (at level 200, x pattern, right associativity).

Definition is_ok {A} (x : outcome A) : bool :=
  match x with Ok _ => true | _ => false end.

(** 64-bit and 32-bit unsigned machine words (uint64_t/size_t, uint32_t). *)
Definition two64 : N := 18446744073709551616.
Definition two32 : N := 4294967296.
Definition two16 : N := 65536.
Definition two63 : N := 9223372036854775808.
Definition w64 (x : N) : N := (x mod two64)%N.
Definition w32 (x : N) : N := (x mod two32)%N.
Definition w16 (x : N) : N := (x mod two16)%N.
(** Unsigned 64-bit subtraction with wrap-around. *)
Definition sub64 (a b : N) : N := ((a + two64 - b) mod two64)%N.
Definition sub32 (a b : N) : N := ((a + two32 - b) mod two32)%N.
Definition max64 : N := 18446744073709551615.
Definition max32 : N := 4294967295.

Definition byte_ok (b : N) : bool := (b <? 256)%N.
Definition bytes_ok (l : list N) : bool := forallb byte_ok l.
