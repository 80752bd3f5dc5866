(** Shared vocabulary: machine words as [Z], arrays as lists. *)
From Coq Require Export ZArith List Bool Lia.
From Coq Require Export ZifyBool ZifyNat ZifyN.
Export ListNotations.
Global Open Scope Z_scope.

(** Words of [n] bits are the integers in [0, 2^n). *)
Definition is_w (n x : Z) : Prop := 0 <= x < 2 ^ n.
(** Conversion to an unsigned [n]-bit C++ type (uint8_t, uint16_t, uint32_t,
    uint64_t): reduction modulo 2^n. *)
Definition wrap (n x : Z) : Z := x mod 2 ^ n.
Definition w32 (x : Z) : Z := x mod 2 ^ 32.
(** (int32_t)x : two's complement reading of a 32-bit word. *)
Definition s32 (x : Z) : Z := if x <? 2 ^ 31 then x else x - 2 ^ 32.
(** (int64_t)x *)
Definition s64 (x : Z) : Z := if x <? 2 ^ 63 then x else x - 2 ^ 64.

(** BITS(x, hi, lo), diff/include/ref.h:11-13 (the shifted operand is always an
    unsigned 32-bit word in the uses modelled here). *)
Definition bits (x hi lo : Z) : Z := Z.land (Z.shiftr x lo) (2 ^ (hi - lo + 1) - 1).

(** Arrays as lists. *)
Fixpoint upd {A} (i : nat) (v : A) (l : list A) : list A :=
  match l, i with
  | [], _ => []
  | _ :: t, O => v :: t
  | h :: t, S i' => h :: upd i' v t
  end.

(** Arrays as total functions with point update. *)
Definition fupd {A} (f : nat -> A) (i : nat) (v : A) : nat -> A :=
  fun j => if Nat.eqb j i then v else f j.

Definition b2z (b : bool) : Z := if b then 1 else 0.
Definition nz (x : Z) : bool := negb (x =? 0).

(** Bit [i] of a mask, as the C++ test [(m >> i) & 1]. *)
Definition bit (m : Z) (i : nat) : bool := Z.testbit m (Z.of_nat i).
