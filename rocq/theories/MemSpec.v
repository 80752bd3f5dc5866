(** Byte memory: what RISC-V loads and stores mean. *)
From Verif Require Import Base.

Definition bmem := Z -> Z.
(** The [n] low bytes of [v] are stored little-endian at [a]. *)
Definition store_bytes (m : bmem) (a n v : Z) : bmem :=
  fun x => if (a <=? x) && (x <? a + n) then (v / 256 ^ (x - a)) mod 256 else m x.
(** Little-endian value of the [n] bytes at [a]. *)
Fixpoint load_bytes (m : bmem) (a : Z) (n : nat) : Z :=
  match n with O => 0 | S n' => m a + 256 * load_bytes m (a + 1) n' end.
(** Access size in bytes of the RV32 load/store funct3. *)
Definition size (f3 : Z) : Z := if (f3 =? 0) || (f3 =? 4) then 1 else if (f3 =? 1) || (f3 =? 5) then 2 else 4.
Definition load_f3 (f3 : Z) : Prop := In f3 [0; 1; 2; 4; 5].
Definition store_f3 (f3 : Z) : Prop := In f3 [0; 1; 2].
Definition aligned (a f3 : Z) : Prop := a mod size f3 = 0.
(** LB, LH sign-extend; LBU, LHU zero-extend; LW is whole. *)
Definition extend (f3 x : Z) : Z :=
  if f3 =? 0 then (if x <? 128 then x else x + (2 ^ 32 - 256))
  else if f3 =? 1 then (if x <? 32768 then x else x + (2 ^ 32 - 65536)) else x.
Definition isa_load (m : bmem) (a f3 : Z) : Z := extend f3 (load_bytes m a (Z.to_nat (size f3))).

(** Bytes of a word memory. *)
Definition bytes_of (W : Z -> Z) : bmem := fun x => (W (x / 4) / 256 ^ (x mod 4)) mod 256.

(** A store of the program: address, funct3, register value. *)
Record pstore := mkps { ps_addr : Z; ps_f3 : Z; ps_data : Z }.
Definition do_store (m : bmem) (s : pstore) : bmem := store_bytes m (ps_addr s) (size (ps_f3 s)) (ps_data s).
(** Memory after the stores of [l], given youngest first. *)
Fixpoint after (l : list pstore) (m : bmem) : bmem :=
  match l with [] => m | s :: t => do_store (after t m) s end.
(** Two byte ranges share a byte. *)
Definition shares (a n b k : Z) : Prop := exists x, a <= x < a + n /\ b <= x < b + k.
