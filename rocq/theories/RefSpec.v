(** One-instruction semantics of the user-level integer instructions over registers,
    program counter and byte memory.  Only [IsaSpec] and [MemSpec] are used. *)
From Verif Require Import Base IsaSpec MemSpec.

Inductive ins :=
| IR (o : rop) (rd rs1 rs2 : Z) | IM (o : mop) (rd rs1 rs2 : Z) | II (o : iop) (rd rs1 imm : Z)
| IS (o : shop) (rd rs1 shamt : Z) | IU (o : uop1) (rd rs1 : Z) | ILui (rd imm20 : Z) | IAuipc (rd imm20 : Z)
| IJal (rd off : Z) | IJalr (rd rs1 imm : Z) | IB (o : bop) (rs1 rs2 off : Z)
| ILoad (f3 rd rs1 imm : Z) | IStore (f3 rs1 rs2 imm : Z) | IAmo (o : amo) (aqrl rd rs1 rs2 : Z).
Definition enc (x : ins) : Z :=
  match x with
  | IR o rd rs1 rs2 => enc_rop o rd rs1 rs2 | IM o rd rs1 rs2 => enc_mop o rd rs1 rs2 | II o rd rs1 imm => enc_iop o rd rs1 imm
  | IS o rd rs1 n => enc_shop o rd rs1 n | IU o rd rs1 => enc_uop1 o rd rs1 | ILui rd i => enc_lui rd i | IAuipc rd i => enc_auipc rd i
  | IJal rd off => enc_jal rd off | IJalr rd rs1 imm => enc_jalr rd rs1 imm | IB o rs1 rs2 off => enc_bop o rs1 rs2 off
  | ILoad f3 rd rs1 imm => enc_load f3 rd rs1 imm | IStore f3 rs1 rs2 imm => enc_store f3 rs1 rs2 imm
  | IAmo o q rd rs1 rs2 => enc_amo o q rd rs1 rs2
  end.
(** Architectural state. *)
Record ist := mkist { x_gpr : Z -> Z; x_pc : Z; x_mem : bmem }.

Definition imm12 (i : Z) : Prop := -2048 <= i < 2048.
(** Operand fields in range. *)
Definition wf_ins (x : ins) : Prop :=
  match x with
  | IR _ rd rs1 rs2 | IM _ rd rs1 rs2 => reg_ix rd /\ reg_ix rs1 /\ reg_ix rs2
  | II _ rd rs1 imm | IJalr rd rs1 imm => reg_ix rd /\ reg_ix rs1 /\ imm12 imm
  | IS _ rd rs1 n => reg_ix rd /\ reg_ix rs1 /\ 0 <= n < 32
  | IU _ rd rs1 => reg_ix rd /\ reg_ix rs1
  | ILui rd i | IAuipc rd i => reg_ix rd /\ 0 <= i < 2 ^ 20
  | IJal rd off => reg_ix rd /\ - 2 ^ 20 <= off < 2 ^ 20 /\ off mod 2 = 0
  | IB _ rs1 rs2 off => reg_ix rs1 /\ reg_ix rs2 /\ -4096 <= off < 4096 /\ off mod 2 = 0
  | ILoad f3 rd rs1 imm => load_f3 f3 /\ reg_ix rd /\ reg_ix rs1 /\ imm12 imm
  | IStore f3 rs1 rs2 imm => store_f3 f3 /\ reg_ix rs1 /\ reg_ix rs2 /\ imm12 imm
  | IAmo _ q rd rs1 rs2 => 0 <= q < 4 /\ reg_ix rd /\ reg_ix rs1 /\ reg_ix rs2
  end.
(** Rotates by a multiple of 32 (C12). *)
Definition rotate0 (x : ins) (g : Z -> Z) : Prop :=
  match x with
  | IR ROL _ _ rs2 | IR ROR _ _ rs2 => g rs2 mod 32 = 0
  | IS RORI _ _ n => n = 0
  | _ => False
  end.
Definition addr (g : Z -> Z) (x : ins) : Z :=
  match x with
  | ILoad _ _ rs1 imm | IStore _ rs1 _ imm => (g rs1 + imm) mod M32
  | IAmo _ _ _ rs1 _ => g rs1
  | _ => 0
  end.
Definition dest (x : ins) : option Z :=
  match x with
  | IR _ rd _ _ | IM _ rd _ _ | II _ rd _ _ | IS _ rd _ _ | IU _ rd _ | ILui rd _ | IAuipc rd _ | IJal rd _ | IJalr rd _ _
  | ILoad _ rd _ _ | IAmo _ _ rd _ _ => Some rd
  | IB _ _ _ _ | IStore _ _ _ _ => None
  end.
Definition value (a : ist) (x : ins) : Z :=
  let g := x_gpr a in
  match x with
  | IR o _ rs1 rs2 => sem_rop o (g rs1) (g rs2) | IM o _ rs1 rs2 => sem_mop o (g rs1) (g rs2)
  | II o _ rs1 imm => sem_iop o (g rs1) imm | IS o _ rs1 n => sem_shop o (g rs1) n | IU o _ rs1 => sem_uop1 o (g rs1)
  | ILui _ i => i * 2 ^ 12 | IAuipc _ i => (x_pc a + i * 2 ^ 12) mod M32
  | IJal _ _ | IJalr _ _ _ => (x_pc a + 4) mod M32
  | ILoad f3 _ _ _ => isa_load (x_mem a) (addr g x) f3
  | IAmo _ _ _ _ _ => isa_load (x_mem a) (addr g x) 2
  | IB _ _ _ _ | IStore _ _ _ _ => 0
  end.
Definition next (a : ist) (x : ins) : Z :=
  let g := x_gpr a in
  match x with
  | IJal _ off => next_jal (x_pc a) off | IJalr _ rs1 imm => next_jalr (g rs1) imm
  | IB o rs1 rs2 off => next_bop o (x_pc a) (g rs1) (g rs2) off
  | _ => (x_pc a + 4) mod M32
  end.
Definition memory (a : ist) (x : ins) : bmem :=
  let g := x_gpr a in
  match x with
  | IStore f3 _ rs2 _ => store_bytes (x_mem a) (addr g x) (size f3) (g rs2)
  | IAmo o _ _ _ rs2 => store_bytes (x_mem a) (addr g x) 4 (sem_amo o (isa_load (x_mem a) (addr g x) 2) (g rs2))
  | _ => x_mem a
  end.
(** Words with side effects: UART, interrupt claim, timer. *)
Definition devices : list Z := [0x10000000; 0x0c201004; 0x1fd0e000; 0x1fd0e004; 0x1fd0e008; 0x1fd0e00c].
Definition plain (w : Z) : Prop := ~ In (w / 4 * 4) devices.
Definition access_ok (a : ist) (x : ins) : Prop :=
  match x with
  | ILoad f3 _ _ _ | IStore f3 _ _ _ => aligned (addr (x_gpr a) x) f3 /\ plain (addr (x_gpr a) x)
  | IAmo _ _ _ _ _ => addr (x_gpr a) x mod 4 = 0 /\ plain (addr (x_gpr a) x)
  | _ => True
  end.
Definition isa_step (a b : ist) : Prop := exists x,
  x_pc a mod 4 = 0 /\ load_bytes (x_mem a) (x_pc a) 4 = enc x /\ wf_ins x /\ ~ rotate0 x (x_gpr a) /\ access_ok a x /\
  x_pc b = next a x /\
  (forall r, x_gpr b r = if r =? 0 then 0 else match dest x with Some d => if r =? d then value a x else x_gpr a r | None => x_gpr a r end) /\
  (forall y, x_mem b y = memory a x y).
Inductive isa_run : ist -> ist -> Prop :=
| run0 a : isa_run a a
| run1 a b c : isa_run a b -> isa_step b c -> isa_run a c.
