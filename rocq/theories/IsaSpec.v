(** The RISC-V user-level specification used as the yardstick for the execution
    path: instruction encodings and the value/next-PC each instruction defines.
    Nothing here refers to the simulator; only integers and bits. *)
From Coq Require Import ZArith List Bool.
Import ListNotations.
Local Open Scope Z_scope.

Definition M32 : Z := 2 ^ 32.
(** Two's-complement value of a 32-bit word. *)
Definition sgn (x : Z) : Z := if x <? 2 ^ 31 then x else x - M32.

(** The word whose bit [i] is [f i], for the [n] lowest bits. *)
Fixpoint of_bits (n : nat) (f : Z -> bool) : Z :=
  match n with
  | O => 0
  | S k => of_bits k f + (if f (Z.of_nat k) then 2 ^ Z.of_nat k else 0)
  end.
Definition word (f : Z -> bool) : Z := of_bits 32 f.

(** ** Encodings *)
Definition enc_R (f7 rs2 rs1 f3 rd op : Z) : Z :=
  f7 * 2 ^ 25 + rs2 * 2 ^ 20 + rs1 * 2 ^ 15 + f3 * 2 ^ 12 + rd * 2 ^ 7 + op.
Definition enc_I (imm12 rs1 f3 rd op : Z) : Z :=
  imm12 * 2 ^ 20 + rs1 * 2 ^ 15 + f3 * 2 ^ 12 + rd * 2 ^ 7 + op.
(** A signed offset is stored as its two's-complement fields. *)
Definition fld (v hi lo : Z) : Z := (v / 2 ^ lo) mod 2 ^ (hi - lo + 1).
Definition enc_S (imm rs2 rs1 f3 op : Z) : Z :=
  enc_R (fld imm 11 5) rs2 rs1 f3 (fld imm 4 0) op.
Definition enc_B (off rs2 rs1 f3 op : Z) : Z :=
  enc_R (fld off 12 12 * 2 ^ 6 + fld off 10 5) rs2 rs1 f3
        (fld off 4 1 * 2 + fld off 11 11) op.
Definition enc_U (imm20 rd op : Z) : Z := imm20 * 2 ^ 12 + rd * 2 ^ 7 + op.
Definition enc_J (off rd op : Z) : Z :=
  fld off 20 20 * 2 ^ 31 + fld off 10 1 * 2 ^ 21 + fld off 11 11 * 2 ^ 20 +
  fld off 19 12 * 2 ^ 12 + rd * 2 ^ 7 + op.

(** ** Register-register operations *)
Inductive rop : Type :=
| ADD | SUB | SLL | SLT | SLTU | XOR | SRL | SRA | OR | AND
| SH1ADD | SH2ADD | SH3ADD
| ANDN | ORN | XNOR | MIN | MINU | MAX | MAXU | ROL | ROR
| CLMUL | CLMULH | CLMULR
| BCLR | BEXT | BINV | BSET
| PACK | PACKH.
Inductive mop : Type := MUL | MULH | MULHSU | MULHU | DIV | DIVU | REM | REMU.

(** (funct7, funct3) *)
Definition rop_f (o : rop) : Z * Z :=
  match o with
  | ADD => (0, 0) | SUB => (32, 0) | SLL => (0, 1) | SLT => (0, 2) | SLTU => (0, 3)
  | XOR => (0, 4) | SRL => (0, 5) | SRA => (32, 5) | OR => (0, 6) | AND => (0, 7)
  | SH1ADD => (16, 2) | SH2ADD => (16, 4) | SH3ADD => (16, 6)
  | ANDN => (32, 7) | ORN => (32, 6) | XNOR => (32, 4)
  | MIN => (5, 4) | MINU => (5, 5) | MAX => (5, 6) | MAXU => (5, 7)
  | ROL => (48, 1) | ROR => (48, 5)
  | CLMUL => (5, 1) | CLMULH => (5, 3) | CLMULR => (5, 2)
  | BCLR => (36, 1) | BEXT => (36, 5) | BINV => (52, 1) | BSET => (20, 1)
  | PACK => (4, 4) | PACKH => (4, 7)
  end.
Definition enc_rop (o : rop) (rd rs1 rs2 : Z) : Z :=
  enc_R (fst (rop_f o)) rs2 rs1 (snd (rop_f o)) rd 51.
Definition mop_f (o : mop) : Z :=
  match o with MUL => 0 | MULH => 1 | MULHSU => 2 | MULHU => 3
             | DIV => 4 | DIVU => 5 | REM => 6 | REMU => 7 end.
Definition enc_mop (o : mop) (rd rs1 rs2 : Z) : Z := enc_R 1 rs2 rs1 (mop_f o) rd 51.

(** Bit [k] of the carry-less product of two words. *)
Fixpoint parity (n : nat) (f : Z -> bool) : bool :=
  match n with O => false | S k => xorb (parity k f) (f (Z.of_nat k)) end.
Definition cl_bit (a b k : Z) : bool :=
  parity 32 (fun i => Z.testbit b i && Z.testbit a (k - i)).

Definition sh (b : Z) : Z := b mod 32.

Definition sem_rop (o : rop) (a b : Z) : Z :=
  match o with
  | ADD => (a + b) mod M32
  | SUB => (a - b) mod M32
  | SLL => (a * 2 ^ sh b) mod M32
  | SLT => if sgn a <? sgn b then 1 else 0
  | SLTU => if a <? b then 1 else 0
  | XOR => word (fun i => xorb (Z.testbit a i) (Z.testbit b i))
  | SRL => a / 2 ^ sh b
  | SRA => (sgn a / 2 ^ sh b) mod M32
  | OR => word (fun i => Z.testbit a i || Z.testbit b i)
  | AND => word (fun i => Z.testbit a i && Z.testbit b i)
  | SH1ADD => (b + 2 * a) mod M32
  | SH2ADD => (b + 4 * a) mod M32
  | SH3ADD => (b + 8 * a) mod M32
  | ANDN => word (fun i => Z.testbit a i && negb (Z.testbit b i))
  | ORN => word (fun i => Z.testbit a i || negb (Z.testbit b i))
  | XNOR => word (fun i => negb (xorb (Z.testbit a i) (Z.testbit b i)))
  | MIN => if sgn a <=? sgn b then a else b
  | MINU => Z.min a b
  | MAX => if sgn b <=? sgn a then a else b
  | MAXU => Z.max a b
  | ROL => word (fun i => Z.testbit a ((i - sh b) mod 32))
  | ROR => word (fun i => Z.testbit a ((i + sh b) mod 32))
  | CLMUL => word (fun k => cl_bit a b k)
  | CLMULH => word (fun k => cl_bit a b (k + 32))
  | CLMULR => word (fun k => cl_bit a b (k + 31))
  | BCLR => word (fun i => if i =? sh b then false else Z.testbit a i)
  | BEXT => if Z.testbit a (sh b) then 1 else 0
  | BINV => word (fun i => if i =? sh b then negb (Z.testbit a i) else Z.testbit a i)
  | BSET => word (fun i => if i =? sh b then true else Z.testbit a i)
  | PACK => a mod 2 ^ 16 + (b mod 2 ^ 16) * 2 ^ 16
  | PACKH => a mod 2 ^ 8 + (b mod 2 ^ 8) * 2 ^ 8
  end.

Definition sem_mop (o : mop) (a b : Z) : Z :=
  match o with
  | MUL => (a * b) mod M32
  | MULH => (sgn a * sgn b / M32) mod M32
  | MULHSU => (sgn a * b / M32) mod M32
  | MULHU => a * b / M32
  | DIV => if b =? 0 then M32 - 1 else (Z.quot (sgn a) (sgn b)) mod M32
  | DIVU => if b =? 0 then M32 - 1 else a / b
  | REM => if b =? 0 then a else (Z.rem (sgn a) (sgn b)) mod M32
  | REMU => if b =? 0 then a else a mod b
  end.

(** ** Register-immediate operations.  [imm] ranges over -2048..2047. *)
Inductive iop : Type := ADDI | SLTI | SLTIU | XORI | ORI | ANDI.
Definition iop_f (o : iop) : Z :=
  match o with ADDI => 0 | SLTI => 2 | SLTIU => 3 | XORI => 4 | ORI => 6 | ANDI => 7 end.
Definition enc_iop (o : iop) (rd rs1 imm : Z) : Z :=
  enc_I (fld imm 11 0) rs1 (iop_f o) rd 19.
Definition sem_iop (o : iop) (a imm : Z) : Z :=
  let b := imm mod M32 in
  match o with
  | ADDI => (a + imm) mod M32
  | SLTI => if sgn a <? imm then 1 else 0
  | SLTIU => if a <? b then 1 else 0
  | XORI => sem_rop XOR a b
  | ORI => sem_rop OR a b
  | ANDI => sem_rop AND a b
  end.

(** Shift/bit immediates, [0 <= shamt < 32]; same meaning as the register form
    with the amount in the register. *)
Inductive shop : Type := SLLI | SRLI | SRAI | RORI | BCLRI | BEXTI | BINVI | BSETI.
Definition shop_r (o : shop) : rop :=
  match o with SLLI => SLL | SRLI => SRL | SRAI => SRA | RORI => ROR
             | BCLRI => BCLR | BEXTI => BEXT | BINVI => BINV | BSETI => BSET end.
Definition enc_shop (o : shop) (rd rs1 shamt : Z) : Z :=
  enc_R (fst (rop_f (shop_r o))) shamt rs1 (snd (rop_f (shop_r o))) rd 19.
Definition sem_shop (o : shop) (a shamt : Z) : Z := sem_rop (shop_r o) a shamt.

(** Unary operations *)
Inductive uop1 : Type := CLZ | CTZ | CPOP | SEXTB | SEXTH | REV8 | ORCB | ZEXTH.
(** (opcode, funct7, rs2 field, funct3) *)
Definition enc_uop1 (o : uop1) (rd rs1 : Z) : Z :=
  match o with
  | CLZ => enc_R 48 0 rs1 1 rd 19
  | CTZ => enc_R 48 1 rs1 1 rd 19
  | CPOP => enc_R 48 2 rs1 1 rd 19
  | SEXTB => enc_R 48 4 rs1 1 rd 19
  | SEXTH => enc_R 48 5 rs1 1 rd 19
  | REV8 => enc_R 52 24 rs1 5 rd 19
  | ORCB => enc_R 20 7 rs1 5 rd 19
  | ZEXTH => enc_R 4 0 rs1 4 rd 51
  end.
(** Zeros above the highest set bit among the [n] lowest bits. *)
Fixpoint lead0 (n : nat) (a : Z) : Z :=
  match n with O => 0 | S k => if Z.testbit a (Z.of_nat k) then 0 else 1 + lead0 k a end.
(** Zeros below the lowest set bit, looking at [n] bits from [i] upwards. *)
Fixpoint trail0 (n : nat) (i : Z) (a : Z) : Z :=
  match n with O => 0 | S k => if Z.testbit a i then 0 else 1 + trail0 k (i + 1) a end.
Fixpoint ones (n : nat) (a : Z) : Z :=
  match n with O => 0 | S k => (if Z.testbit a (Z.of_nat k) then 1 else 0) + ones k a end.
Definition byte_of (a j : Z) : Z := (a / 2 ^ (8 * j)) mod 256.
Definition sem_uop1 (o : uop1) (a : Z) : Z :=
  match o with
  | CLZ => lead0 32 a
  | CTZ => trail0 32 0 a
  | CPOP => ones 32 a
  | SEXTB => word (fun i => Z.testbit a (Z.min i 7))
  | SEXTH => word (fun i => Z.testbit a (Z.min i 15))
  | REV8 => byte_of a 3 + byte_of a 2 * 2 ^ 8 + byte_of a 1 * 2 ^ 16 + byte_of a 0 * 2 ^ 24
  | ORCB => word (fun i => negb (byte_of a (i / 8) =? 0))
  | ZEXTH => a mod 2 ^ 16
  end.

(** ** Upper immediates, jumps, branches *)
Definition enc_lui (rd imm20 : Z) : Z := enc_U imm20 rd 55.
Definition enc_auipc (rd imm20 : Z) : Z := enc_U imm20 rd 23.
Definition enc_jal (rd off : Z) : Z := enc_J off rd 111.
Definition enc_jalr (rd rs1 imm : Z) : Z := enc_I (fld imm 11 0) rs1 0 rd 103.
Inductive bop : Type := BEQ | BNE | BLT | BGE | BLTU | BGEU.
Definition bop_f (o : bop) : Z :=
  match o with BEQ => 0 | BNE => 1 | BLT => 4 | BGE => 5 | BLTU => 6 | BGEU => 7 end.
Definition enc_bop (o : bop) (rs1 rs2 off : Z) : Z := enc_B off rs2 rs1 (bop_f o) 99.
Definition bcond (o : bop) (a b : Z) : bool :=
  match o with
  | BEQ => a =? b
  | BNE => negb (a =? b)
  | BLT => sgn a <? sgn b
  | BGE => negb (sgn a <? sgn b)
  | BLTU => a <? b
  | BGEU => negb (a <? b)
  end.
Definition next_bop (o : bop) (pc a b off : Z) : Z :=
  if bcond o a b then (pc + off) mod M32 else (pc + 4) mod M32.
Definition next_jal (pc off : Z) : Z := (pc + off) mod M32.
Definition next_jalr (a imm : Z) : Z := 2 * (((a + imm) mod M32) / 2).

(** ** Memory instructions *)
Definition enc_load (f3 rd rs1 imm : Z) : Z := enc_I (fld imm 11 0) rs1 f3 rd 3.
Definition enc_store (f3 rs1 rs2 imm : Z) : Z := enc_S imm rs2 rs1 f3 35.
Inductive amo : Type :=
| AMOSWAP | AMOADD | AMOXOR | AMOAND | AMOOR | AMOMIN | AMOMAX | AMOMINU | AMOMAXU.
Definition amo_f (o : amo) : Z :=
  match o with AMOSWAP => 1 | AMOADD => 0 | AMOXOR => 4 | AMOAND => 12 | AMOOR => 8
             | AMOMIN => 16 | AMOMAX => 20 | AMOMINU => 24 | AMOMAXU => 28 end.
(** [aqrl] is the two-bit aq/rl field. *)
Definition enc_amo (o : amo) (aqrl rd rs1 rs2 : Z) : Z :=
  enc_R (amo_f o * 4 + aqrl) rs2 rs1 2 rd 47.
Definition enc_lr (aqrl rd rs1 : Z) : Z := enc_R (2 * 4 + aqrl) 0 rs1 2 rd 47.
Definition enc_sc (aqrl rd rs1 rs2 : Z) : Z := enc_R (3 * 4 + aqrl) rs2 rs1 2 rd 47.
(** New memory value from the old value [m] and the register operand [b]. *)
Definition sem_amo (o : amo) (m b : Z) : Z :=
  match o with
  | AMOSWAP => b
  | AMOADD => (m + b) mod M32
  | AMOXOR => sem_rop XOR m b
  | AMOAND => sem_rop AND m b
  | AMOOR => sem_rop OR m b
  | AMOMIN => if sgn m <=? sgn b then m else b
  | AMOMAX => if sgn b <=? sgn m then m else b
  | AMOMINU => Z.min m b
  | AMOMAXU => Z.max m b
  end.

(** ** Immediates of an arbitrary word, bit by bit (ISA manual, figure 2.4). *)
Definition isa_immI (w : Z) : Z :=
  word (fun i => if i <? 11 then Z.testbit w (i + 20) else Z.testbit w 31).
Definition isa_immS (w : Z) : Z :=
  word (fun i => if i <? 5 then Z.testbit w (i + 7)
                 else if i <? 11 then Z.testbit w (i + 20) else Z.testbit w 31).
Definition isa_immB (w : Z) : Z :=
  word (fun i => if i =? 0 then false
                 else if i <? 5 then Z.testbit w (i + 7)
                 else if i <? 11 then Z.testbit w (i + 20)
                 else if i =? 11 then Z.testbit w 7 else Z.testbit w 31).
Definition isa_immU (w : Z) : Z :=
  word (fun i => if i <? 12 then false else Z.testbit w i).
Definition isa_immJ (w : Z) : Z :=
  word (fun i => if i =? 0 then false
                 else if i <? 11 then Z.testbit w (i + 20)
                 else if i =? 11 then Z.testbit w 20
                 else if i <? 20 then Z.testbit w i else Z.testbit w 31).

Definition reg_ix (r : Z) : Prop := 0 <= r < 32.
