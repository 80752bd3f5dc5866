(** Instruction decode, micro-op decomposition and functional units.
    Models: diff/include/ref.h:11-30 (field macros), back-end/Idu.cpp:289-551
    (Idu::decode), back-end/Dispatch.cpp:797-993 (decompose_inst),
    back-end/Exu/include/Fu.h (impl_compute of every unit). *)
From Verif Require Import Base.

(** Result of a functional unit.  [Val]: the unit assigned [inst.result].
    [Stale]: no assignment was executed, the field keeps its previous contents.
    [UB]: C++ undefined behaviour (shift by the word width or more).
    [Fail]: an [Assert(0)] was reached. *)
Inductive outcome : Type :=
| Val (z : Z)
| Stale
| UB
| Fail.

(** ** Immediates, diff/include/ref.h:14-30.
    [SEXT(x,len)] stores [x] in a signed bit-field of [len] bits and widens to
    64 bits; assigning to [uop.imm] (wire<32>) truncates to 32 bits. *)
Definition sext (x len : Z) : Z :=
  let y := x mod 2 ^ len in if y <? 2 ^ (len - 1) then y else y - 2 ^ len.
Definition immI (i : Z) : Z := w32 (sext (bits i 31 20) 12).
Definition immU (i : Z) : Z := w32 (Z.shiftl (sext (bits i 31 12) 20) 12).
Definition immS (i : Z) : Z :=
  w32 (Z.lor (Z.shiftl (sext (bits i 31 25) 7) 5) (bits i 11 7)).
Definition immJ (i : Z) : Z :=
  w32 (Z.lor (Z.lor (Z.lor (Z.shiftl (sext (bits i 31 31) 1) 20)
                           (Z.shiftl (bits i 19 12) 12))
                    (Z.shiftl (bits i 20 20) 11))
             (Z.shiftl (bits i 30 21) 1)).
Definition immB (i : Z) : Z :=
  w32 (Z.lor (Z.lor (Z.lor (Z.shiftl (sext (bits i 31 31) 1) 12)
                           (Z.shiftl (bits i 7 7) 11))
                    (Z.shiftl (bits i 30 25) 5))
             (Z.shiftl (bits i 11 8) 1)).

(** ** back-end/include/types.h:23-44 *)
Inductive inst_type : Type :=
| T_NOP | T_JAL | T_JALR | T_ADD | T_BR | T_LOAD | T_STORE | T_CSR | T_FENCE
| T_ECALL | T_EBREAK | T_WFI | T_SFENCE_VMA | T_FENCE_I | T_MRET | T_SRET
| T_MUL | T_DIV | T_AMO | T_FP.

Definition it_eqb (a b : inst_type) : bool :=
  match a, b with
  | T_NOP, T_NOP | T_JAL, T_JAL | T_JALR, T_JALR | T_ADD, T_ADD | T_BR, T_BR
  | T_LOAD, T_LOAD | T_STORE, T_STORE | T_CSR, T_CSR | T_FENCE, T_FENCE
  | T_ECALL, T_ECALL | T_EBREAK, T_EBREAK | T_WFI, T_WFI
  | T_SFENCE_VMA, T_SFENCE_VMA | T_FENCE_I, T_FENCE_I | T_MRET, T_MRET
  | T_SRET, T_SRET | T_MUL, T_MUL | T_DIV, T_DIV | T_AMO, T_AMO | T_FP, T_FP => true
  | _, _ => false
  end.

(** back-end/include/types.h:50-62 *)
Definition AMO_ADD := 0.
Definition AMO_SWAP := 1.
Definition AMO_LR := 2.
Definition AMO_SC := 3.
Definition AMO_XOR := 4.
Definition AMO_OR := 8.
Definition AMO_AND := 12.
Definition AMO_MIN := 16.
Definition AMO_MAX := 20.
Definition AMO_MINU := 24.
Definition AMO_MAXU := 28.

(** DecRenIO::DecRenInst, restricted to the fields [Idu::decode] writes and the
    execution path reads (debug, tma and fetch bookkeeping fields omitted). *)
Record duop := mk_duop {
  d_dest_areg : Z; d_src1_areg : Z; d_src2_areg : Z;
  d_dest_en : bool; d_src1_en : bool; d_src2_en : bool;
  d_src1_is_pc : bool; d_src2_is_imm : bool;
  d_func3 : Z; d_func7 : Z; d_imm : Z; d_csr_idx : Z;
  d_type : inst_type; d_is_atomic : bool; d_illegal : bool }.

(** back-end/Exu/include/Csr.h:13-35, the addresses listed in
    back-end/Idu.cpp:438-448. *)
Definition known_csrs : list Z :=
  [773; 833; 834; 772; 836; 835; 832; 768; 771; 770;   (* mtvec .. medeleg *)
   321; 261; 322; 320; 323; 256; 260; 324; 384; 3860; 769]. (* sepc .. misa *)
Definition csr_known (a : Z) : bool := existsb (Z.eqb a) known_csrs.

(** Idu::decode, back-end/Idu.cpp:289-551.  [decoded = {}] (Idu.cpp:114) makes
    every field zero first, hence [imm = 0] where no case assigns it. *)
Definition decode_case (inst : Z) : duop :=
  let opcode := bits inst 6 0 in
  let f3 := bits inst 14 12 in
  let f7 := bits inst 31 25 in
  let rd := bits inst 11 7 in
  let rs1 := bits inst 19 15 in
  let rs2 := bits inst 24 20 in
  let csr := Z.shiftr inst 20 in
  let u de s1e s2e s1 pc im t imm fn3 at_ ill :=
    mk_duop rd s1 rs2 de s1e s2e pc im fn3 f7 imm csr t at_ ill in
  if opcode =? 55 then (* lui, l.324-333 *)
    u true true false 0 false true T_ADD (immU inst) 0 false false
  else if opcode =? 23 then (* auipc, l.334-343 *)
    u true false false rs1 true true T_ADD (immU inst) 0 false false
  else if opcode =? 111 then (* jal, l.344-354 *)
    u true false false rs1 true true T_JAL (immJ inst) 0 false false
  else if opcode =? 103 then (* jalr, l.355-366 *)
    u true true false rs1 true true T_JALR (immI inst) 0 false false
  else if opcode =? 99 then (* branches, l.367-374 *)
    u false true true rs1 false true T_BR (immB inst) f3 false false
  else if opcode =? 3 then (* loads, l.375-382 *)
    u true true false rs1 false true T_LOAD (immI inst) f3 false false
  else if opcode =? 35 then (* stores, l.383-390 *)
    u false true true rs1 false true T_STORE (immS inst) f3 false false
  else if opcode =? 19 then (* op-imm, l.391-400 *)
    u true true false rs1 false true T_ADD (immI inst) f3 false false
  else if opcode =? 51 then (* op, l.401-417 *)
    u true true true rs1 false false
      (if f7 =? 1 then if Z.testbit f3 2 then T_DIV else T_MUL else T_ADD)
      0 f3 false false
  else if opcode =? 15 then (* fence, l.418-430 *)
    u false false false rs1 false true
      (if f3 =? 1 then T_FENCE_I else T_FENCE) 0 f3 false false
  else if opcode =? 115 then (* system, l.431-492 *)
    let iscsr := Z.testbit f3 0 || Z.testbit f3 1 in
    let isimm := Z.testbit f3 2 && iscsr in
    if iscsr then
      if csr_known csr then
        u true true (negb isimm) rs1 false isimm T_CSR rs1 f3 false false
      else
        u false false false rs1 false isimm T_NOP 0 f3 false
          ((csr =? 3073) || (csr =? 3201))
    else
      if inst =? 115 then u false false false rs1 false isimm T_ECALL 0 f3 false false
      else if inst =? 1048691 then u false false false rs1 false isimm T_EBREAK 0 f3 false false
      else if inst =? 807403635 then u false false false rs1 false isimm T_MRET 0 f3 false false
      else if inst =? 273678451 then u false false false rs1 false isimm T_WFI 0 f3 false false
      else if inst =? 270532723 then u false false false rs1 false isimm T_SRET 0 f3 false false
      else if (f7 =? 9) && (f3 =? 0) && (rd =? 0)
      then u false true true rs1 false isimm T_SFENCE_VMA 0 f3 false false
      else u false false false rs1 false isimm T_NOP 0 f3 false false
  else if opcode =? 47 then (* amo, l.494-507 *)
    u true true (negb (Z.shiftr f7 2 =? AMO_LR)) rs1 false true T_AMO 0 f3 true false
  else if opcode =? 83 then (* float, l.509-522 *)
    u true true
      (negb ((f7 =? 96) || (f7 =? 104) || (f7 =? 44) || (f7 =? 112)))
      rs1 false false T_FP rs2 f3 false false
  else (* l.524-531 *)
    u false false false rs1 false true T_NOP 0 f3 false true.

(** The destination fix-ups of Idu.cpp:544-550. *)
Definition decode (inst : Z) : duop :=
  let u := decode_case inst in
  let amo_rmw := it_eqb (d_type u) T_AMO &&
                 negb (Z.shiftr (d_func7 u) 2 =? AMO_LR) &&
                 negb (Z.shiftr (d_func7 u) 2 =? AMO_SC) in
  let rd := if amo_rmw && (d_dest_areg u =? 0) then 32 else d_dest_areg u in
  mk_duop rd (d_src1_areg u) (d_src2_areg u)
    (if rd =? 0 then false else d_dest_en u) (d_src1_en u) (d_src2_en u)
    (d_src1_is_pc u) (d_src2_is_imm u) (d_func3 u) (d_func7 u) (d_imm u)
    (d_csr_idx u) (d_type u) (d_is_atomic u) (d_illegal u).

(** ** Micro-ops *)
Inductive uop_type : Type :=
| U_JUMP | U_ADD | U_BR | U_LOAD | U_STA | U_STD | U_CSR | U_FENCE | U_ECALL
| U_EBREAK | U_SFENCE_VMA | U_FENCE_I | U_MRET | U_SRET | U_MUL | U_DIV | U_WFI
| U_FP.
Inductive iq_id : Type := IQ_INT | IQ_LD | IQ_STA | IQ_STD | IQ_BR.

(** What a micro-op reads as its first register operand: the instruction's own
    first source, or (AMO store data, Dispatch.cpp:938) the value its load half
    wrote to the destination register. *)
Inductive src1_from : Type := S1_src1 | S1_dest.

Record muop := mk_muop {
  m_iq : iq_id; m_op : uop_type;
  m_dest_en : bool; m_src1_en : bool; m_src2_en : bool;
  m_src1_sel : src1_from;
  m_src1_is_pc : bool; m_src2_is_imm : bool;
  m_func3 : Z; m_func7 : Z; m_imm : Z; m_is_atomic : bool }.

(** make_dis_iss_uop, Dispatch.cpp:767-795 *)
Definition mk_uop (u : duop) (q : iq_id) (op : uop_type) : muop :=
  mk_muop q op (d_dest_en u) (d_src1_en u) (d_src2_en u) S1_src1
    (d_src1_is_pc u) (d_src2_is_imm u) (d_func3 u) (d_func7 u) (d_imm u)
    (d_is_atomic u).
Definition set_en (m : muop) (de s1 s2 : bool) : muop :=
  mk_muop (m_iq m) (m_op m) de s1 s2 (m_src1_sel m) (m_src1_is_pc m)
    (m_src2_is_imm m) (m_func3 m) (m_func7 m) (m_imm m) (m_is_atomic m).
Definition set_imm (m : muop) (i : Z) : muop :=
  mk_muop (m_iq m) (m_op m) (m_dest_en m) (m_src1_en m) (m_src2_en m)
    (m_src1_sel m) (m_src1_is_pc m) (m_src2_is_imm m) (m_func3 m) (m_func7 m)
    i (m_is_atomic m).
Definition set_amo_std (m : muop) (sel : src1_from) : muop :=
  mk_muop (m_iq m) (m_op m) (m_dest_en m) (m_src1_en m) (m_src2_en m)
    sel (m_src1_is_pc m) (m_src2_is_imm m) (m_func3 m) (m_func7 m)
    (m_imm m) true.

(** Dispatch::decompose_inst, Dispatch.cpp:797-993 (busy bits are part of the
    dispatch model, not of this one). *)
Definition decompose (u : duop) : list muop :=
  match d_type u with
  | T_ADD => [mk_uop u IQ_INT U_ADD]
  | T_MUL => [mk_uop u IQ_INT U_MUL]
  | T_DIV => [mk_uop u IQ_INT U_DIV]
  | T_FP => [mk_uop u IQ_INT U_FP]
  | T_BR => [mk_uop u IQ_BR U_BR]
  | T_LOAD => [mk_uop u IQ_LD U_LOAD]
  | T_STORE =>
      [set_en (mk_uop u IQ_STA U_STA) (d_dest_en u) (d_src1_en u) false;
       set_en (mk_uop u IQ_STD U_STD) (d_dest_en u) false true]
  | T_JALR =>
      [set_imm (set_en (mk_uop u IQ_INT U_ADD) (d_dest_en u) false false) 4;
       set_en (mk_uop u IQ_BR U_JUMP) false true (d_src2_en u)]
  | T_JAL =>
      [set_imm (set_en (mk_uop u IQ_INT U_ADD) (d_dest_en u) false false) 4;
       set_en (mk_uop u IQ_BR U_JUMP) false (d_src1_en u) (d_src2_en u)]
  | T_AMO =>
      if Z.shiftr (d_func7 u) 2 =? AMO_LR then
        [set_en (mk_uop u IQ_LD U_LOAD) (d_dest_en u) (d_src1_en u) false]
      else if Z.shiftr (d_func7 u) 2 =? AMO_SC then
        [set_en (mk_uop u IQ_STA U_STA) true (d_src1_en u) false;
         set_amo_std (set_en (mk_uop u IQ_STD U_STD) false false (d_src2_en u)) S1_src1]
      else
        [set_en (mk_uop u IQ_LD U_LOAD) (d_dest_en u) (d_src1_en u) false;
         set_en (mk_uop u IQ_STA U_STA) false (d_src1_en u) false;
         set_amo_std (set_en (mk_uop u IQ_STD U_STD) false (d_src1_en u) (d_src2_en u)) S1_dest]
  | T_NOP => [mk_uop u IQ_INT U_ADD]
  | T_CSR => [mk_uop u IQ_INT U_CSR]
  | T_FENCE => [mk_uop u IQ_INT U_FENCE]
  | T_ECALL => [mk_uop u IQ_INT U_ECALL]
  | T_MRET => [mk_uop u IQ_INT U_MRET]
  | T_SRET => [mk_uop u IQ_INT U_SRET]
  | T_SFENCE_VMA => [mk_uop u IQ_INT U_SFENCE_VMA]
  | T_FENCE_I => [mk_uop u IQ_INT U_FENCE_I]
  | T_EBREAK => [mk_uop u IQ_INT U_EBREAK]
  | T_WFI => [mk_uop u IQ_INT U_WFI]
  end.

(** ** Compiler builtins used by the ALU *)
(** __builtin_clz on a non-zero 32-bit word. *)
Definition builtin_clz (x : Z) : Z := 31 - Z.log2 x.
(** __builtin_ctz on a non-zero word: position of the lowest set bit. *)
Definition builtin_ctz (x : Z) : Z := Z.log2 (Z.land x (- x)).
Fixpoint pos_popcount (p : positive) : Z :=
  match p with
  | xH => 1
  | xO q => pos_popcount q
  | xI q => 1 + pos_popcount q
  end.
(** __builtin_popcount *)
Definition builtin_popcount (x : Z) : Z :=
  match x with Zpos p => pos_popcount p | _ => 0 end.

(** uint32_t shifts.  Shifting by 32 or more is undefined. *)
Definition shl (a s : Z) : Z := w32 (Z.shiftl a s).
Definition shr (a s : Z) : Z := Z.shiftr a s.
(** (int32_t)a >> s *)
Definition sar (a s : Z) : Z := w32 (Z.shiftr (s32 a) s).
Definition not32 (a : Z) : Z := Z.lxor a (2 ^ 32 - 1).

(** (a << s) | (a >> (32 - s)) with s in 0..31, Fu.h:55. *)
Definition rol_c (a s : Z) : outcome :=
  if s =? 0 then UB else Val (Z.lor (shl a s) (shr a (32 - s))).
(** (a >> s) | (a << (32 - s)), Fu.h:144. *)
Definition ror_c (a s : Z) : outcome :=
  if s =? 0 then UB else Val (Z.lor (shr a s) (shl a (32 - s))).

(** The clmul loops, Fu.h:62-69, 89-96, 104-111. *)
Definition clmul_loop (a b : Z) (is : list nat) (term : Z -> Z) : Z :=
  fold_left (fun out i =>
    if Z.testbit b (Z.of_nat i) then Z.lxor out (term (Z.of_nat i)) else out) is 0.
Definition clmul_c (a b : Z) : Z := clmul_loop a b (seq 0 32) (fun i => shl a i).
Definition clmulr_c (a b : Z) : Z := clmul_loop a b (seq 0 32) (fun i => shr a (31 - i)).
Definition clmulh_c (a b : Z) : Z := clmul_loop a b (seq 1 31) (fun i => shr a (32 - i)).

(** (uint32_t)(int32_t)(int8_t)(a & 0xFF) and the int16_t variant. *)
Definition sextb_c (a : Z) : Z :=
  let x := Z.land a 255 in w32 (if x <? 128 then x else x - 256).
Definition sexth_c (a : Z) : Z :=
  let x := Z.land a 65535 in w32 (if x <? 32768 then x else x - 65536).

Definition rev8_c (x : Z) : Z :=
  Z.lor (Z.lor (Z.lor (shl (Z.land x 255) 24) (shl (Z.land x 65280) 8))
               (shr (Z.land x 16711680) 8))
        (shr (Z.land x 4278190080) 24).
Definition orcb_c (x : Z) : Z :=
  let r0 := if nz (Z.land x 255) then 255 else 0 in
  let r1 := if nz (Z.land x 65280) then Z.lor r0 65280 else r0 in
  let r2 := if nz (Z.land x 16711680) then Z.lor r1 16711680 else r1 in
  if nz (Z.land x 4278190080) then Z.lor r2 4278190080 else r2.

(** Inputs common to all units: the micro-op plus operand values and PC. *)
(** AluUnit::impl_compute, Fu.h:26-216. *)
Definition alu_add_case (m : muop) (a b : Z) : outcome :=
  let f3 := m_func3 m in
  let f7 := m_func7 m in
  let isimm := m_src2_is_imm m in
  let sh := Z.land b 31 in
  if f3 =? 0 then (* SUB, l.44-49 *)
    if Z.testbit f7 5 && negb isimm then Val (w32 (a - b)) else Val (w32 (a + b))
  else if f3 =? 1 then (* SLL, l.50-83 *)
    if f7 =? 0 then Val (shl a sh)
    else if (f7 =? 48) && negb isimm then rol_c a sh
    else if f7 =? 36 then Val (Z.land a (not32 (shl 1 sh)))
    else if f7 =? 20 then Val (Z.lor a (shl 1 sh))
    else if f7 =? 52 then Val (Z.lxor a (shl 1 sh))
    else if f7 =? 5 then Val (clmul_c a b)
    else if (f7 =? 48) && isimm then
      let sub := Z.land (m_imm m) 31 in
      if sub =? 0 then Val (if a =? 0 then 32 else builtin_clz a)
      else if sub =? 1 then Val (if a =? 0 then 32 else builtin_ctz a)
      else if sub =? 2 then Val (builtin_popcount a)
      else if sub =? 4 then Val (sextb_c a)
      else if sub =? 5 then Val (sexth_c a)
      else Stale
    else Stale
  else if f3 =? 2 then (* SLT, l.84-100 *)
    if f7 =? 0 then Val (b2z (s32 a <? s32 b))
    else if (f7 =? 16) && negb isimm then Val (w32 (b + shl a 1))
    else if (f7 =? 5) && negb isimm then Val (clmulr_c a b)
    else Val (b2z (s32 a <? s32 b))
  else if f3 =? 3 then (* SLTU, l.101-115 *)
    if f7 =? 0 then Val (b2z (a <? b))
    else if (f7 =? 5) && negb isimm then Val (clmulh_c a b)
    else Val (b2z (a <? b))
  else if f3 =? 4 then (* XOR, l.116-131 *)
    if f7 =? 0 then Val (Z.lxor a b)
    else if (f7 =? 32) && negb isimm then Val (not32 (Z.lxor a b))
    else if (f7 =? 16) && negb isimm then Val (w32 (b + shl a 2))
    else if (f7 =? 5) && negb isimm then Val (if s32 a <? s32 b then a else b)
    else if (f7 =? 4) && negb isimm then Val (Z.lor (Z.land a 65535) (shl b 16))
    else Val (Z.lxor a b)
  else if f3 =? 5 then (* SRL, l.132-173 *)
    if f7 =? 0 then Val (shr a sh)
    else if (f7 =? 32) && negb isimm then Val (sar a sh)
    else if Z.testbit f7 5 && isimm && negb (f7 =? 48) && negb (f7 =? 36) &&
            negb (f7 =? 52) && negb (f7 =? 20) then Val (sar a sh)
    else if f7 =? 48 then ror_c a sh
    else if f7 =? 36 then Val (Z.land (shr a sh) 1)
    else if (f7 =? 52) && isimm then
      if Z.land (m_imm m) 31 =? 24 then Val (rev8_c a) else Stale
    else if (f7 =? 20) && isimm then
      if Z.land (m_imm m) 31 =? 7 then Val (orcb_c a) else Stale
    else if (f7 =? 5) && negb isimm then Val (if a <? b then a else b)
    else Val (shr a sh)
  else if f3 =? 6 then (* OR, l.174-187 *)
    if f7 =? 0 then Val (Z.lor a b)
    else if (f7 =? 32) && negb isimm then Val (Z.lor a (not32 b))
    else if (f7 =? 5) && negb isimm then Val (if s32 b <? s32 a then a else b)
    else if (f7 =? 16) && negb isimm then Val (w32 (b + shl a 3))
    else Val (Z.lor a b)
  else if f3 =? 7 then (* AND, l.188-203 *)
    if f7 =? 0 then Val (Z.land a b)
    else if (f7 =? 32) && negb isimm then Val (Z.land a (not32 b))
    else if (f7 =? 5) && negb isimm then Val (if b <? a then a else b)
    else if (f7 =? 4) && negb isimm
    then Val (Z.lor (Z.land a 255) (shl (Z.land b 255) 8))
    else Val (Z.land a b)
  else Fail.

Definition alu (m : muop) (pc v1 v2 : Z) : outcome :=
  let a := if m_src1_is_pc m then pc else v1 in
  let b := if m_src2_is_imm m then m_imm m
           else match m_op m with U_JUMP => 4 | _ => v2 end in
  match m_op m with
  | U_ADD => alu_add_case m a b
  | U_WFI => Val 0
  | _ => Val (w32 (a + b))
  end.

(** AguUnit::impl_compute, Fu.h:227-233: 32-bit addition, then widened. *)
Definition agu (m : muop) (v1 : Z) : Z := w32 (v1 + m_imm m).

(** SduUnit::impl_compute, Fu.h:244-297. *)
Definition sdu (m : muop) (op1 op2 : Z) : Z :=
  if negb (m_is_atomic m) then op2
  else
    let o := Z.shiftr (m_func7 m) 2 in
    if o =? AMO_SWAP then op2
    else if o =? AMO_ADD then w32 (op1 + op2)
    else if o =? AMO_XOR then Z.lxor op1 op2
    else if o =? AMO_AND then Z.land op1 op2
    else if o =? AMO_OR then Z.lor op1 op2
    else if o =? AMO_MIN then (if s32 op1 <? s32 op2 then op1 else op2)
    else if o =? AMO_MAX then (if s32 op2 <? s32 op1 then op1 else op2)
    else if o =? AMO_MINU then (if op1 <? op2 then op1 else op2)
    else if o =? AMO_MAXU then (if op2 <? op1 then op1 else op2)
    else op2.

(** MulUnit::impl_compute, Fu.h:309-332.  64-bit products; the signed products
    fit in int64_t (|s1*s2| <= 2^62, |s1*u2| < 2^63), so no signed overflow. *)
Definition mul_unit (m : muop) (v1 v2 : Z) : outcome :=
  let f3 := m_func3 m in
  if f3 =? 0 then Val (w32 (wrap 64 (v1 * v2)))
  else if f3 =? 1 then Val (w32 (Z.shiftr (s32 v1 * s32 v2) 32))
  else if f3 =? 2 then Val (w32 (Z.shiftr (s32 v1 * v2) 32))
  else if f3 =? 3 then Val (w32 (Z.shiftr (wrap 64 (v1 * v2)) 32))
  else Fail.

(** DivUnit::impl_compute, Fu.h:433-473.  C++ signed division truncates. *)
Definition div_unit (m : muop) (v1 v2 : Z) : outcome :=
  let f3 := m_func3 m in
  if f3 =? 4 then
    Val (if s32 v2 =? 0 then w32 (-1)
         else if (s32 v1 =? - 2 ^ 31) && (s32 v2 =? -1) then w32 (- 2 ^ 31)
         else w32 (Z.quot (s32 v1) (s32 v2)))
  else if f3 =? 5 then Val (if v2 =? 0 then 2 ^ 32 - 1 else v1 / v2)
  else if f3 =? 6 then
    Val (if s32 v2 =? 0 then w32 (s32 v1)
         else if (s32 v1 =? - 2 ^ 31) && (s32 v2 =? -1) then 0
         else w32 (Z.rem (s32 v1) (s32 v2)))
  else if f3 =? 7 then Val (if v2 =? 0 then v1 else v1 mod v2)
  else Fail.

(** BruUnit::impl_compute, Fu.h:349-419 (CONFIG_BPU build). *)
Record bru_out := mk_bru { bo_taken : bool; bo_target : Z; bo_mispred : bool }.
Definition bru (m : muop) (pc v1 v2 : Z) (pred_taken : bool) (ftq_next_pc : Z) : bru_out :=
  let f3 := m_func3 m in
  let cond :=
    if f3 =? 0 then v1 =? v2
    else if f3 =? 1 then negb (v1 =? v2)
    else if f3 =? 5 then s32 v2 <=? s32 v1
    else if f3 =? 4 then s32 v1 <? s32 v2
    else if f3 =? 7 then v2 <=? v1
    else if f3 =? 6 then v1 <? v2
    else true in
  let taken := match m_op m with U_BR => cond | U_JUMP => true | _ => false end in
  let pc_br :=
    match m_op m with
    | U_JUMP => if m_src1_en m then Z.land (w32 (v1 + m_imm m)) (2 ^ 32 - 2)
                else w32 (pc + m_imm m)
    | _ => w32 (pc + m_imm m)
    end in
  let pred_target := if pred_taken then ftq_next_pc else w32 (pc + 4) in
  let ok := (taken && pred_taken && (pred_target =? pc_br)) ||
            (negb taken && negb pred_taken) in
  mk_bru taken (if taken then pc_br else w32 (pc + 4)) (negb ok).

(** ** One instruction through decode, decomposition and the units.
    [rf] is the architectural register file; an operand that is not enabled is
    read as 0 (read_operand_with_bypass, back-end/Prf.cpp:14-19). *)
Definition operand (en : bool) (rf : Z -> Z) (r : Z) : Z := if en then rf r else 0.

Definition exec_uop (u : duop) (m : muop) (rf : Z -> Z) (pc : Z) : outcome :=
  let v1 := operand (m_src1_en m) rf (d_src1_areg u) in
  let v2 := operand (m_src2_en m) rf (d_src2_areg u) in
  match m_op m with
  | U_MUL => mul_unit m v1 v2
  | U_DIV => div_unit m v1 v2
  | _ => alu m pc v1 v2
  end.

(** Value written to [d_dest_areg] by an instruction that is a single IQ_INT
    micro-op, or by the link half of JAL/JALR (always the first micro-op). *)
Definition exec_result (inst : Z) (rf : Z -> Z) (pc : Z) : outcome :=
  let u := decode inst in
  match decompose u with
  | m :: _ => exec_uop u m rf pc
  | [] => Fail
  end.

(** The branch micro-op of an instruction, if it has one. *)
Definition exec_branch (inst : Z) (rf : Z -> Z) (pc : Z) (pt : bool) (npc : Z)
  : option bru_out :=
  let u := decode inst in
  match filter (fun m => match m_iq m with IQ_BR => true | _ => false end) (decompose u) with
  | m :: _ => Some (bru m pc (operand (m_src1_en m) rf (d_src1_areg u))
                           (operand (m_src2_en m) rf (d_src2_areg u)) pt npc)
  | [] => None
  end.

(** Address computed by the first LD/STA micro-op. *)
Definition exec_addr (inst : Z) (rf : Z -> Z) : option Z :=
  let u := decode inst in
  match filter (fun m => match m_iq m with IQ_LD | IQ_STA => true | _ => false end) (decompose u) with
  | m :: _ => Some (agu m (operand (m_src1_en m) rf (d_src1_areg u)))
  | [] => None
  end.

(** Data computed by the STD micro-op; [old] is the value the load half of the
    same instruction wrote to the destination register. *)
Definition exec_store_data (inst : Z) (rf : Z -> Z) (old : Z) : option Z :=
  let u := decode inst in
  match filter (fun m => match m_iq m with IQ_STD => true | _ => false end) (decompose u) with
  | m :: _ =>
      Some (sdu m (if m_src1_en m then match m_src1_sel m with S1_src1 => rf (d_src1_areg u)
                                                            | S1_dest => old end else 0)
                  (operand (m_src2_en m) rf (d_src2_areg u)))
  | [] => None
  end.
