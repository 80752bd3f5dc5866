(** Specification for the CSR properties, written from the RISC-V privileged
    architecture: registers are read bit by bit; nothing here uses the masks or
    helper functions of CsrModel beyond register names and the state record. *)
From Verif Require Import Base CsrModel.

Definition mem (k : Z) (l : list Z) : bool := existsb (Z.eqb k) l.
(** Fields visible in sstatus; in sie and sip. *)
Definition SSTATUS_BITS := [0; 1; 4; 5; 8; 13; 14; 15; 16; 18; 19; 31].
Definition SINT_BITS := [0; 1; 4; 5; 8; 9].
(** Writable fields of mstatus; of mie and mip. *)
Definition MSTATUS_BITS := [0; 1; 3; 4; 5; 7; 8; 11; 12; 13; 14; 15; 16; 17; 18; 19; 20; 21; 22; 31].
Definition MINT_BITS := [0; 1; 3; 4; 5; 7; 8; 9; 11].

(** *** C17 *)
Definition is_view (bs : list Z) (v m : Z) : Prop := forall k, 0 <= k -> Z.testbit v k = mem k bs && Z.testbit m k.
Definition views (r : regs) : Prop :=
  is_view SSTATUS_BITS (r sstatus) (r mstatus) /\ is_view SINT_BITS (r sie) (r mie) /\ is_view SINT_BITS (r sip) (r mip).
Inductive reach (s0 : csr) : csr -> Prop :=
| reach_init : reach s0 s0
| reach_step s i s' : reach s0 s -> csr_step s i = Some s' -> reach s0 s'.
(** The CSR instruction: f3 = 1 csrrw, 2 csrrs, 3 csrrc, +4 immediate. *)
Definition isa_operand (f3 rs1 src1 : Z) : Z := if 4 <=? f3 then rs1 else src1.
Definition isa_new (f3 w old : Z) (k : Z) : bool :=
  if f3 mod 4 =? 1 then Z.testbit w k else if f3 mod 4 =? 2 then Z.testbit w k || Z.testbit old k
  else Z.testbit old k && negb (Z.testbit w k).
Definition isa_writes (f3 rs1 : Z) : bool := (f3 mod 4 =? 1) || negb (rs1 =? 0).
(** Bit [k] of register [d] after writing the bits [nw] to register [c]. *)
Definition base_of (c : cname) : cname := match c with sstatus => mstatus | sie => mie | sip => mip | _ => c end.
Definition base_bit (c : cname) (r : regs) (nw : Z -> bool) (k : Z) : bool :=
  match c with
  | mstatus => if mem k MSTATUS_BITS then nw k else Z.testbit (r mstatus) k
  | sstatus => if mem k SSTATUS_BITS then nw k else Z.testbit (r mstatus) k
  | mie | mip => mem k MINT_BITS && nw k
  | sie => if mem k SINT_BITS then nw k else Z.testbit (r mie) k
  | sip => if mem k SINT_BITS then nw k else Z.testbit (r mip) k
  | _ => nw k
  end.
Definition written (c : cname) (r : regs) (nw : Z -> bool) (d : cname) (k : Z) : bool :=
  if cname_beq d (base_of c) then base_bit c r nw k
  else if cname_beq (base_of d) (base_of c) then        (* the supervisor view *)
    match d with sstatus => mem k SSTATUS_BITS | _ => mem k SINT_BITS end && base_bit c r nw k
  else Z.testbit (r d) k.

(** *** C18 *)
Inductive exc := E_ecall | E_inst | E_load | E_store | E_illegal.
Definition code (pv : Z) (e : exc) : Z :=
  match e with E_ecall => 8 + pv | E_inst => 12 | E_load => 13 | E_store => 15 | E_illegal => 2 end.
(** What the reorder buffer reports for exception [e] and nothing else. *)
Definition reports (i : csr_in) (e : exc) : Prop :=
  x_intr i = false /\ x_commit i = false /\ x_mret i = false /\ x_sret i = false /\
  x_ecall i = (match e with E_ecall => true | _ => false end) /\ x_pfi i = (match e with E_inst => true | _ => false end) /\
  x_pfl i = (match e with E_load => true | _ => false end) /\ x_pfs i = (match e with E_store => true | _ => false end) /\
  x_ill i = (match e with E_illegal => true | _ => false end).
Definition reports_ret (i : csr_in) (m : bool) : Prop :=
  x_intr i = false /\ x_commit i = false /\ x_ecall i = false /\ x_pfi i = false /\ x_pfl i = false /\ x_pfs i = false /\
  x_ill i = false /\ x_mret i = m /\ x_sret i = negb m.
Definition reports_intr (i : csr_in) : Prop :=
  x_intr i = true /\ x_commit i = false /\ x_ecall i = false /\ x_pfi i = false /\ x_pfl i = false /\ x_pfs i = false /\
  x_ill i = false /\ x_mret i = false /\ x_sret i = false.
(** The handler's privilege: delegated traps from S or U go to S. *)
Definition target (st : csr) (e : exc) : Z :=
  if (priv st <=? 1) && Z.testbit (rf st medeleg) (code (priv st) e) then 1 else 3.
Definition exc_tval (i : csr_in) (e : exc) : Z := match e with E_ecall => 0 | _ => x_tval i end.
(** Entry into M (resp. S): the saved context, and nothing else changes in
    the status register. *)
Definition entered_m (st st' : csr) (pc cause tval : Z) : Prop :=
  priv st' = 3 /\ rf st' mepc = pc /\ rf st' mcause = cause /\ rf st' mtval = tval /\
  Z.testbit (rf st' mstatus) 3 = false /\ Z.testbit (rf st' mstatus) 7 = Z.testbit (rf st mstatus) 3 /\
  Z.testbit (rf st' mstatus) 11 = Z.testbit (priv st) 0 /\ Z.testbit (rf st' mstatus) 12 = Z.testbit (priv st) 1 /\
  (forall k, 0 <= k -> mem k [3; 7; 11; 12] = false -> Z.testbit (rf st' mstatus) k = Z.testbit (rf st mstatus) k).
Definition entered_s (st st' : csr) (pc cause tval : Z) : Prop :=
  priv st' = 1 /\ rf st' sepc = pc /\ rf st' scause = cause /\ rf st' stval = tval /\
  Z.testbit (rf st' mstatus) 1 = false /\ Z.testbit (rf st' mstatus) 5 = Z.testbit (rf st mstatus) 1 /\
  Z.testbit (rf st' mstatus) 8 = Z.testbit (priv st) 0 /\
  (forall k, 0 <= k -> mem k [1; 5; 8] = false -> Z.testbit (rf st' mstatus) k = Z.testbit (rf st mstatus) k).

(** *** C19 *)
Definition ready (st : csr) (n : Z) : bool := Z.testbit (rf st mip) n && Z.testbit (rf st mie) n.
Definition to_m (st : csr) (n : Z) : bool :=
  ready st n && negb (Z.testbit (rf st mideleg) n) && ((priv st <? 3) || Z.testbit (rf st mstatus) 3).
Definition to_s (st : csr) (n : Z) : bool :=
  ready st n && Z.testbit (rf st mideleg) n && ((priv st <? 1) || ((priv st =? 1) && Z.testbit (rf st mstatus) 1)).
(** Standard interrupts, highest priority first: MEI MSI MTI SEI SSI STI. *)
Definition LINES := [11; 3; 7; 9; 1; 5].
Definition spec_request (st : csr) : Prop := exists n, In n LINES /\ (to_m st n = true \/ to_s st n = true).
Definition spec_choice (st : csr) : option (Z * Z) :=    (* number, privilege *)
  match find (to_m st) LINES with
  | Some n => Some (n, 3)
  | None => match find (to_s st) LINES with Some n => Some (n, 1) | None => None end end.
Definition spec_vector (tvec : Z) (interrupt : bool) (n : Z) : Z :=
  let base := 4 * (tvec / 4) in if (tvec mod 4 =? 1) && interrupt then (base + 4 * n) mod 2 ^ 32 else base.
(** Usual configuration: supervisor interrupts delegated, machine ones not. *)
Definition usual_delegation (st : csr) : Prop :=
  Z.testbit (rf st mideleg) 1 = true /\ Z.testbit (rf st mideleg) 5 = true /\ Z.testbit (rf st mideleg) 9 = true /\
  Z.testbit (rf st mideleg) 3 = false /\ Z.testbit (rf st mideleg) 7 = false /\ Z.testbit (rf st mideleg) 11 = false.

(** *** C17: the CSR address map of the privileged specification. *)
Definition isa_number (c : cname) : Z :=
  match c with
  | sstatus => 0x100 | sie => 0x104 | stvec => 0x105 | sscratch => 0x140 | sepc => 0x141 | scause => 0x142 | stval => 0x143 | sip => 0x144
  | satp => 0x180
  | mstatus => 0x300 | misa => 0x301 | medeleg => 0x302 | mideleg => 0x303 | mie => 0x304 | mtvec => 0x305
  | mscratch => 0x340 | mepc => 0x341 | mcause => 0x342 | mtval => 0x343 | mip => 0x344
  | mhartid => 0xf14
  end.
