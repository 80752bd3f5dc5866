(** Control and status registers: back-end/Exu/Csr.cpp, back-end/Exu/include/
    Csr.h, and the request side Exu::comb_to_csr (back-end/Exu/Exu.cpp:241-278).
    Not here: debug_ptw_trace (statistics). *)
From Verif Require Import Base.

(** enum_csr, Csr.h:39-61 *)
Inductive cname :=
| mtvec | mepc | mcause | mie | mip | mtval | mscratch | mstatus | mideleg | medeleg
| sepc | stvec | scause | sscratch | stval | sstatus | sie | sip | satp | mhartid | misa.
Scheme Equality for cname.
Definition regs := cname -> Z.
Definition cset (r : regs) (c : cname) (v : Z) : regs := fun d => if cname_beq d c then v else r d.

(** cvt_number_to_csr, Csr.h:63-116; None is the abort. *)
Definition cvt (n : Z) : option cname :=
  if n =? 0x305 then Some mtvec else if n =? 0x341 then Some mepc else if n =? 0x342 then Some mcause
  else if n =? 0x304 then Some mie else if n =? 0x344 then Some mip else if n =? 0x343 then Some mtval
  else if n =? 0x340 then Some mscratch else if n =? 0x300 then Some mstatus else if n =? 0x303 then Some mideleg
  else if n =? 0x302 then Some medeleg else if n =? 0x141 then Some sepc else if n =? 0x105 then Some stvec
  else if n =? 0x142 then Some scause else if n =? 0x140 then Some sscratch else if n =? 0x143 then Some stval
  else if n =? 0x100 then Some sstatus else if n =? 0x104 then Some sie else if n =? 0x144 then Some sip
  else if n =? 0x180 then Some satp else if n =? 0xf14 then Some mhartid else if n =? 0x301 then Some misa
  else None.

(** diff/include/ref.h:33-50 *)
Definition MSTATUS_MIE := 8. Definition MSTATUS_MPIE := 128. Definition MSTATUS_SIE := 2.
Definition MSTATUS_SPIE := 32. Definition MSTATUS_MPP := 6144. Definition MSTATUS_SPP := 256.
Definition MIP_SSIP := 2. Definition MIP_MSIP := 8. Definition MIP_STIP := 32. Definition MIP_MTIP := 128.
Definition MIP_SEIP := 512. Definition MIP_MEIP := 2048.
Definition SSTATUS_MASK := 0x800DE133. Definition MSTATUS_MASK := 0x807FF9BB.
Definition MIE_MASK := 0xbbb. Definition SIE_MASK := 0x333.

(** CsrIn: exe2csr, rob2csr, rob_bcast, interrupt_inject. *)
Record csr_in := CsrIn {
  x_we : bool; x_re : bool; x_idx : Z; x_cmd : Z; x_wdata : Z;
  x_commit : bool; x_intr : bool;                    (* rob2csr *)
  x_ecall : bool; x_pfi : bool; x_pfl : bool; x_pfs : bool; x_ill : bool; x_mret : bool; x_sret : bool;
  x_pc : Z; x_tval : Z;
  x_ext : option bool; x_timer : option bool         (* *_pending if *_pending_valid *)
}.
Record csr := Csr { rf : regs; priv : Z; p_we : bool; p_idx : Z; p_cmd : Z; p_wdata : Z }.

(** eval_interrupts, Csr.cpp:16-49 *)
Record irq := Irq { m_soft : bool; m_timer : bool; m_ext : bool; s_soft : bool; s_timer : bool; s_ext : bool }.
Definition on (x m : Z) : bool := nz (Z.land x m).
Definition eval_interrupts (ms ie ip dl pv : Z) : irq :=
  let m_en := (pv <? 3) || on ms MSTATUS_MIE in
  let s_en := (pv <? 2) && ((pv <? 1) || ((pv =? 1) && on ms MSTATUS_SIE)) in
  let m b := on ip b && on ie b && negb (on dl b) && m_en in
  let s bm bs := ((on ip bm && on ie bm && on dl bm) || (on ip bs && on ie bs)) && s_en in
  Irq (m MIP_MSIP) (m MIP_MTIP) (m MIP_MEIP) (s MIP_MSIP MIP_SSIP) (s MIP_MTIP MIP_STIP) (s MIP_MEIP MIP_SEIP).
Definition irq_of (st : csr) : irq :=
  eval_interrupts (rf st mstatus) (rf st mie) (rf st mip) (rf st mideleg) (priv st).
Definition any_m (q : irq) : bool := m_soft q || m_timer q || m_ext q.
Definition any_s (q : irq) : bool := s_soft q || s_timer q || s_ext q.
(** comb_interrupt, l.80-91 *)
Definition interrupt_req (st : csr) : bool := any_m (irq_of st) || any_s (irq_of st).
(** comb_csr_read, l.74-78 *)
Definition csr_read (st : csr) (i : csr_in) : option Z :=
  if x_re i then option_map (rf st) (cvt (x_idx i)) else Some 0.

(** Redirect of csr2front. *)
Inductive front := FNone | FTrap (pc : Z) | FRet (pc : Z).

(** comb_exception, l.119-326 *)
Definition put (cond : bool) (m x : Z) : Z := if cond then Z.lor x m else Z.ldiff x m.
Definition dlg (d : Z) (k : Z) : bool := nz (Z.land (Z.shiftr d k) 1).
Definition m_trap (st : csr) (i : csr_in) : bool :=
  let d := rf st medeleg in let pv := priv st in
  (any_m (irq_of st) && x_intr i) || (x_ecall i && (pv =? 0) && negb (dlg d 8)) || (x_ecall i && (pv =? 1) && negb (dlg d 9)) ||
  (x_ecall i && (pv =? 3)) || (x_pfi i && negb (dlg d 12)) || (x_pfl i && negb (dlg d 13)) || (x_pfs i && negb (dlg d 15)) ||
  (x_ill i && negb (dlg d 2)).
Definition s_trap (st : csr) (i : csr_in) : bool :=
  let d := rf st medeleg in let pv := priv st in
  (any_s (irq_of st) && x_intr i) || (x_ecall i && (pv =? 0) && dlg d 8) || (x_ecall i && (pv =? 1) && dlg d 9) ||
  (x_pfi i && dlg d 12) || (x_pfl i && dlg d 13) || (x_pfs i && dlg d 15) || (x_ill i && dlg d 2).
(** l.171-190 *)
Definition m_cause (st : csr) (i : csr_in) : Z :=
  let d := rf st medeleg in let pv := priv st in let q := irq_of st in
  (if any_m q then 2 ^ 31 else 0) +
  (if m_soft q then 3 else if m_timer q then 7
   else if m_ext q || (x_ecall i && (pv =? 3) && negb (dlg d 8)) then 11
   else if x_ecall i && (pv =? 0) && negb (dlg d 8) then 8
   else if x_ecall i && (pv =? 1) && negb (dlg d 9) then 9
   else if x_pfi i && negb (dlg d 12) then 12
   else if x_pfl i && negb (dlg d 13) then 13
   else if x_pfs i && negb (dlg d 15) then 15
   else if x_ill i then 2 else 0).
(** l.226-244 *)
Definition s_cause (st : csr) (i : csr_in) : Z :=
  let d := rf st medeleg in let pv := priv st in let q := irq_of st in
  (if any_s q then 2 ^ 31 else 0) +
  (if s_ext q || (x_ecall i && (pv =? 1) && dlg d 9) then 9
   else if s_timer q then 5
   else if x_ecall i && (pv =? 0) && dlg d 8 then 8
   else if s_soft q then 1
   else if x_pfi i && dlg d 12 then 12
   else if x_pfl i && dlg d 13 then 13
   else if x_pfs i && dlg d 15 then 15
   else if x_ill i && dlg d 2 then 2 else 0).
(** l.194-201, l.248-255 *)
Definition vector (tvec cause : Z) : Z :=
  if on tvec 1 && on cause (2 ^ 31) then w32 (Z.land tvec 0xfffffffc + 4 * Z.land cause 0x7fffffff) else tvec.
Definition tval_of (i : csr_in) : Z := if x_pfs i || x_pfl i || x_pfi i || x_ill i then x_tval i else 0.
Definition exception (st : csr) (i : csr_in) : regs * Z * front :=
  let r := rf st in
  if m_trap st i then
    let ms0 := Z.lor (Z.ldiff (r mstatus) MSTATUS_MPP) (Z.shiftl (Z.land (priv st) 3) 11) in
    let ms1 := put (on ms0 MSTATUS_MIE) MSTATUS_MPIE ms0 in
    let ms2 := Z.ldiff ms1 MSTATUS_MIE in
    (cset (cset (cset (cset (cset r mepc (x_pc i)) mcause (m_cause st i)) mstatus ms2) sstatus (Z.land ms2 SSTATUS_MASK))
          mtval (tval_of i), 3, FTrap (vector (r mtvec) (m_cause st i)))
  else if s_trap st i then
    let ss0 := put (priv st =? 1) MSTATUS_SPP (r sstatus) in
    let ss1 := put (on ss0 MSTATUS_SIE) MSTATUS_SPIE ss0 in
    let ss2 := Z.ldiff ss1 MSTATUS_SIE in
    (cset (cset (cset (cset (cset r sepc (x_pc i)) scause (s_cause st i)) sstatus ss2)
                mstatus (Z.lor (Z.ldiff (r mstatus) SSTATUS_MASK) (Z.land ss2 SSTATUS_MASK)))
          stval (tval_of i), 1, FTrap (vector (r stvec) (s_cause st i)))
  else if x_mret i then
    let ms0 := put (on (r mstatus) MSTATUS_MPIE) MSTATUS_MIE (r mstatus) in
    let ms1 := Z.ldiff (Z.lor ms0 MSTATUS_MPIE) MSTATUS_MPP in
    (cset (cset r mstatus ms1) sstatus (Z.land ms1 SSTATUS_MASK), Z.land (Z.shiftr ms0 11) 3, FRet (r mepc))
  else if x_sret i then
    let ss0 := put (on (r sstatus) MSTATUS_SPIE) MSTATUS_SIE (r sstatus) in
    let ss1 := Z.ldiff (Z.lor ss0 MSTATUS_SPIE) MSTATUS_SPP in
    (cset (cset r sstatus ss1) mstatus (Z.lor (Z.ldiff (r mstatus) SSTATUS_MASK) (Z.land ss1 SSTATUS_MASK)),
     Z.land (Z.shiftr ss0 8) 1, FRet (r sepc))
  else (r, priv st, FNone).

(** comb_csr_write, l.336-397: [r] is CSR_RegFile, [r1] CSR_RegFile_1. *)
Definition rmw (cmd w old : Z) : Z := if cmd =? 2 then Z.lor w old else if cmd =? 3 then Z.ldiff old w else w.
Definition apply_write (c : cname) (w : Z) (r r1 : regs) : regs :=
  match c with
  | mie => let v := Z.land w MIE_MASK in cset (cset r1 mie v) sie (Z.land v SIE_MASK)
  | sie => let v := Z.lor (Z.ldiff (r mie) SIE_MASK) (Z.land w SIE_MASK) in cset (cset r1 mie v) sie (Z.land v SIE_MASK)
  | mip => let v := Z.land w MIE_MASK in cset (cset r1 mip v) sip (Z.land v SIE_MASK)
  | sip => let v := Z.lor (Z.ldiff (r mip) SIE_MASK) (Z.land w SIE_MASK) in cset (cset r1 mip v) sip (Z.land v SIE_MASK)
  | mstatus => let v := Z.lor (Z.ldiff (r mstatus) MSTATUS_MASK) (Z.land w MSTATUS_MASK) in
               cset (cset r1 mstatus v) sstatus (Z.land v SSTATUS_MASK)
  | sstatus => let v := Z.lor (Z.ldiff (r mstatus) SSTATUS_MASK) (Z.land w SSTATUS_MASK) in
               cset (cset r1 mstatus v) sstatus (Z.land v SSTATUS_MASK)
  | _ => cset r1 c w
  end.
(** comb_interrupt_inject, l.93-117 *)
Definition inject (o : option bool) (m : Z) (r1 : regs) : regs :=
  match o with
  | Some b => let v := put b m (r1 mip) in cset (cset r1 mip v) sip (Z.land v SIE_MASK)
  | None => r1 end.

(** One cycle: comb_begin, comb_exception, comb_csr_write,
    comb_interrupt_inject, seq.  None: abort on an unknown index. *)
Definition csr_step (st : csr) (i : csr_in) : option csr :=
  let '(r1, pv, _) := exception st i in
  let fin (r2 : regs) (we : bool) :=
    let r3 := inject (x_timer i) MIP_MTIP (inject (x_ext i) MIP_MEIP r2) in
    Some (Csr r3 pv we
      (if x_we i then x_idx i else p_idx st) (if x_we i then x_cmd i else p_cmd st) (if x_we i then x_wdata i else p_wdata st)) in
  if x_commit i && p_we st then
    match cvt (p_idx st) with
    | Some c => fin (apply_write c (rmw (p_cmd st) (p_wdata st) (rf st c)) (rf st) r1) false
    | None => None
    end
  else fin r1 (x_we i || p_we st).
Definition redirect (st : csr) (i : csr_in) : front := snd (exception st i).

(** Exu::comb_to_csr, Exu.cpp:264-277, for a CSR instruction in the slot:
    func3, the rs1 field (imm), the operand value and whether rd is x0. *)
Definition to_csr (f3 rs1 src1 : Z) (rd0 : bool) : bool * bool * Z * Z :=
  let rw := (f3 =? 1) || (f3 =? 5) in
  (rw || negb (rs1 =? 0), negb rw || negb rd0, Z.land f3 3, if nz (Z.land f3 4) then rs1 else src1).
(** Idle input; init(), l.52-55. *)
Definition idle_in : csr_in := CsrIn false false 0 0 0 false false false false false false false false false 0 0 None None.
Definition csr_init : csr := Csr (cset (fun _ => 0) misa 0x40141103) 3 false 0 0 0.
