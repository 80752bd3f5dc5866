(** The reference CPU of diff/ref.cpp, diff/include/ref.h.  Makefile:84 leaves ref.cpp
    out of the build; the library linked instead is not in the repository.
    Not here: init, statistics flags (is_br, is_csr, ...), the oracle timer queue. *)
From Verif Require Import Base CsrModel ExecModel.

Record flags := mkfl { f_pfi : bool; f_pfl : bool; f_pfs : bool; f_ill : bool }.
(** Device side effects, in the order of the two tests of store_data that cause them. *)
Inductive effect := Putc (c : Z) | Raise | Ready | Complete.
(** [r_mem] is indexed by words: RAM, or io_words with absent words 0.
    [r_dev] is a ghost: the device side effects so far, the newest first. *)
Record ref := mkr {
  r_gpr : Z -> Z; r_csr : regs; r_pc : Z; r_priv : Z; r_mem : Z -> Z;
  r_store : bool; r_saddr : Z; r_sdata : Z; r_sstrb : Z; r_resv : bool; r_raddr : Z;
  r_inst : Z; r_irq : irq; r_flags : flags; r_off : Z; r_cmp : Z; r_end : bool; r_dev : list effect }.

Definition upd (f : Z -> Z) (k v : Z) : Z -> Z := fun i => if i =? k then v else f i.
Definition set_gpr (s : ref) f := mkr f (r_csr s) (r_pc s) (r_priv s) (r_mem s) (r_store s) (r_saddr s) (r_sdata s) (r_sstrb s) (r_resv s) (r_raddr s) (r_inst s) (r_irq s) (r_flags s) (r_off s) (r_cmp s) (r_end s) (r_dev s).
Definition set_csr (s : ref) c := mkr (r_gpr s) c (r_pc s) (r_priv s) (r_mem s) (r_store s) (r_saddr s) (r_sdata s) (r_sstrb s) (r_resv s) (r_raddr s) (r_inst s) (r_irq s) (r_flags s) (r_off s) (r_cmp s) (r_end s) (r_dev s).
Definition set_pc (s : ref) p := mkr (r_gpr s) (r_csr s) p (r_priv s) (r_mem s) (r_store s) (r_saddr s) (r_sdata s) (r_sstrb s) (r_resv s) (r_raddr s) (r_inst s) (r_irq s) (r_flags s) (r_off s) (r_cmp s) (r_end s) (r_dev s).
Definition set_priv (s : ref) p := mkr (r_gpr s) (r_csr s) (r_pc s) p (r_mem s) (r_store s) (r_saddr s) (r_sdata s) (r_sstrb s) (r_resv s) (r_raddr s) (r_inst s) (r_irq s) (r_flags s) (r_off s) (r_cmp s) (r_end s) (r_dev s).
Definition set_mem (s : ref) m := mkr (r_gpr s) (r_csr s) (r_pc s) (r_priv s) m (r_store s) (r_saddr s) (r_sdata s) (r_sstrb s) (r_resv s) (r_raddr s) (r_inst s) (r_irq s) (r_flags s) (r_off s) (r_cmp s) (r_end s) (r_dev s).
Definition set_st (s : ref) b a d t := mkr (r_gpr s) (r_csr s) (r_pc s) (r_priv s) (r_mem s) b a d t (r_resv s) (r_raddr s) (r_inst s) (r_irq s) (r_flags s) (r_off s) (r_cmp s) (r_end s) (r_dev s).
Definition set_resv (s : ref) b a := mkr (r_gpr s) (r_csr s) (r_pc s) (r_priv s) (r_mem s) (r_store s) (r_saddr s) (r_sdata s) (r_sstrb s) b a (r_inst s) (r_irq s) (r_flags s) (r_off s) (r_cmp s) (r_end s) (r_dev s).
Definition set_inst (s : ref) i := mkr (r_gpr s) (r_csr s) (r_pc s) (r_priv s) (r_mem s) (r_store s) (r_saddr s) (r_sdata s) (r_sstrb s) (r_resv s) (r_raddr s) i (r_irq s) (r_flags s) (r_off s) (r_cmp s) (r_end s) (r_dev s).
Definition set_irq (s : ref) q := mkr (r_gpr s) (r_csr s) (r_pc s) (r_priv s) (r_mem s) (r_store s) (r_saddr s) (r_sdata s) (r_sstrb s) (r_resv s) (r_raddr s) (r_inst s) q (r_flags s) (r_off s) (r_cmp s) (r_end s) (r_dev s).
Definition set_flags (s : ref) f := mkr (r_gpr s) (r_csr s) (r_pc s) (r_priv s) (r_mem s) (r_store s) (r_saddr s) (r_sdata s) (r_sstrb s) (r_resv s) (r_raddr s) (r_inst s) (r_irq s) f (r_off s) (r_cmp s) (r_end s) (r_dev s).
Definition set_timer (s : ref) o c := mkr (r_gpr s) (r_csr s) (r_pc s) (r_priv s) (r_mem s) (r_store s) (r_saddr s) (r_sdata s) (r_sstrb s) (r_resv s) (r_raddr s) (r_inst s) (r_irq s) (r_flags s) o c (r_end s) (r_dev s).
Definition set_end (s : ref) b := mkr (r_gpr s) (r_csr s) (r_pc s) (r_priv s) (r_mem s) (r_store s) (r_saddr s) (r_sdata s) (r_sstrb s) (r_resv s) (r_raddr s) (r_inst s) (r_irq s) (r_flags s) (r_off s) (r_cmp s) b (r_dev s).
Definition add_dev (s : ref) d := mkr (r_gpr s) (r_csr s) (r_pc s) (r_priv s) (r_mem s) (r_store s) (r_saddr s) (r_sdata s) (r_sstrb s) (r_resv s) (r_raddr s) (r_inst s) (r_irq s) (r_flags s) (r_off s) (r_cmp s) (r_end s) (d :: r_dev s).
Definition wr (s : ref) (rd v : Z) : ref := set_gpr s (upd (r_gpr s) rd v).
Definition wc (s : ref) (c : cname) (v : Z) : ref := set_csr s (cset (r_csr s) c v).

(** Softfloat (not in this repository): operations on 32-bit patterns; the first
    argument is the rounding mode. *)
Record sfloat := mksf {
  sf_add : Z -> Z -> Z -> Z; sf_sub : Z -> Z -> Z -> Z; sf_mul : Z -> Z -> Z -> Z; sf_div : Z -> Z -> Z -> Z;
  sf_sqrt : Z -> Z -> Z; sf_muladd : Z -> Z -> Z -> Z -> Z; sf_eq : Z -> Z -> bool; sf_lt : Z -> Z -> bool; sf_le : Z -> Z -> bool;
  sf_toi : Z -> Z -> Z; sf_tou : Z -> Z -> Z; sf_ofi : Z -> Z -> Z; sf_ofu : Z -> Z -> Z }.
(** sim_time (0 if negative), the page faults the core reported (none if
    !dut_pf_check_enable || ref_only), ref_only, softfloat. *)
Record renv := mkre { e_now : Z; e_dut : option (bool * bool * bool); e_only : bool; e_sf : sfloat }.

(** Addresses, include/config.h:630-648 *)
Definition UART_BASE := 0x10000000. Definition PLIC_CLAIM := 0x0c201004.
Definition TIMER_LOW := 0x1fd0e000. Definition TIMER_HIGH := 0x1fd0e004.
Definition CMP_LOW := 0x1fd0e008. Definition CMP_HIGH := 0x1fd0e00c.

(** [Halt]: exit or a failed Assert.  [Undef]: undefined behaviour. *)
Inductive res := Done (s : ref) | Halt | Undef.

(** l.19-31 *)
Definition eff_data (s : ref) : Z :=
  if nz (Z.land (r_csr s mstatus) 131072) then Z.land (Z.shiftr (r_csr s mstatus) 11) 3 else r_priv s.
Definition translated (s : ref) : bool := nz (Z.land (r_csr s satp) 0x80000000) && negb (eff_data s =? 3).
(** l.76-97 *)
Definition timer_now (e : renv) (s : ref) : Z := wrap 64 (e_now e + r_off s).
Definition eff_mip (e : renv) (s : ref) (v : Z) : Z :=
  if r_cmp s <=? timer_now e s then Z.lor v MIP_MTIP else Z.ldiff v MIP_MTIP.
Definition sync_timer (e : renv) (s : ref) : ref :=
  let s := wc s mip (eff_mip e s (r_csr s mip)) in wc s sip (Z.land (r_csr s mip) 0x333).
Definition write_timer (e : renv) (s : ref) (v : Z) : ref := set_timer s (wrap 64 (v - e_now e)) (r_cmp s).

(** load_word, store_word, l.1612-1664 *)
Definition load_word (s : ref) (a : Z) : Z := r_mem s (Z.land a 0xfffffffc / 4).
Definition HI32 := 0xFFFFFFFF00000000. Definition LO32 := 0xFFFFFFFF.
Definition store_word (e : renv) (s : ref) (a d : Z) : ref :=
  let wa := Z.land a 0xfffffffc in
  if wa =? TIMER_LOW then write_timer e s (Z.lor (Z.land (timer_now e s) HI32) d)
  else if wa =? TIMER_HIGH then write_timer e s (Z.lor (Z.shiftl d 32) (Z.land (timer_now e s) LO32))
  else if wa =? CMP_LOW then set_timer s (r_off s) (Z.lor (Z.land (r_cmp s) HI32) d)
  else if wa =? CMP_HIGH then set_timer s (r_off s) (Z.lor (Z.shiftl d 32) (Z.land (r_cmp s) LO32))
  else set_mem s (upd (r_mem s) (wa / 4) d).

(** store_data, l.1666-1724 *)
Definition lane_mask (t : Z) : Z :=
  Z.lor (Z.lor (Z.lor (if nz (Z.land t 1) then 0xff else 0) (if nz (Z.land t 2) then 0xff00 else 0))
               (if nz (Z.land t 4) then 0xff0000 else 0)) (if nz (Z.land t 8) then 0xff000000 else 0).
Definition merge (m w old : Z) : Z := Z.lor (Z.land m w) (Z.land (not32 m) old).
Definition store_data (e : renv) (s : ref) : ref :=
  let pa := r_saddr s in
  let s := if r_store s && r_resv s && (r_raddr s =? pa) then set_resv s false (r_raddr s) else s in
  let off := Z.land pa 3 in
  let wstrb := shl (r_sstrb s) off in
  let wdata := shl (r_sdata s) (off * 8) in
  let old := load_word s pa in
  let s := if r_store s then store_word e s pa (merge (lane_mask wstrb) wdata old) else s in
  let s := if pa =? UART_BASE
           then add_dev (store_word e s UART_BASE (Z.land (load_word s UART_BASE) 0xffffff00)) (Putc (Z.land wdata 255)) else s in
  let s := if (pa =? 0x10000001) && (Z.land (r_sdata s) 255 =? 7)
           then let s := store_word e s PLIC_CLAIM 10 in
                let s := store_word e s UART_BASE (Z.land (load_word s UART_BASE) 0xfff0ffff) in
                let s := wc s mip (Z.lor (r_csr s mip) MIP_MEIP) in
                add_dev (wc s sip (Z.land (r_csr s mip) 0x333)) Raise else s in
  let s := if (pa =? 0x10000001) && (Z.land (r_sdata s) 255 =? 5)
           then add_dev (store_word e s UART_BASE (Z.lor (Z.land (load_word s UART_BASE) 0xfff0ffff) 0x30000)) Ready else s in
  let s := if (pa =? PLIC_CLAIM) && (Z.land (r_sdata s) 255 =? 10)
           then let s := store_word e s PLIC_CLAIM 0 in
                let s := wc s mip (Z.ldiff (r_csr s mip) MIP_MEIP) in
                add_dev (wc s sip (Z.land (r_csr s mip) 0x333)) Complete else s in
  set_st s (r_store s) (r_saddr s) (shl (r_sdata s) (off * 8)) (shl (r_sstrb s) (off * 8)).

(** va2pa, l.1726-1839; [None] is false.  Types: 0 fetch, 1 load, 2 store. *)
Definition va2pa (s : ref) (va ty : Z) : option Z :=
  let ms := r_csr s mstatus in
  let mxr := nz (Z.land ms 524288) in let sum := nz (Z.land ms 262144) in let mprv := nz (Z.land ms 131072) in
  let eff := if nz ty && mprv then Z.land (Z.shiftr ms 11) 3 else r_priv s in
  let root := Z.land (r_csr s satp) 0x3FFFFF in
  let p1 := load_word s (Z.lor (shl root 12) (shl (Z.land (shr va 22) 1023) 2)) in
  let b p m := nz (Z.land p m) in
  if negb (b p1 1) || (negb (b p1 2) && b p1 4) then None
  else if b p1 2 || b p1 8 then
    if (ty =? 0) && negb (b p1 8) then None
    else if (ty =? 1) && negb (b p1 2) && negb (mxr && b p1 8) then None
    else if (ty =? 2) && negb (b p1 4) then None
    else if (eff =? 0) && negb (b p1 16) then None
    else if (eff =? 1) && b p1 16 && negb sum then None
    else if nz (Z.land (shr p1 10) 1023) then None
    else if negb (b p1 64) then None
    else if (ty =? 2) && negb (b p1 128) then None
    else Some (Z.lor (Z.land (shl p1 2) 0xFFC00000) (Z.land va 0x3FFFFF))
  else
    let p2 := load_word s (Z.lor (shl (Z.land (shr p1 10) 0x3FFFFF) 12) (shl (Z.land (shr va 12) 1023) 2)) in
    if negb (b p2 1) || (negb (b p2 2) && b p2 4) then None
    else if b p2 2 || b p2 8 then
      if (ty =? 0) && negb (b p2 8) then None
      else if (ty =? 1) && negb (b p2 2) && negb (mxr && b p2 8) then None
      else if (ty =? 2) && negb (b p2 4) then None
      else if (eff =? 0) && negb (b p2 16) then None
      else if (eff =? 1) && b p2 16 && ((ty =? 0) || negb sum) then None
      else if negb (b p2 64) then None
      else if (ty =? 2) && negb (b p2 128) then None
      else Some (Z.lor (shl (shr p2 10) 12) (Z.land va 0xFFF))
    else None.
(** va2pa_fix, l.1841-1877.  Outer [None]: the Assert. *)
Definition va2pa_fix (e : renv) (s : ref) (va ty : Z) : option (option Z) :=
  let r := va2pa s va ty in
  match e_dut e with
  | None => Some r
  | Some (di, dl, ds) =>
      let dut := if ty =? 0 then di else if ty =? 1 then dl else if ty =? 2 then ds else false in
      match r with
      | Some pa => if dut then Some None else Some r
      | None => if dut then Some None else None
      end
  end.

(** exception, l.297-507: ecall, mret and sret from the last fetched instruction, the
    interrupt lines from the last RISCV(). *)
Definition INST_EBREAK := 0x00100073. Definition INST_ECALL := 0x00000073. Definition INST_MRET := 0x30200073.
Definition INST_SRET := 0x10200073. Definition INST_WFI := 0x10500073.
Definition ref_vector (tvec cause : Z) : Z :=
  if nz (Z.land tvec 1) && nz (Z.land cause (2 ^ 31)) then w32 (Z.land tvec 0xfffffffc + 4 * Z.land cause 0x7fffffff)
  else Z.land tvec 0xfffffffc.
Definition ref_exception (tv : Z) (s : ref) : ref :=
  let ecall := r_inst s =? INST_ECALL in let mret := r_inst s =? INST_MRET in let sret := r_inst s =? INST_SRET in
  let ms := r_csr s mstatus in let ss := r_csr s sstatus in let d := r_csr s medeleg in
  let q := r_irq s in let f := r_flags s in let pv := r_priv s in
  let du := dlg d 8 in let ds := dlg d 9 in let di := dlg d 12 in let dl := dlg d 13 in let dw := dlg d 15 in
  let mtrap := m_soft q || m_timer q || m_ext q || ((pv =? 0) && negb du && ecall) || (ecall && (pv =? 1) && negb ds) ||
    (ecall && (pv =? 3)) || (f_pfi f && negb di) || (f_pfl f && negb dl) || (f_pfs f && negb dw) || f_ill f in
  let strap := s_soft q || s_timer q || s_ext q || (ecall && (pv =? 0) && du) || (ecall && (pv =? 1) && ds) ||
    (f_pfi f && di) || (f_pfl f && dl) || (f_pfs f && dw) in
  if mtrap then
    let code := if m_soft q then 3 else if m_timer q then 7
      else if m_ext q || (ecall && (pv =? 3) && negb du) then 11
      else if ecall && (pv =? 0) && negb du then 8
      else if ecall && (pv =? 1) && negb ds then 9
      else if f_pfi f && negb di then 12
      else if f_pfl f && negb dl then 13
      else if f_pfs f && negb dw then 15
      else if f_ill f then 2 else 0 in
    let cause := Z.lor (if m_soft q || m_timer q || m_ext q then 2 ^ 31 else 0) code in
    let ms := Z.lor (Z.ldiff ms MSTATUS_MPP) (Z.shiftl (Z.land pv 3) 11) in
    let ms := if nz (Z.land ms MSTATUS_MIE) then Z.lor ms MSTATUS_MPIE else Z.ldiff ms MSTATUS_MPIE in
    let ms := Z.ldiff ms MSTATUS_MIE in
    let next := ref_vector (r_csr s mtvec) cause in
    let s := wc s mepc (r_pc s) in let s := wc s mcause cause in
    let s := wc s mstatus ms in let s := wc s sstatus (Z.land ms 0x800DE133) in
    set_pc (wc (set_priv s 3) mtval tv) next
  else if strap then
    let code := if s_ext q || (ecall && (pv =? 1) && ds) then 9
      else if s_timer q then 5
      else if ecall && (pv =? 0) && du then 8
      else if s_soft q then 1
      else if f_pfi f && di then 12
      else if f_pfl f && dl then 13
      else if f_pfs f && dw then 15 else 0 in
    let cause := Z.lor (if s_soft q || s_timer q || s_ext q then 2 ^ 31 else 0) code in
    let ss := if pv =? 1 then Z.lor ss MSTATUS_SPP else Z.ldiff ss MSTATUS_SPP in
    let ss := if nz (Z.land ss MSTATUS_SIE) then Z.lor ss MSTATUS_SPIE else Z.ldiff ss MSTATUS_SPIE in
    let ss := Z.ldiff ss MSTATUS_SIE in
    let next := ref_vector (r_csr s stvec) cause in
    let s := wc s sepc (r_pc s) in let s := wc s scause cause in
    let s := wc s sstatus ss in
    let s := wc s mstatus (Z.lor (Z.ldiff (r_csr s mstatus) 0x800DE133) (Z.land ss 0x800DE133)) in
    set_pc (wc (set_priv s 1) stval tv) next
  else if mret then
    let ms := if nz (Z.land ms MSTATUS_MPIE) then Z.lor ms MSTATUS_MIE else Z.ldiff ms MSTATUS_MIE in
    let pv := Z.land (shr ms 11) 3 in
    let ms := Z.ldiff (Z.lor ms MSTATUS_MPIE) MSTATUS_MPP in
    let s := wc s mstatus ms in let s := wc s sstatus (Z.land ms 0x800DE133) in
    set_pc (set_priv s pv) (r_csr s mepc)
  else if sret then
    let ss := if nz (Z.land ss MSTATUS_SPIE) then Z.lor ss MSTATUS_SIE else Z.ldiff ss MSTATUS_SIE in
    let pv := Z.land (shr ss 8) 1 in
    let ss := Z.ldiff (Z.lor ss MSTATUS_SPIE) MSTATUS_SPP in
    let s := wc s sstatus ss in
    let s := wc s mstatus (Z.lor (Z.ldiff (r_csr s mstatus) 0x800DE133) (Z.land ss 0x800DE133)) in
    set_pc (set_priv s pv) (r_csr s sepc)
  else set_pc s (w32 (r_pc s + 4)).

(** RV32CSR, l.843-974.  [csr_idx == number_mip] at l.930 compares an index below 21
    with the number 0x344: never true, so mip and sip are written like plain registers. *)
Definition csr_old (e : renv) (s : ref) (c : cname) : Z :=
  match c with mip => eff_mip e s (r_csr s mip) | sip => Z.land (eff_mip e s (r_csr s mip)) 0x333 | _ => r_csr s c end.
Definition ref_write_csr (s : ref) (c : cname) (w : Z) : ref :=
  match c with
  | mie | sie =>
      let s := wc s mie (match c with sie => Z.lor (Z.ldiff (r_csr s mie) 0x333) (Z.land w 0x333) | _ => Z.land w 0xbbb end) in
      wc s sie (Z.land (r_csr s mie) 0x333)
  | mstatus | sstatus =>
      let s := wc s mstatus (match c with
        | sstatus => Z.lor (Z.ldiff (r_csr s mstatus) 0x800DE133) (Z.land w 0x800DE133)
        | _ => Z.lor (Z.ldiff (r_csr s mstatus) 0x807FF9BB) (Z.land w 0x807FF9BB) end) in
      wc s sstatus (Z.land (r_csr s mstatus) 0x800DE133)
  | _ => wc s c w
  end.
Definition rv32csr (e : renv) (s : ref) : ref :=
  let i := r_inst s in
  let rd := bits i 11 7 in let rs1 := bits i 19 15 in let a := bits i 31 20 in let f3 := bits i 14 12 in
  let x := r_gpr s rs1 in
  let we := (f3 =? 1) || negb (rs1 =? 0) in
  let re := negb (f3 =? 1) || negb (rd =? 0) in
  let wcmd := Z.land f3 3 in
  let wdata := if nz (Z.land f3 4) then rs1 else x in
  if (a =? 0xc01) || (a =? 0xc81) then
    let f := r_flags s in ref_exception i (set_flags s (mkfl (f_pfi f) (f_pfl f) (f_pfs f) true))
  else match cvt a with
  | None => set_pc s (w32 (r_pc s + 4))
  | Some c =>
      let s1 := if re then wr s rd (csr_old e s c) else s in
      let s2 := if we then
          let old := csr_old e s c in
          ref_write_csr s1 c (if wcmd =? 1 then wdata else if wcmd =? 2 then Z.lor old wdata
                              else if wcmd =? 3 then Z.ldiff old wdata else 0) else s1 in
      set_pc s2 (w32 (r_pc s + 4))
  end.

(** RV32A, l.976-1109 *)
Definition ref_amo (f5 old b : Z) : option Z :=
  if f5 =? 0 then Some (w32 (old + b)) else if f5 =? 1 then Some b
  else if f5 =? 4 then Some (Z.lxor old b) else if f5 =? 8 then Some (Z.lor old b)
  else if f5 =? 12 then Some (Z.land old b)
  else if f5 =? 16 then Some (if s32 b <? s32 old then b else old)
  else if f5 =? 20 then Some (if s32 b <? s32 old then old else b)
  else if f5 =? 24 then Some (if old <? b then old else b)
  else if f5 =? 28 then Some (if b <? old then old else b) else None.
Definition set_pf (s : ref) (ld st : bool) : ref := set_flags s (mkfl (f_pfi (r_flags s)) ld st (f_ill (r_flags s))).
Definition rv32a (e : renv) (s : ref) : res :=
  let i := r_inst s in
  let f5 := bits i 31 27 in let rd := bits i 11 7 in
  let va := r_gpr s (bits i 19 15) in let b := r_gpr s (bits i 24 20) in
  let body (pa : Z) : res :=
    if nz (Z.land pa 3) then Halt
    else
      let s := if f5 =? 2 then s else set_st s true pa (r_sdata s) 15 in
      let old := load_word s pa in
      let s := if f5 =? 2 then set_resv (wr s rd old) true pa
               else if f5 =? 3 then
                 let s := if r_resv s && (r_raddr s =? pa) then wr (set_st s (r_store s) (r_saddr s) b (r_sstrb s)) rd 0
                          else wr (set_st s false (r_saddr s) (r_sdata s) (r_sstrb s)) rd 1 in
                 set_resv s false (r_raddr s)
               else match ref_amo f5 old b with
                    | Some v => wr (set_st s (r_store s) (r_saddr s) v (r_sstrb s)) rd old
                    | None => s end in
      Done (set_pc (store_data e s) (w32 (r_pc s + 4))) in
  if translated s then
    if f5 =? 2 then
      match va2pa_fix e s va 1 with None => Halt | Some None => Done (ref_exception va (set_pf s true false)) | Some (Some pa) => body pa end
    else if f5 =? 3 then
      match va2pa_fix e s va 2 with None => Halt | Some None => Done (ref_exception va (set_pf s false true)) | Some (Some pa) => body pa end
    else
      match va2pa_fix e s va 1, va2pa_fix e s va 2 with
      | None, _ | _, None => Halt
      | Some (Some _), Some (Some pa) => body pa
      | _, _ => Done (ref_exception va (set_pf s false true)) end
  else body va.

(** RV32IM: the register results, l.1288-1400 and l.1402-1590.  [Stale]: the register
    is left alone. *)
Definition ref_opimm (i a : Z) : outcome :=
  let imm := immI i in let f3 := bits i 14 12 in let f7 := bits i 31 25 in let rb := bits i 24 20 in
  let sh := Z.land imm 31 in
  if f3 =? 0 then Val (w32 (a + imm))
  else if f3 =? 2 then Val (b2z (s32 a <? s32 imm))
  else if f3 =? 3 then Val (b2z (a <? imm))
  else if f3 =? 4 then Val (Z.lxor a imm)
  else if f3 =? 6 then Val (Z.lor a imm)
  else if f3 =? 7 then Val (Z.land a imm)
  else if f3 =? 1 then
    if f7 =? 0 then Val (shl a sh)
    else if f7 =? 0x30 then
      if rb =? 0 then Val (if a =? 0 then 32 else builtin_clz a)
      else if rb =? 1 then Val (if a =? 0 then 32 else builtin_ctz a)
      else if rb =? 2 then Val (builtin_popcount a)
      else if rb =? 4 then Val (sextb_c a)
      else if rb =? 5 then Val (sexth_c a) else Stale
    else if f7 =? 0x14 then Val (Z.lor a (shl 1 sh))
    else if f7 =? 0x24 then Val (Z.land a (not32 (shl 1 sh)))
    else if f7 =? 0x34 then Val (Z.lxor a (shl 1 sh)) else Stale
  else
    if f7 =? 0 then Val (shr a sh)
    else if f7 =? 0x20 then Val (sar a sh)
    else if f7 =? 0x30 then ror_c a sh
    else if f7 =? 0x24 then Val (Z.land (shr a sh) 1)
    else if f7 =? 0x34 then if rb =? 24 then Val (rev8_c a) else Stale
    else if f7 =? 0x14 then if rb =? 7 then Val (orcb_c a) else Stale
    else Stale.
Definition ref_muldiv (f3 a b : Z) : Z :=
  if f3 =? 0 then w32 (wrap 64 (a * b))
  else if f3 =? 1 then w32 (Z.shiftr (s32 a * s32 b) 32)
  else if f3 =? 2 then w32 (Z.shiftr (s32 a * b) 32)
  else if f3 =? 3 then w32 (Z.shiftr (wrap 64 (a * b)) 32)
  else if f3 =? 4 then (if s32 b =? 0 then w32 (-1)
    else if (s32 a =? - 2 ^ 31) && (s32 b =? -1) then w32 (- 2 ^ 31) else w32 (Z.quot (s32 a) (s32 b)))
  else if f3 =? 5 then (if b =? 0 then 0xFFFFFFFF else a / b)
  else if f3 =? 6 then (if s32 b =? 0 then w32 (s32 a)
    else if (s32 a =? - 2 ^ 31) && (s32 b =? -1) then 0 else w32 (Z.rem (s32 a) (s32 b)))
  else (if b =? 0 then a else a mod b).
Definition ref_op (i a b : Z) : outcome :=
  let f3 := bits i 14 12 in let f7 := bits i 31 25 in let sh := Z.land b 31 in
  if f7 =? 1 then Val (ref_muldiv f3 a b)
  else if f3 =? 0 then
    if f7 =? 0 then Val (w32 (a + b)) else if f7 =? 0x20 then Val (w32 (a - b)) else Stale
  else if f3 =? 1 then
    if f7 =? 0 then Val (shl a sh)
    else if f7 =? 0x30 then rol_c a sh
    else if f7 =? 0x24 then Val (Z.land a (not32 (shl 1 sh)))
    else if f7 =? 0x14 then Val (Z.lor a (shl 1 sh))
    else if f7 =? 0x34 then Val (Z.lxor a (shl 1 sh))
    else if f7 =? 0x05 then Val (clmul_c a b) else Stale
  else if f3 =? 2 then
    if f7 =? 0 then Val (b2z (s32 a <? s32 b))
    else if f7 =? 0x10 then Val (w32 (b + shl a 1))
    else if f7 =? 0x05 then Val (clmulr_c a b) else Stale
  else if f3 =? 3 then
    if f7 =? 0 then Val (b2z (a <? b)) else if f7 =? 0x05 then Val (clmulh_c a b) else Stale
  else if f3 =? 4 then
    if f7 =? 0 then Val (Z.lxor a b)
    else if f7 =? 0x20 then Val (not32 (Z.lxor a b))
    else if f7 =? 0x10 then Val (w32 (b + shl a 2))
    else if f7 =? 0x05 then Val (if s32 a <? s32 b then a else b)
    else if f7 =? 0x04 then Val (Z.lor (Z.land a 0xffff) (shl b 16)) else Stale
  else if f3 =? 5 then
    if f7 =? 0 then Val (shr a sh)
    else if f7 =? 0x20 then Val (sar a sh)
    else if f7 =? 0x30 then ror_c a sh
    else if f7 =? 0x24 then Val (Z.land (shr a sh) 1)
    else if f7 =? 0x05 then Val (if a <? b then a else b) else Stale
  else if f3 =? 6 then
    if f7 =? 0 then Val (Z.lor a b)
    else if f7 =? 0x20 then Val (Z.lor a (not32 b))
    else if f7 =? 0x05 then Val (if s32 b <? s32 a then a else b)
    else if f7 =? 0x10 then Val (w32 (b + shl a 3)) else Stale
  else
    if f7 =? 0 then Val (Z.land a b)
    else if f7 =? 0x20 then Val (Z.land a (not32 b))
    else if f7 =? 0x05 then Val (if b <? a then a else b)
    else if f7 =? 0x04 then Val (Z.lor (Z.land a 255) (shl (Z.land b 255) 8)) else Stale.
(** l.1148-1193 *)
Definition ref_taken (f3 a b : Z) : bool :=
  if f3 =? 0 then a =? b else if f3 =? 1 then negb (a =? b)
  else if f3 =? 4 then s32 a <? s32 b else if f3 =? 5 then s32 b <=? s32 a
  else if f3 =? 6 then a <? b else if f3 =? 7 then b <=? a else false.
(** l.1194-1251 *)
Definition misaligned (f3 pa : Z) : bool :=
  nz (Z.land pa (if Z.land f3 3 =? 0 then 0 else if Z.land f3 3 =? 1 then 1 else 3)).
Definition ref_load (e : renv) (s : ref) (f3 pa : Z) : Z :=
  let lo := load_word s (Z.land pa 0xfffffffc) in
  let hi := load_word s (w32 (Z.land pa 0xfffffffc + 4)) in
  let d64 := Z.lor (Z.shiftl hi 32) lo in
  let data := if pa =? TIMER_LOW then w32 (timer_now e s) else if pa =? TIMER_HIGH then w32 (shr (timer_now e s) 32)
    else if pa =? CMP_LOW then w32 (r_cmp s) else if pa =? CMP_HIGH then w32 (shr (r_cmp s) 32)
    else w32 (shr d64 (Z.land pa 3 * 8)) in
  let size := Z.land f3 3 in
  let sign := if (size =? 0) && nz (Z.land data 0x80) then 0xFFFFFF00
              else if (size =? 1) && nz (Z.land data 0x8000) then 0xFFFF0000 else 0 in
  let data := Z.land data (if size =? 0 then 0xff else if size =? 1 then 0xffff else 0xffffffff) in
  if nz (Z.land f3 4) then data else Z.lor data sign.
Definition rv32im (e : renv) (s : ref) : res :=
  let i := r_inst s in
  let op := bits i 6 0 in let f3 := bits i 14 12 in let rd := bits i 11 7 in
  let a := r_gpr s (bits i 19 15) in let b := r_gpr s (bits i 24 20) in let pc := r_pc s in
  let next := w32 (pc + 4) in
  let put (o : outcome) : res :=
    match o with Val v => Done (set_pc (wr s rd v) next) | Stale => Done (set_pc s next) | UB => Undef | Fail => Halt end in
  if op =? 55 then put (Val (immU i))
  else if op =? 23 then put (Val (w32 (immU i + pc)))
  else if op =? 111 then Done (set_pc (wr s rd next) (w32 (pc + immJ i)))
  else if op =? 103 then Done (set_pc (wr s rd next) (Z.land (w32 (a + immI i)) 0xFFFFFFFE))
  else if op =? 99 then Done (set_pc s (if ref_taken f3 a b then w32 (pc + immB i) else next))
  else if op =? 3 then
    let va := w32 (a + immI i) in
    match (if translated s then va2pa_fix e s va 1 else Some (Some va)) with
    | None => Halt
    | Some None => Done (ref_exception va (set_pf s true false))
    | Some (Some pa) => if misaligned f3 pa then Halt else put (Val (ref_load e s f3 pa))
    end
  else if op =? 35 then
    let va := w32 (a + immS i) in
    match (if translated s then va2pa_fix e s va 2 else Some (Some va)) with
    | None => Halt
    | Some None => Done (ref_exception va (set_pf s false true))
    | Some (Some pa) =>
        if misaligned f3 pa then Halt
        else let d := if f3 =? 0 then Z.land b 255 else if f3 =? 1 then Z.land b 0xffff else b in
             let t := if f3 =? 0 then 1 else if f3 =? 1 then 3 else 15 in
             Done (set_pc (store_data e (set_st s true pa d t)) next)
    end
  else if op =? 19 then put (ref_opimm i a)
  else if op =? 51 then put (ref_op i a b)
  else put Stale.

(** RV32Zfinx, l.632-841.  [None]: illegal_exception with an early return: no trap is
    taken and the program counter stays. *)
Definition is_nan (v : Z) : bool := (Z.land v 0x7F800000 =? 0x7F800000) && nz (Z.land v 0x7FFFFF).
Definition f_min (sf : sfloat) (a b : Z) : Z :=
  if is_nan a && is_nan b then 0x7fc00000 else if is_nan a then b else if is_nan b then a
  else if sf_lt sf a b then a else if sf_lt sf b a then b else Z.lor a b.
Definition f_max (sf : sfloat) (a b : Z) : Z :=
  if is_nan a && is_nan b then 0x7fc00000 else if is_nan a then b else if is_nan b then a
  else if sf_lt sf a b then b else if sf_lt sf b a then a else Z.land a b.
Definition f_class (v : Z) : Z :=
  let sign := bits v 31 31 =? 1 in let x := bits v 30 23 in let m := bits v 22 0 in
  let sub := (x =? 0) && nz m in let zero := (x =? 0) && negb (nz m) in
  let inf := (x =? 255) && negb (nz m) in let nan := (x =? 255) && nz m in
  let normal := negb inf && negb zero && negb nan && negb sub in
  let r := if inf && sign then 1 else if normal && sign then 2 else if sub && sign then 4 else if zero && sign then 8
    else if zero && negb sign then 16 else if sub && negb sign then 32 else if normal && negb sign then 64
    else if inf && negb sign then 128 else 0 in
  let r := if nan && negb (Z.testbit m 22) then Z.lor r 256 else r in
  if nan && Z.testbit m 22 then Z.lor r 512 else r.
Definition SIGN := 0x80000000.
Definition zfinx (sf : sfloat) (i a b c : Z) : option (Z * bool) :=   (* value, illegal_exception *)
  let op := bits i 6 0 in let f3 := bits i 14 12 in let f7 := bits i 31 25 in let rs2 := bits i 24 20 in
  let rm := if f3 =? 7 then 0 else f3 in
  if 4 <? rm then None
  else if op =? 0x53 then
    if f7 =? 0x00 then Some (sf_add sf rm a b, false)
    else if f7 =? 0x04 then Some (sf_sub sf rm a b, false)
    else if f7 =? 0x08 then Some (sf_mul sf rm a b, false)
    else if f7 =? 0x0C then Some (sf_div sf rm a b, false)
    else if f7 =? 0x2C then if nz rs2 then None else Some (sf_sqrt sf rm a, false)
    else if f7 =? 0x10 then
      if f3 =? 0 then Some (Z.lor (Z.land a 0x7fffffff) (Z.land b SIGN), false)
      else if f3 =? 1 then Some (Z.lor (Z.land a 0x7fffffff) (Z.land (not32 b) SIGN), false)
      else if f3 =? 2 then Some (Z.lxor a (Z.land b SIGN), false) else Some (0, true)
    else if f7 =? 0x50 then
      if f3 =? 2 then Some (b2z (sf_eq sf a b), false) else if f3 =? 1 then Some (b2z (sf_lt sf a b), false)
      else if f3 =? 0 then Some (b2z (sf_le sf a b), false) else Some (0, true)
    else if f7 =? 0x14 then
      if f3 =? 0 then Some (f_min sf a b, false) else if f3 =? 1 then Some (f_max sf a b, false) else Some (0, true)
    else if f7 =? 0x60 then
      if rs2 =? 0 then Some (sf_toi sf rm a, false) else if rs2 =? 1 then Some (sf_tou sf rm a, false) else Some (0, true)
    else if f7 =? 0x68 then
      if rs2 =? 0 then Some (sf_ofi sf rm a, false) else if rs2 =? 1 then Some (sf_ofu sf rm a, false) else None
    else if f7 =? 0x70 then
      if f3 =? 1 then Some (f_class a, false) else Some (0, true)
    else None
  else if op =? 0x43 then Some (sf_muladd sf rm a b c, false)
  else if op =? 0x47 then Some (sf_muladd sf rm a b (Z.lxor c SIGN), false)
  else if op =? 0x4B then Some (sf_muladd sf rm (Z.lxor a SIGN) b c, false)
  else if op =? 0x4F then Some (sf_muladd sf rm (Z.lxor a SIGN) b (Z.lxor c SIGN), false)
  else None.
Definition set_ill (s : ref) (b : bool) : ref :=
  set_flags s (mkfl (f_pfi (r_flags s)) (f_pfl (r_flags s)) (f_pfs (r_flags s)) b).
Definition rv32zfinx (e : renv) (s : ref) : ref :=
  let i := r_inst s in let rd := bits i 11 7 in
  match zfinx (e_sf e) i (r_gpr s (bits i 19 15)) (r_gpr s (bits i 24 20)) (r_gpr s (bits i 31 27)) with
  | None => set_ill s true
  | Some (v, ill) =>
      let s := if ill then set_ill s true else s in
      set_pc (if rd =? 0 then s else wr s rd v) (w32 (r_pc s + 4))
  end.

(** RISCV, l.509-630 *)
Definition ref_irq (ms ie ip dl pv : Z) : irq :=
  let mie := nz (Z.land ms MSTATUS_MIE) in let sie := nz (Z.land ms MSTATUS_SIE) in
  let men := (pv <? 3) || mie in
  let sen := (pv <? 1) || ((pv =? 1) && sie) in
  let t x m := nz (Z.land x m) in
  Irq (t ip MIP_MSIP && t ie MIP_MSIP && negb (t dl MIP_MSIP) && men)
      (t ip MIP_MTIP && t ie MIP_MTIP && negb (t dl MIP_MTIP) && men)
      (t ip MIP_MEIP && t ie MIP_MEIP && negb (t dl MIP_MEIP) && men)
      (((t ip MIP_MSIP && t ie MIP_MSIP && t dl MIP_MSIP) || (t ip MIP_SSIP && t ie MIP_SSIP)) && ((pv <? 2) && sen))
      (((t ip MIP_MTIP && t ie MIP_MTIP && t dl MIP_MTIP) || (t ip MIP_STIP && t ie MIP_STIP)) && ((pv <? 2) && sen))
      (((t ip MIP_MEIP && t ie MIP_MEIP && t dl MIP_MEIP) || (t ip MIP_SEIP && t ie MIP_SEIP)) && ((pv <? 2) && sen)).
Definition zero_x0 (r : res) : res := match r with Done s => Done (wr s 0 0) | r => r end.
Definition riscv (e : renv) (s : ref) : res :=
  let s := sync_timer e s in
  let i := r_inst s in let op := bits i 6 0 in let pv := r_priv s in
  let ecall := i =? INST_ECALL in let mret := i =? INST_MRET in let sret := i =? INST_SRET in
  let d := r_csr s medeleg in
  let q := ref_irq (r_csr s mstatus) (r_csr s mie) (eff_mip e s (r_csr s mip)) (r_csr s mideleg) pv in
  let s := set_irq s q in
  let f := r_flags s in
  let mtrap := any_m q || ((pv =? 0) && negb (dlg d 8) && ecall) || ((pv =? 1) && negb (dlg d 9) && ecall) ||
               ((pv =? 3) && ecall) || (f_pfi f && negb (dlg d 12)) || f_ill f in
  let strap := any_s q || ((pv =? 0) && dlg d 8 && ecall) || ((pv =? 1) && dlg d 9 && ecall) || (f_pfi f && dlg d 12) in
  let asy := mtrap || strap || mret || sret in
  if (i =? INST_WFI) && negb asy && negb (f_pfi f) && negb (f_pfl f) && negb (f_pfs f)
  then let s := set_pc s (w32 (r_pc s + 4)) in Done (if e_only e then set_end s true else s)
  else zero_x0 (
    if f_pfi f then Done (ref_exception (r_pc s) s)
    else if f_ill f then Done (ref_exception i s)
    else if asy || ecall then Done (ref_exception 0 s)
    else if op =? 0x73 then Done (rv32csr e s)
    else if op =? 0x2f then rv32a e s
    else if (op =? 0x53) || (op =? 0x43) || (op =? 0x4b) || (op =? 0x4f) || (op =? 0x47) then Done (rv32zfinx e s)
    else rv32im e s).

(** exec, l.267-295 *)
Definition exec (e : renv) (s : ref) : res :=
  let s := set_st (set_flags s (mkfl false false false false)) false (r_saddr s) (r_sdata s) (r_sstrb s) in
  let go (pa : Z) : res :=
    let s := set_inst s (load_word s pa) in
    if r_inst s =? INST_EBREAK then Done (set_end (set_pc s (w32 (r_pc s + 4))) true) else riscv e s in
  if nz (Z.land (r_csr s satp) 0x80000000) && negb (r_priv s =? 3) then
    match va2pa_fix e s (r_pc s) 0 with
    | None => Halt
    | Some None => Done (ref_exception (r_pc s) (set_flags s (mkfl true false false false)))
    | Some (Some pa) => go pa
    end
  else go (r_pc s).
