(** The lock-step check: SimCpu::difftest_prepare and SimContext::run_difftest_inst
    (rv_simu_mmu_v2.cpp:779-917), checkregs, difftest_sync_from_dut and difftest_step
    (diff/diff.cpp:183-306).
    The reference is the model of diff/ref.cpp (RefModel.v); the checked build links a
    library with the same interface that is not in this repository.  Its set_state is
    taken to install every field of RefCpuState and to keep memory and timer.
    Not here: instruction numbers and commit_pc (printed only), the prints, the RAM
    ranges copied by difftest_sync_ram_range_from_dut, checkpoints. *)
From Verif Require Import Base ExecModel CsrModel RefModel.

(** CPU_state, diff/include/diff.h: the global dut_cpu *)
Record dcpu := mkd {
  d_gpr : Z -> Z; d_csr : regs; d_pc : Z; d_st : bool; d_sa : Z; d_sd : Z; d_sb : Z;
  d_inst : Z; d_pfi : bool; d_pfl : bool; d_pfs : bool; d_resv : bool; d_raddr : Z }.

(** What difftest_prepare reads for one committed instruction.  [k_gpr] is
    reg_file_1[arch_RAT_1[i]], [k_csr] and [k_priv] the next values of the CSR file;
    [k_q*] the store queue entry get_stq_entry returns, [k_qsup] with the comparison of
    its ROB index; [k_jump] is is_branch(type) || type == JAL. *)
Record commit := mkk {
  k_gpr : Z -> Z; k_csr : regs; k_priv : Z; k_now : Z;
  k_store : bool; k_load : bool; k_mmio : bool; k_skip : bool;
  k_pfi : bool; k_pfl : bool; k_pfs : bool; k_inst : Z; k_pc : Z; k_diag : Z; k_jump : bool;
  k_qsup : bool; k_qpav : bool; k_qdv : bool; k_qpa : Z; k_qdata : Z; k_qf3 : Z;
  k_flush : bool; k_intr : bool;                     (* rob_bcast *)
  k_ext : option bool; k_tim : option bool }.        (* *_irq_pending if *_pending_valid *)

(** csr_addr == number_mip || csr_addr == number_sip, for a SYSTEM instruction *)
Definition irq_csr (i : Z) : bool :=
  (Z.land i 0x7f =? 0x73) && ((Z.shiftr i 20 =? 0x344) || (Z.shiftr i 20 =? 0x144)).

(** the store fields, l.794-823 *)
Definition report_store (d : dcpu) (k : commit) : bool * Z * Z * bool :=   (* store, addr, data, sync *)
  if k_store k && negb (k_pfs k) then
    if k_qsup k then (false, d_sa d, d_sd d, false)
    else if negb (k_qpav k && k_qdv k) then (false, d_sa d, d_sd d, true)
    else
      let v := if k_qf3 k =? 0 then Z.land (k_qdata k) 0xFF else if k_qf3 k =? 1 then Z.land (k_qdata k) 0xFFFF else k_qdata k in
      (true, k_qpa k, shl v (Z.land (k_qpa k) 3 * 8), false)
  else (false, d_sa d, d_sd d, false).
(** the interrupt lines, l.846-876 *)
Definition hide (o : option bool) (m v : Z) : Z := match o with Some _ => Z.ldiff v m | None => v end.
Definition show (o : option bool) (m v : Z) : Z :=
  match o with Some true => Z.lor v m | Some false => Z.ldiff v m | None => v end.
Definition report_csr (k : commit) : regs :=
  let f := if irq_csr (k_inst k) then show else hide in
  let v := f (k_tim k) MIP_MTIP (f (k_ext k) MIP_MEIP (k_csr k mip)) in
  cset (cset (k_csr k) mip v) sip (Z.land v 0x333).
Definition is_some {A} (o : option A) : bool := match o with Some _ => true | None => false end.
(** difftest_prepare *)
Definition prepare (d : dcpu) (k : commit) : dcpu * bool :=
  let '(st, sa, sd, y) := report_store d k in
  let sync := y || (k_mmio k && k_store k && negb (k_pfs k)) || (k_mmio k && k_load k && negb (k_pfl k)) ||
              (irq_csr (k_inst k) && (is_some (k_ext k) || is_some (k_tim k))) || k_skip k || k_intr k in
  (mkd (k_gpr k) (report_csr k) (if k_jump k || k_flush k then k_diag k else w32 (k_pc k + 4)) st sa sd (d_sb d)
       (k_inst k) (k_pfi k) (k_pfl k) (k_pfs k) (d_resv d) (d_raddr d), sync).

(** checkregs; step_info is r_inst and r_flags. *)
Definition CSRS : list cname :=
  [mtvec; mepc; mcause; mie; mip; mtval; mscratch; mstatus; mideleg; medeleg;
   sepc; stvec; scause; sscratch; stval; sstatus; sie; sip; satp; mhartid; misa].
Definition masked (c : regs) : regs :=
  let v := Z.ldiff (c mip) (Z.lor MIP_MEIP MIP_MTIP) in cset (cset c mip v) sip (Z.land v 0x333).
Definition check (s : ref) (d : dcpu) : bool :=
  let view c := if irq_csr (r_inst s) then c else masked c in
  let f := r_flags s in
  (r_pc s =? d_pc d) && (f_pfi f || (r_inst s =? d_inst d)) &&
  Bool.eqb (f_pfi f) (d_pfi d) && Bool.eqb (f_pfl f) (d_pfl d) && Bool.eqb (f_pfs f) (d_pfs d) &&
  forallb (fun i => r_gpr s (Z.of_nat i) =? d_gpr d (Z.of_nat i)) (seq 0 32) &&
  forallb (fun c => view (r_csr s) c =? view (d_csr d) c) CSRS &&
  (negb (r_store s) || (Bool.eqb (d_st d) (r_store s) && (d_sd d =? r_sdata s) && (d_sa d =? r_saddr s))).

(** to_ref_state and refcpu_set_state *)
Definition adopt (s : ref) (d : dcpu) (p : Z) : ref :=
  mkr (d_gpr d) (d_csr d) (d_pc d) p (r_mem s) (d_st d) (d_sa d) (d_sd d) (d_sb d) (d_resv d) (d_raddr d)
      (d_inst d) (r_irq s) (mkfl (d_pfi d) (d_pfl d) (d_pfs d) (f_ill (r_flags s))) (r_off s) (r_cmp s) (r_end s) (r_dev s).

(** run_difftest_inst: the next dut_cpu and reference; or the simulation ends: a mismatch,
    or the reference stopped. *)
Inductive verdict := Go (d : dcpu) (s : ref) | Mismatch | RefStops.
Definition lock_env (sf : sfloat) (d : dcpu) (k : commit) : renv :=
  mkre (k_now k) (Some (d_pfi d, d_pfl d, d_pfs d)) false sf.
Definition lockstep (sf : sfloat) (d : dcpu) (s : ref) (k : commit) : verdict :=
  let '(d, sync) := prepare d k in
  if sync then Go d (adopt s d (k_priv k))
  else match exec (lock_env sf d k) s with
       | Done s' => if check s' d then Go d s' else Mismatch
       | _ => RefStops
       end.
Fixpoint lockrun (sf : sfloat) (d : dcpu) (s : ref) (l : list commit) : verdict :=
  match l with
  | [] => Go d s
  | k :: l => match lockstep sf d s k with Go d s => lockrun sf d s l | v => v end
  end.
