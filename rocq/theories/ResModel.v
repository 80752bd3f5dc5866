(** Where the front end resumes: BackTop.cpp:326-351 joined with the reorder
    buffer's broadcast (RobModel), its program-counter request
    (Rob.cpp:158-173) and the CSR unit's redirect (CsrModel). *)
From Verif Require Import Base RobModel CsrModel.

(** Rob::comb_ftq_pc_req: the instruction whose program counter is asked for. *)
Definition pc_req (r : rob) : option ruop :=
  if is_empty r then None else option_map snd (first_valid (lines r (deq_ptr r))).
(** pre->comb_ftq_lookup_rob answers in the same cycle; [pc_of] is what the
    fetch target queue holds for an instruction, [old] what rob_bcast.pc held
    (it is driven only with a flush, Rob.cpp:433-438). *)
Definition bcast_pc (r : rob) (i : rob_in) (pc_of : ruop -> Z) (old : Z) : Z :=
  if b_flush (broadcast r i) then match pc_req r with Some u => pc_of u | None => 0 end else old.

(** rob_bcast and rob2csr as the CSR unit reads them; the execution side and
    the interrupt lines come from [x]. *)
Definition csr_view (b : bcast) (pc tval : Z) (x : csr_in) : csr_in :=
  CsrIn (x_we x) (x_re x) (x_idx x) (x_cmd x) (x_wdata x) (b_csr_commit b) (b_interrupt b)
        (b_ecall b) (b_pf_inst b) (b_pf_load b) (b_pf_store b) (b_illegal b) (b_mret b) (b_sret b) pc tval (x_ext x) (x_timer x).

(** csr2front after comb_exception: trap_pc and epc keep what they held unless driven. *)
Definition trap_pc (f : front) (old : Z) : Z := match f with FTrap p => p | _ => old end.
Definition epc (f : front) (old : Z) : Z := match f with FRet p => p | _ => old end.

(** BackTop.cpp:331-351: out.redirect_pc when out.mispred is set. [br] is
    br_latch's redirect_pc if its mispred bit is set. *)
Definition resume (b : bcast) (pc : Z) (f : front) (old_trap old_epc : Z) (br : option Z) : option Z :=
  if b_flush b then
    Some (if b_mret b || b_sret b then epc f old_epc
          else if b_exception b then trap_pc f old_trap
          else w32 (pc + 4))
  else br.

(** One cycle, from the states of the three modules.  [olds] are the leftovers on
    rob_bcast.pc, csr2front.trap_pc and csr2front.epc. *)
Definition redirect_pc (r : rob) (i : rob_in) (st : csr) (x : csr_in) (pc_of : ruop -> Z) (tval : Z) (olds : Z * Z * Z) (br : option Z) : option Z :=
  let b := broadcast r i in
  let pc := bcast_pc r i pc_of (fst (fst olds)) in
  resume b pc (redirect st (csr_view b pc tval x)) (snd (fst olds)) (snd olds) br.
