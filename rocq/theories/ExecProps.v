(** C12-C15 and C43: the execution path computes the RISC-V specification.
    [IsaSpec] gives encodings and values; [exec_*] run the modelled decoder,
    micro-op decomposition and functional units on a 32-bit instruction word. *)
From Verif Require Import Base ExecModel IsaSpec ExecProofs AluProofs ExecIsaProofs.

(** *** C12 *)
(** Register-register operations, all operands; rotates by a non-zero amount. *)
Theorem c12_register_ops : forall o rd rs1 rs2 rf pc,
  reg_ix rd -> reg_ix rs1 -> reg_ix rs2 -> (forall r, 0 <= rf r < 2 ^ 32) ->
  (o = ROL \/ o = ROR -> rf rs2 mod 32 <> 0) ->
  exec_result (enc_rop o rd rs1 rs2) rf pc = Val (sem_rop o (rf rs1) (rf rs2)) /\
  d_dest_areg (decode (enc_rop o rd rs1 rs2)) = rd /\
  d_dest_en (decode (enc_rop o rd rs1 rs2)) = negb (rd =? 0).
Proof. exact rop_exec'. Qed.
Print Assumptions c12_register_ops.
Example c12_register_ops_ex :
  exec_result (enc_rop CLMULH 5 6 7) (fun r => if r =? 6 then 4026531841 else if r =? 7 then 2147483651 else 0) 0
  = Val (sem_rop CLMULH 4026531841 2147483651) /\ sem_rop CLMULH 4026531841 2147483651 = 2013265921.
Proof. split; vm_compute; reflexivity. Qed.

(** The remaining register-register case: a rotate whose amount is a multiple of
    32 executes a shift by 32, which C++ leaves undefined.  The full claim of C12
    therefore does not hold for the code as written. *)
Theorem c12_rotate_by_zero_refuted :
  exists o rd rs1 rs2 rf pc,
    reg_ix rd /\ reg_ix rs1 /\ reg_ix rs2 /\ (forall r, 0 <= rf r < 2 ^ 32) /\
    exec_result (enc_rop o rd rs1 rs2) rf pc <> Val (sem_rop o (rf rs1) (rf rs2)) /\
    exec_result (enc_rop o rd rs1 rs2) rf pc = UB.
Proof. exact rotate_zero_witness. Qed.
Print Assumptions c12_rotate_by_zero_refuted.

(** Exactly the rotates by zero are affected, register and immediate forms. *)
Theorem c12_rotate_by_zero_is_the_only_gap : forall o rd rs1 rs2 rf pc,
  reg_ix rd -> reg_ix rs1 -> reg_ix rs2 -> (forall r, 0 <= rf r < 2 ^ 32) ->
  (exec_result (enc_rop o rd rs1 rs2) rf pc = UB <-> (o = ROL \/ o = ROR) /\ rf rs2 mod 32 = 0).
Proof. exact rop_ub_iff. Qed.
Print Assumptions c12_rotate_by_zero_is_the_only_gap.

Theorem c12_immediate_ops : forall o rd rs1 imm rf pc,
  reg_ix rd -> reg_ix rs1 -> -2048 <= imm < 2048 -> (forall r, 0 <= rf r < 2 ^ 32) ->
  exec_result (enc_iop o rd rs1 imm) rf pc = Val (sem_iop o (rf rs1) imm) /\
  d_dest_areg (decode (enc_iop o rd rs1 imm)) = rd /\
  d_dest_en (decode (enc_iop o rd rs1 imm)) = negb (rd =? 0).
Proof. exact iop_exec. Qed.
Print Assumptions c12_immediate_ops.
Example c12_immediate_ops_ex :
  exec_result (enc_iop SLTI 5 6 (-3)) (fun r => if r =? 6 then 4294967290 else 0) 0 = Val 1.
Proof. vm_compute; reflexivity. Qed.

Theorem c12_shift_immediates : forall o rd rs1 shamt rf pc,
  reg_ix rd -> reg_ix rs1 -> 0 <= shamt < 32 -> (forall r, 0 <= rf r < 2 ^ 32) ->
  (o = RORI -> shamt <> 0) ->
  exec_result (enc_shop o rd rs1 shamt) rf pc = Val (sem_shop o (rf rs1) shamt) /\
  d_dest_areg (decode (enc_shop o rd rs1 shamt)) = rd /\
  d_dest_en (decode (enc_shop o rd rs1 shamt)) = negb (rd =? 0).
Proof. exact shop_exec'. Qed.
Print Assumptions c12_shift_immediates.
Example c12_shift_immediates_ex :
  exec_result (enc_shop SRAI 5 6 4) (fun r => if r =? 6 then 2147483664 else 0) 0 = Val 4160749569.
Proof. vm_compute; reflexivity. Qed.

Theorem c12_unary_ops : forall o rd rs1 rf pc,
  reg_ix rd -> reg_ix rs1 -> (forall r, 0 <= rf r < 2 ^ 32) /\ rf 0 = 0 ->
  exec_result (enc_uop1 o rd rs1) rf pc = Val (sem_uop1 o (rf rs1)) /\
  d_dest_areg (decode (enc_uop1 o rd rs1)) = rd /\
  d_dest_en (decode (enc_uop1 o rd rs1)) = negb (rd =? 0).
Proof. exact uop1_exec. Qed.
Print Assumptions c12_unary_ops.
Example c12_unary_ops_ex :
  exec_result (enc_uop1 ORCB 5 6) (fun r => if r =? 6 then 16711681 else 0) 0 = Val 16711935.
Proof. vm_compute; reflexivity. Qed.

Theorem c12_lui : forall rd imm20 rf pc,
  reg_ix rd -> 0 <= imm20 < 2 ^ 20 -> (forall r, 0 <= rf r < 2 ^ 32) /\ rf 0 = 0 ->
  exec_result (enc_lui rd imm20) rf pc = Val (imm20 * 2 ^ 12) /\
  d_dest_areg (decode (enc_lui rd imm20)) = rd /\
  d_dest_en (decode (enc_lui rd imm20)) = negb (rd =? 0).
Proof. exact lui_exec. Qed.
Print Assumptions c12_lui.
Theorem c12_auipc : forall rd imm20 rf pc,
  reg_ix rd -> 0 <= imm20 < 2 ^ 20 ->
  exec_result (enc_auipc rd imm20) rf pc = Val ((pc + imm20 * 2 ^ 12) mod 2 ^ 32) /\
  d_dest_areg (decode (enc_auipc rd imm20)) = rd /\
  d_dest_en (decode (enc_auipc rd imm20)) = negb (rd =? 0).
Proof. exact auipc_exec. Qed.
Print Assumptions c12_auipc.
Example c12_auipc_ex :
  exec_result (enc_auipc 5 1048575) (fun _ => 0) 2147483656 = Val 2147479560 /\
  exec_result (enc_lui 5 524288) (fun _ => 0) 12 = Val 2147483648.
Proof. split; vm_compute; reflexivity. Qed.

(** *** C13 *)
Theorem c13_mul_div : forall o rd rs1 rs2 rf pc,
  reg_ix rd -> reg_ix rs1 -> reg_ix rs2 -> (forall r, 0 <= rf r < 2 ^ 32) ->
  exec_result (enc_mop o rd rs1 rs2) rf pc = Val (sem_mop o (rf rs1) (rf rs2)) /\
  d_dest_areg (decode (enc_mop o rd rs1 rs2)) = rd /\
  d_dest_en (decode (enc_mop o rd rs1 rs2)) = negb (rd =? 0).
Proof. exact mop_exec. Qed.
Print Assumptions c13_mul_div.
Example c13_mul_div_ex :
  let rf r := if r =? 6 then 2147483648 else if r =? 7 then 4294967295 else 0 in
  exec_result (enc_mop DIV 5 6 7) rf 0 = Val 2147483648 /\
  exec_result (enc_mop REM 5 6 7) rf 0 = Val 0 /\
  exec_result (enc_mop DIV 5 6 0) rf 0 = Val 4294967295 /\
  exec_result (enc_mop REM 5 6 0) rf 0 = Val 2147483648 /\
  exec_result (enc_mop MULHSU 5 6 7) rf 0 = Val 2147483648.
Proof. repeat split; vm_compute; reflexivity. Qed.

(** *** C14 *)
(** [pn] is where the front end continued: the predicted target when it
    predicted taken, otherwise the next sequential instruction. *)
Theorem c14_conditional_branch : forall o rs1 rs2 off rf pc pt npc,
  reg_ix rs1 -> reg_ix rs2 -> -4096 <= off < 4096 -> off mod 2 = 0 ->
  (forall r, 0 <= rf r < 2 ^ 32) ->
  let pn := if pt : bool then npc else (pc + 4) mod 2 ^ 32 in
  exists r, exec_branch (enc_bop o rs1 rs2 off) rf pc pt npc = Some r /\
    (bo_taken r = bcond o (rf rs1) (rf rs2) /\
     bo_target r = next_bop o pc (rf rs1) (rf rs2) off /\
     (pn <> next_bop o pc (rf rs1) (rf rs2) off -> bo_mispred r = true) /\
     (pt = bcond o (rf rs1) (rf rs2) -> pn = next_bop o pc (rf rs1) (rf rs2) off -> bo_mispred r = false)) /\
    d_dest_en (decode (enc_bop o rs1 rs2 off)) = false.
Proof. exact bop_exec. Qed.
Print Assumptions c14_conditional_branch.
Example c14_conditional_branch_ex :
  exec_branch (enc_bop BLT 6 7 (-8)) (fun r => if r =? 6 then 4294967295 else 1) 4096 true 4088
  = Some (mk_bru true 4088 false) /\
  exec_branch (enc_bop BLTU 6 7 (-8)) (fun r => if r =? 6 then 4294967295 else 1) 4096 true 4088
  = Some (mk_bru false 4100 true).
Proof. split; vm_compute; reflexivity. Qed.

Theorem c14_jal : forall rd off rf pc pt npc,
  reg_ix rd -> - 2 ^ 20 <= off < 2 ^ 20 -> off mod 2 = 0 ->
  let pn := if pt : bool then npc else (pc + 4) mod 2 ^ 32 in
  (exists r, exec_branch (enc_jal rd off) rf pc pt npc = Some r /\
     bo_taken r = true /\ bo_target r = next_jal pc off /\
     (pn <> next_jal pc off -> bo_mispred r = true) /\
     (pt = true -> pn = next_jal pc off -> bo_mispred r = false)) /\
  exec_result (enc_jal rd off) rf pc = Val ((pc + 4) mod 2 ^ 32) /\
  d_dest_areg (decode (enc_jal rd off)) = rd /\
  d_dest_en (decode (enc_jal rd off)) = negb (rd =? 0).
Proof. exact jal_exec. Qed.
Print Assumptions c14_jal.
Theorem c14_jalr : forall rd rs1 imm rf pc pt npc,
  reg_ix rd -> reg_ix rs1 -> -2048 <= imm < 2048 ->
  let pn := if pt : bool then npc else (pc + 4) mod 2 ^ 32 in
  (exists r, exec_branch (enc_jalr rd rs1 imm) rf pc pt npc = Some r /\
     bo_taken r = true /\ bo_target r = next_jalr (rf rs1) imm /\
     (pn <> next_jalr (rf rs1) imm -> bo_mispred r = true) /\
     (pt = true -> pn = next_jalr (rf rs1) imm -> bo_mispred r = false)) /\
  exec_result (enc_jalr rd rs1 imm) rf pc = Val ((pc + 4) mod 2 ^ 32) /\
  d_dest_areg (decode (enc_jalr rd rs1 imm)) = rd /\
  d_dest_en (decode (enc_jalr rd rs1 imm)) = negb (rd =? 0).
Proof. exact jalr_exec. Qed.
Print Assumptions c14_jalr.
Example c14_jumps_ex :
  exec_branch (enc_jal 1 (-1048576)) (fun _ => 0) 1048576 false 0 = Some (mk_bru true 0 true) /\
  exec_branch (enc_jalr 1 6 (-5)) (fun r => if r =? 6 then 3 else 0) 64 true 4294967294
  = Some (mk_bru true 4294967294 false).
Proof. split; vm_compute; reflexivity. Qed.

(** *** C15 *)
Theorem c15_immediates_of_every_word : forall w,
  immI w = isa_immI w /\ immS w = isa_immS w /\ immB w = isa_immB w /\
  immU w = isa_immU w /\ immJ w = isa_immJ w.
Proof. exact imm_all. Qed.
Print Assumptions c15_immediates_of_every_word.

(** Decoding gives back the offset the assembler encoded. *)
Theorem c15_encoded_offsets_round_trip :
  (forall imm rs1 f3 rd op, -2048 <= imm < 2048 -> reg_ix rs1 -> 0 <= f3 < 8 -> reg_ix rd ->
     0 <= op < 128 -> immI (enc_I (fld imm 11 0) rs1 f3 rd op) = imm mod 2 ^ 32) /\
  (forall imm rs2 rs1 f3 op, -2048 <= imm < 2048 -> reg_ix rs1 -> reg_ix rs2 -> 0 <= f3 < 8 ->
     0 <= op < 128 -> immS (enc_S imm rs2 rs1 f3 op) = imm mod 2 ^ 32) /\
  (forall off rs2 rs1 f3 op, -4096 <= off < 4096 -> off mod 2 = 0 -> reg_ix rs1 -> reg_ix rs2 ->
     0 <= f3 < 8 -> 0 <= op < 128 -> immB (enc_B off rs2 rs1 f3 op) = off mod 2 ^ 32) /\
  (forall imm20 rd op, 0 <= imm20 < 2 ^ 20 -> reg_ix rd -> 0 <= op < 128 ->
     immU (enc_U imm20 rd op) = imm20 * 2 ^ 12) /\
  (forall off rd op, - 2 ^ 20 <= off < 2 ^ 20 -> off mod 2 = 0 -> reg_ix rd -> 0 <= op < 128 ->
     immJ (enc_J off rd op) = off mod 2 ^ 32).
Proof. exact imm_round_trips. Qed.
Print Assumptions c15_encoded_offsets_round_trip.
Example c15_ex : immJ (enc_J (-1048576) 1 111) = 4293918720 /\ immB (enc_B (-2) 3 4 0 99) = 4294967294.
Proof. split; vm_compute; reflexivity. Qed.

(** *** C43: memory instructions *)
Theorem c43_load_address : forall f3 rd rs1 imm rf,
  0 <= f3 < 8 -> reg_ix rd -> reg_ix rs1 -> -2048 <= imm < 2048 ->
  exec_addr (enc_load f3 rd rs1 imm) rf = Some ((rf rs1 + imm) mod 2 ^ 32) /\
  d_func3 (decode (enc_load f3 rd rs1 imm)) = f3 /\
  d_dest_areg (decode (enc_load f3 rd rs1 imm)) = rd /\
  d_dest_en (decode (enc_load f3 rd rs1 imm)) = negb (rd =? 0).
Proof. exact load_exec. Qed.
Print Assumptions c43_load_address.
Theorem c43_store_address_and_data : forall f3 rs1 rs2 imm rf old,
  0 <= f3 < 8 -> reg_ix rs1 -> reg_ix rs2 -> -2048 <= imm < 2048 ->
  exec_addr (enc_store f3 rs1 rs2 imm) rf = Some ((rf rs1 + imm) mod 2 ^ 32) /\
  exec_store_data (enc_store f3 rs1 rs2 imm) rf old = Some (rf rs2) /\
  d_func3 (decode (enc_store f3 rs1 rs2 imm)) = f3 /\
  d_dest_en (decode (enc_store f3 rs1 rs2 imm)) = false.
Proof. exact store_exec. Qed.
Print Assumptions c43_store_address_and_data.
(** [old] is the memory word the load half returned. *)
Theorem c43_amo : forall o aqrl rd rs1 rs2 rf old,
  0 <= aqrl < 4 -> reg_ix rd -> reg_ix rs1 -> reg_ix rs2 ->
  (forall r, 0 <= rf r < 2 ^ 32) -> 0 <= old < 2 ^ 32 ->
  let w := enc_amo o aqrl rd rs1 rs2 in
  exec_addr w rf = Some (rf rs1) /\
  exec_store_data w rf old = Some (sem_amo o old (rf rs2)) /\
  d_dest_areg (decode w) = (if rd =? 0 then 32 else rd) /\ d_dest_en (decode w) = true.
Proof. exact amo_exec. Qed.
Print Assumptions c43_amo.
Theorem c43_lr : forall aqrl rd rs1 rf,
  0 <= aqrl < 4 -> reg_ix rd -> reg_ix rs1 -> (forall r, 0 <= rf r < 2 ^ 32) ->
  let w := enc_lr aqrl rd rs1 in
  exec_addr w rf = Some (rf rs1) /\ exec_store_data w rf 0 = None /\
  d_dest_areg (decode w) = rd /\ d_dest_en (decode w) = negb (rd =? 0).
Proof. exact lr_exec. Qed.
Print Assumptions c43_lr.
Theorem c43_sc : forall aqrl rd rs1 rs2 rf old,
  0 <= aqrl < 4 -> reg_ix rd -> reg_ix rs1 -> reg_ix rs2 -> (forall r, 0 <= rf r < 2 ^ 32) ->
  let w := enc_sc aqrl rd rs1 rs2 in
  exec_addr w rf = Some (rf rs1) /\ exec_store_data w rf old = Some (rf rs2) /\
  d_dest_areg (decode w) = rd /\ d_dest_en (decode w) = negb (rd =? 0).
Proof. exact sc_exec. Qed.
Print Assumptions c43_sc.
Example c43_ex :
  let rf r := if r =? 6 then 4096 else if r =? 7 then 4294967295 else 0 in
  exec_store_data (enc_amo AMOMIN 0 0 6 7) rf 5 = Some 4294967295 /\
  exec_store_data (enc_amo AMOMINU 0 0 6 7) rf 5 = Some 5 /\
  exec_addr (enc_load 2 5 6 (-4)) rf = Some 4092 /\
  exec_addr (enc_store 2 6 7 2047) rf = Some 6143.
Proof. repeat split; vm_compute; reflexivity. Qed.
