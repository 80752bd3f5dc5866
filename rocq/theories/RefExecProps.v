(** C59: the reference CPU executes the integer instructions as specified, and writes
    what the core writes. *)
From Verif Require Import Base BaseLemmas CsrModel ExecModel IsaSpec ExecProofs ExecProps MemModel MemSpec MemProofs RefModel RefSpec RefExecProofs RefStepProofs.
Ltac Zify.zify_post_hook ::= Z.div_mod_to_equations.
#[local] Opaque Z.pow Z.land Z.lor Z.lxor Z.shiftl Z.shiftr.

(** [inv]: 32-bit words everywhere, x0 = 0, mie = 0, satp in bare mode.  [R]: registers,
    program counter and memory bytes are those of the specified machine. *)
Theorem c59_one_instruction : forall e s a b, inv s -> R s a -> isa_step a b ->
  exists s', exec e s = Done s' /\ inv s' /\ R s' b /\ r_priv s' = r_priv s /\ r_dev s' = r_dev s.
Proof. exact exec_step. Qed.
Print Assumptions c59_one_instruction.

(** Calls of exec under any environments. *)
Fixpoint calls (env : nat -> renv) (n : nat) (s : ref) : res :=
  match n with O => Done s | S k => match calls env k s with Done s' => exec (env k) s' | r => r end end.
Theorem c59_programs : forall env s a b, inv s -> R s a -> isa_run a b ->
  exists n s', calls env n s = Done s' /\ inv s' /\ R s' b /\ r_dev s' = r_dev s.
Proof.
  intros env s a b HI HR H. induction H as [a|a b c _ IH ST].
  - exists O, s. repeat split; try reflexivity; try apply HI; apply HR.
  - destruct (IH HR) as (n & s' & C & I' & R' & D'). destruct (exec_step (env n) s' b c I' R' ST) as (s2 & X & I2 & R2 & _ & D2).
    exists (S n), s2. cbn [calls]. rewrite C. split; [exact X|]. split; [exact I2|]. split; [exact R2|]. now rewrite D2.
Qed.
Print Assumptions c59_programs.

(** No instruction of the specification is encoded by the word. *)
Definition reserved (w : Z) : Prop := forall x, wf_ins x -> enc x <> w.
Lemma stale_op i a b : ref_op i a b = Stale -> bits i 6 0 = 51 -> reserved i.
Proof.
  intros S O x WF E. assert (X := enc_op x WF). rewrite E, O in X. subst i.
  destruct x as [o rd rs1 rs2|o rd rs1 rs2|o rd rs1 imm|o rd rs1 n|o rd rs1|rd i|rd i|rd off|rd rs1 imm|o rs1 rs2 off|f3 rd rs1 imm|f3 rs1 rs2 imm|o q rd rs1 rs2]; cbn [enc wf_ins] in *.
  - revert S. apply rop_legal; tauto.
  - revert S. apply mop_legal; tauto.
  - destruct WF as (D & A & B). destruct (iop_fields o rd rs1 imm D A) as (E1 & _). rewrite O in E1. discriminate.
  - destruct WF as (D & A & B). assert (F : rfields (fst (rop_f (shop_r o))) n rs1 (snd (rop_f (shop_r o))) rd 19) by (unfold rfields, reg_ix in *; pose proof (sh_fields o); lia).
    unfold enc_shop in O. fields F. rewrite O in E1. discriminate.
  - destruct WF as (D & A). destruct (uop1_legal o rd rs1 a b D A) as [[E1 _]|[_ L]]; [rewrite O in E1; discriminate|now apply L].
  - destruct WF as (D & B). destruct (u_fields i rd 55 B D ltac:(lia)) as (E1 & _). unfold enc_lui in O. rewrite O in E1. discriminate.
  - destruct WF as (D & B). destruct (u_fields i rd 23 B D ltac:(lia)) as (E1 & _). unfold enc_auipc in O. rewrite O in E1. discriminate.
  - destruct WF as (D & B). destruct (j_fields off rd 111 D ltac:(lia)) as (E1 & _). unfold enc_jal in O. rewrite O in E1. discriminate.
  - destruct WF as (D & A & B). unfold enc_jalr in O. rewrite enc_I_R in O. pose proof (fld_11_0 imm).
    assert (F : rfields (fld imm 11 0 / 32) (fld imm 11 0 mod 32) rs1 0 rd 103) by (unfold rfields, reg_ix in *; lia). fields F. rewrite O in E1. discriminate.
  - destruct WF as (A & B & _). unfold enc_bop, enc_B in O.
    pose proof (fld_range off 12 12 ltac:(lia)) as F1. pose proof (fld_range off 10 5 ltac:(lia)) as F2. pose proof (fld_range off 4 1 ltac:(lia)) as F3. pose proof (fld_range off 11 11 ltac:(lia)) as F4.
    unfold is_w in *. change (2 ^ (12 - 12 + 1)) with 2 in *. change (2 ^ (10 - 5 + 1)) with 64 in *. change (2 ^ (4 - 1 + 1)) with 16 in *. change (2 ^ (11 - 11 + 1)) with 2 in *. change (2 ^ 6) with 64 in *.
    assert (F : rfields (fld off 12 12 * 64 + fld off 10 5) rs2 rs1 (bop_f o) (fld off 4 1 * 2 + fld off 11 11) 99) by (unfold rfields, reg_ix in *; destruct o; cbn [bop_f]; lia).
    fields F. rewrite O in E1. discriminate.
  - destruct WF as (L & D & A & B). unfold enc_load in O. rewrite enc_I_R in O. pose proof (fld_11_0 imm). pose proof (load_f3_range _ L).
    assert (F : rfields (fld imm 11 0 / 32) (fld imm 11 0 mod 32) rs1 f3 rd 3) by (unfold rfields, reg_ix in *; lia). fields F. rewrite O in E1. discriminate.
  - destruct WF as (L & D & A & B). unfold enc_store, enc_S in O. pose proof (load_f3_range _ (store_is_load _ L)).
    pose proof (fld_range imm 11 5 ltac:(lia)) as F1. pose proof (fld_range imm 4 0 ltac:(lia)) as F2. unfold is_w in *. change (2 ^ (11 - 5 + 1)) with 128 in *. change (2 ^ (4 - 0 + 1)) with 32 in *.
    assert (F : rfields (fld imm 11 5) rs2 rs1 f3 (fld imm 4 0) 35) by (unfold rfields, reg_ix in *; lia). fields F. rewrite O in E1. discriminate.
  - discriminate.
Qed.
Lemma stale_opimm i a : ref_opimm i a = Stale -> bits i 6 0 = 19 -> reserved i.
Proof.
  intros S O x WF E. assert (X := enc_op x WF). rewrite E, O in X. subst i.
  destruct x as [o rd rs1 rs2|o rd rs1 rs2|o rd rs1 imm|o rd rs1 n|o rd rs1|rd i|rd i|rd off|rd rs1 imm|o rs1 rs2 off|f3 rd rs1 imm|f3 rs1 rs2 imm|o q rd rs1 rs2]; cbn [enc wf_ins] in *.
  - destruct WF as (D & A & B). unfold enc_rop in O. assert (F : rfields (fst (rop_f o)) rs2 rs1 (snd (rop_f o)) rd 51) by (unfold rfields, reg_ix in *; pose proof (rf_fields o); lia). fields F. rewrite O in E1. discriminate.
  - destruct WF as (D & A & B). unfold enc_mop in O. assert (F : rfields 1 rs2 rs1 (mop_f o) rd 51) by (unfold rfields, reg_ix in *; destruct o; cbn [mop_f]; lia). fields F. rewrite O in E1. discriminate.
  - revert S. apply iop_legal; tauto.
  - revert S. apply shop_legal; tauto.
  - destruct WF as (D & A). destruct (uop1_legal o rd rs1 a 0 D A) as [[_ L]|[E1 _]]; [now apply L|rewrite O in E1; discriminate].
  - destruct WF as (D & B). destruct (u_fields i rd 55 B D ltac:(lia)) as (E1 & _). unfold enc_lui in O. rewrite O in E1. discriminate.
  - destruct WF as (D & B). destruct (u_fields i rd 23 B D ltac:(lia)) as (E1 & _). unfold enc_auipc in O. rewrite O in E1. discriminate.
  - destruct WF as (D & B). destruct (j_fields off rd 111 D ltac:(lia)) as (E1 & _). unfold enc_jal in O. rewrite O in E1. discriminate.
  - destruct WF as (D & A & B). unfold enc_jalr in O. rewrite enc_I_R in O. pose proof (fld_11_0 imm).
    assert (F : rfields (fld imm 11 0 / 32) (fld imm 11 0 mod 32) rs1 0 rd 103) by (unfold rfields, reg_ix in *; lia). fields F. rewrite O in E1. discriminate.
  - destruct WF as (A & B & _). unfold enc_bop, enc_B in O.
    pose proof (fld_range off 12 12 ltac:(lia)) as F1. pose proof (fld_range off 10 5 ltac:(lia)) as F2. pose proof (fld_range off 4 1 ltac:(lia)) as F3. pose proof (fld_range off 11 11 ltac:(lia)) as F4.
    unfold is_w in *. change (2 ^ (12 - 12 + 1)) with 2 in *. change (2 ^ (10 - 5 + 1)) with 64 in *. change (2 ^ (4 - 1 + 1)) with 16 in *. change (2 ^ (11 - 11 + 1)) with 2 in *. change (2 ^ 6) with 64 in *.
    assert (F : rfields (fld off 12 12 * 64 + fld off 10 5) rs2 rs1 (bop_f o) (fld off 4 1 * 2 + fld off 11 11) 99) by (unfold rfields, reg_ix in *; destruct o; cbn [bop_f]; lia).
    fields F. rewrite O in E1. discriminate.
  - destruct WF as (L & D & A & B). unfold enc_load in O. rewrite enc_I_R in O. pose proof (fld_11_0 imm). pose proof (load_f3_range _ L).
    assert (F : rfields (fld imm 11 0 / 32) (fld imm 11 0 mod 32) rs1 f3 rd 3) by (unfold rfields, reg_ix in *; lia). fields F. rewrite O in E1. discriminate.
  - destruct WF as (L & D & A & B). unfold enc_store, enc_S in O. pose proof (load_f3_range _ (store_is_load _ L)).
    pose proof (fld_range imm 11 5 ltac:(lia)) as F1. pose proof (fld_range imm 4 0 ltac:(lia)) as F2. unfold is_w in *. change (2 ^ (11 - 5 + 1)) with 128 in *. change (2 ^ (4 - 0 + 1)) with 32 in *.
    assert (F : rfields (fld imm 11 5) rs2 rs1 f3 (fld imm 4 0) 35) by (unfold rfields, reg_ix in *; lia). fields F. rewrite O in E1. discriminate.
  - discriminate.
Qed.

Theorem c59_core_writes_the_same : forall e s, In (bits (r_inst s) 6 0) [55; 23; 111; 103; 19; 51] -> r_gpr s 0 = 0 ->
  match rv32im e s with
  | Done s' => (exists v, r_gpr s' = RefModel.upd (r_gpr s) (bits (r_inst s) 11 7) v /\ exec_result (r_inst s) (r_gpr s) (r_pc s) = Val v) \/
               (reserved (r_inst s) /\ r_gpr s' = r_gpr s)
  | Undef => exec_result (r_inst s) (r_gpr s) (r_pc s) = UB
  | Halt => False
  end.
Proof.
  intros e s O Z. cbn [In] in O. destruct O as [O|[O|[O|[O|[O|[O|[]]]]]]]; symmetry in O.
  - rewrite im_lui by exact O. left. eexists. split; [reflexivity|]. now apply exec_lui.
  - rewrite im_auipc by exact O. left. eexists. split; [reflexivity|]. now apply exec_auipc.
  - rewrite im_jal by exact O. left. eexists. split; [reflexivity|]. apply exec_link. now left.
  - rewrite im_jalr by exact O. left. eexists. split; [reflexivity|]. apply exec_link. now right.
  - rewrite im_opimm, exec_opimm by exact O. destruct (ref_opimm _ _) eqn:E.
    + left. eexists. split; [reflexivity|]. apply agree_opimm; [exact E|discriminate].
    + right. split; [|reflexivity]. exact (stale_opimm _ _ E O).
    + apply agree_opimm; [exact E|discriminate].
    + exfalso. revert E. unfold ref_opimm, ror_c. cbv zeta. clear. repeat match goal with |- context [if ?b then _ else _] => destruct b end; discriminate.
  - rewrite im_op by exact O. destruct (Z.eq_dec (bits (r_inst s) 31 25) 1) as [M|M].
    + rewrite exec_md by assumption. unfold ref_op. cbv zeta. rewrite M. eqbs. left. eexists. split; reflexivity.
    + rewrite exec_op by assumption. destruct (ref_op _ _ _) eqn:E.
      * left. eexists. split; [reflexivity|]. apply agree_op; [exact M|exact E|discriminate].
      * right. split; [|reflexivity]. exact (stale_op _ _ _ E O).
      * apply agree_op; [exact M|exact E|discriminate].
      * exfalso. revert E. unfold ref_op, ror_c, rol_c. cbv zeta. clear. repeat match goal with |- context [if ?b then _ else _] => destruct b end; discriminate.
Qed.
Print Assumptions c59_core_writes_the_same.

(** Jumps and branches, whatever was predicted. *)
Theorem c59_core_goes_the_same_way : forall e s pt npc r,
  (bits (r_inst s) 6 0 = 111 \/ bits (r_inst s) 6 0 = 103 \/ (bits (r_inst s) 6 0 = 99 /\ bits (r_inst s) 14 12 <> 2 /\ bits (r_inst s) 14 12 <> 3)) ->
  exec_branch (r_inst s) (r_gpr s) (r_pc s) pt npc = Some r ->
  exists s', rv32im e s = Done s' /\ r_pc s' = bo_target r.
Proof.
  intros e s pt npc r [O|[O|(O & N2 & N3)]] X.
  - rewrite im_jal by exact O. eexists. split; [reflexivity|]. symmetry. now apply (jal_target _ _ _ _ _ _ O X).
  - rewrite im_jalr by exact O. eexists. split; [reflexivity|]. symmetry. now apply (jalr_target _ _ _ _ _ _ O X).
  - rewrite im_br by exact O. eexists. split; [reflexivity|]. symmetry. now apply (br_target _ _ _ _ _ _ O N2 N3 X).
Qed.
Print Assumptions c59_core_goes_the_same_way.

(** Concrete states: no devices, environments with an abstract softfloat. *)
Definition sf0 : sfloat := mksf (fun _ _ _ => 0) (fun _ _ _ => 0) (fun _ _ _ => 0) (fun _ _ _ => 0) (fun _ _ => 0) (fun _ _ _ _ => 0)
  (fun _ _ => false) (fun _ _ => false) (fun _ _ => false) (fun _ _ => 0) (fun _ _ => 0) (fun _ _ => 0) (fun _ _ => 0).
Definition e0 : renv := mkre 0 None false sf0.
Definition r0 (g : Z -> Z) (pc : Z) (m : Z -> Z) (i : Z) : ref :=
  mkr g (cset (fun _ => 0) misa 0x40141103) pc 3 m false 0 0 0 false 0 i no_irq (mkfl false false false false) 0 (2 ^ 64 - 1) false [].
(** A program of four instructions, run by exec: addi x5,x0,-3; sw x5,0(x6); amoadd.w x7,x5,(x6); lbu x8,1(x6). *)
Definition prog : list Z := [enc_iop ADDI 5 0 (-3); enc_store 2 6 5 0; enc_amo AMOADD 0 7 6 5; enc_load 4 8 6 1].
Definition pmem (i : Z) : Z := nth (Z.to_nat (i - 0x20000000)) prog 0.
Example c59_program_runs :
  match calls (fun _ => e0) 4 (r0 (fun r => if r =? 6 then 0x80001000 else 0) 0x80000000 pmem 0) with
  | Done s => map (r_gpr s) [0; 5; 6; 7; 8] = [0; 4294967293; 0x80001000; 4294967293; 255] /\ r_pc s = 0x80000010 /\ r_mem s 0x20000400 = 4294967290
  | _ => False end.
Proof. vm_compute. repeat split; reflexivity. Qed.

(** Reserved encodings: the core executes what the reference skips. *)
Theorem c59_reserved_encodings_refuted :
  (* funct7 = 0x20 with funct3 = 2: the core writes slt, the reference nothing *)
  (let i := enc_R 32 7 6 2 5 51 in let g r := if r =? 7 then 1 else 0 in
     exec_result i g 0 = Val 1 /\ d_dest_en (decode i) = true /\ d_illegal (decode i) = false /\
     match rv32im e0 (r0 g 0 (fun _ => 0) i) with Done s => r_gpr s 5 = 0 | _ => False end) /\
  (* branch with funct3 = 2: the core jumps, the reference does not *)
  (let i := enc_B 8 7 6 2 99 in
     exec_branch i (fun _ => 0) 0x80000000 false 0 = Some (mk_bru true 0x80000008 true) /\
     match rv32im e0 (r0 (fun _ => 0) 0x80000000 (fun _ => 0) i) with Done s => r_pc s = 0x80000004 | _ => False end) /\
  (* an unknown major opcode: illegal instruction in the core, a no-op in the reference *)
  (let i := 0x0b in
     d_illegal (decode i) = true /\
     match exec e0 (r0 (fun _ => 0) 0x80000000 (fun _ => i) 0) with Done s => r_pc s = 0x80000004 /\ r_csr s mcause = 0 | _ => False end) /\
  (* fused multiply-add: illegal in the core, executed by the reference *)
  (let i := enc_R 0 7 6 0 5 0x43 in d_illegal (decode i) = true /\
     forall sf, match exec (mkre 0 None false sf) (r0 (fun _ => 0) 0x80000000 (fun _ => i) 0) with Done s => r_pc s = 0x80000004 /\ r_gpr s 5 = sf_muladd sf 0 0 0 0 | _ => False end).
Proof.
  split; [|split; [|split]].
  - vm_compute. repeat split; reflexivity.
  - vm_compute. repeat split; reflexivity.
  - vm_compute. repeat split; reflexivity.
  - cbv zeta. split; [vm_compute; reflexivity|]. intros sf. vm_compute. split; reflexivity.
Qed.
Print Assumptions c59_reserved_encodings_refuted.
