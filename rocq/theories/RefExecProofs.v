From Verif Require Import Base BaseLemmas ExecModel IsaSpec ExecProofs AluProofs ExecIsaProofs ExecProps MemModel MemSpec MemProofs RefModel.
Ltac Zify.zify_post_hook ::= Z.div_mod_to_equations.
#[local] Opaque Z.pow Z.land Z.lor Z.lxor Z.shiftl Z.shiftr.

(** ** The core's result for each opcode *)
Ltac eqbs := repeat match goal with |- context [Z.eqb ?a ?b] =>
  match a with Z0 => idtac | Zpos _ => idtac end; match b with Z0 => idtac | Zpos _ => idtac end;
  let t := eval cbv in (Z.eqb a b) in change (Z.eqb a b) with t end; cbv iota.
Definition dec (i : Z) (de s1e s2e : bool) (s1 : Z) (pc im : bool) (t : inst_type) (imm fn3 : Z) : duop :=
  mk_duop (bits i 11 7) s1 (bits i 24 20) (if bits i 11 7 =? 0 then false else de) s1e s2e pc im fn3 (bits i 31 25) imm (Z.shiftr i 20) t false false.
Ltac dc H := unfold decode, decode_case; cbv zeta; rewrite H; eqbs;
  cbn [d_type d_dest_areg d_src1_areg d_src2_areg d_dest_en d_src1_en d_src2_en d_src1_is_pc d_src2_is_imm d_func3 d_func7 d_imm d_csr_idx d_is_atomic d_illegal it_eqb andb];
  reflexivity.
Lemma dec_lui i : bits i 6 0 = 55 -> decode i = dec i true true false 0 false true T_ADD (immU i) 0. Proof. intros H; dc H. Qed.
Lemma dec_auipc i : bits i 6 0 = 23 -> decode i = dec i true false false (bits i 19 15) true true T_ADD (immU i) 0. Proof. intros H; dc H. Qed.
Lemma dec_jal i : bits i 6 0 = 111 -> decode i = dec i true false false (bits i 19 15) true true T_JAL (immJ i) 0. Proof. intros H; dc H. Qed.
Lemma dec_jalr i : bits i 6 0 = 103 -> decode i = dec i true true false (bits i 19 15) true true T_JALR (immI i) 0. Proof. intros H; dc H. Qed.
Lemma dec_br i : bits i 6 0 = 99 -> decode i = dec i false true true (bits i 19 15) false true T_BR (immB i) (bits i 14 12). Proof. intros H; dc H. Qed.
Lemma dec_load i : bits i 6 0 = 3 -> decode i = dec i true true false (bits i 19 15) false true T_LOAD (immI i) (bits i 14 12). Proof. intros H; dc H. Qed.
Lemma dec_store i : bits i 6 0 = 35 -> decode i = dec i false true true (bits i 19 15) false true T_STORE (immS i) (bits i 14 12). Proof. intros H; dc H. Qed.
Lemma dec_opimm i : bits i 6 0 = 19 -> decode i = dec i true true false (bits i 19 15) false true T_ADD (immI i) (bits i 14 12). Proof. intros H; dc H. Qed.
Lemma dec_op i : bits i 6 0 = 51 -> bits i 31 25 <> 1 -> decode i = dec i true true true (bits i 19 15) false false T_ADD 0 (bits i 14 12).
Proof. intros H N. unfold decode, decode_case. cbv zeta. rewrite H. eqbs. replace (bits i 31 25 =? 1) with false by lia. reflexivity. Qed.
Lemma dec_md i : bits i 6 0 = 51 -> bits i 31 25 = 1 ->
  decode i = dec i true true true (bits i 19 15) false false (if Z.testbit (bits i 14 12) 2 then T_DIV else T_MUL) 0 (bits i 14 12).
Proof. intros H N. unfold decode, decode_case. cbv zeta. rewrite H. eqbs. rewrite N. eqbs. unfold dec. rewrite N. destruct (Z.testbit (bits i 14 12) 2); reflexivity. Qed.
Definition opm (f3 f7 imm : Z) (isimm : bool) : muop := mk_muop IQ_INT U_ADD true true true S1_src1 false isimm f3 f7 imm false.
Lemma exec_opimm i rf pc : bits i 6 0 = 19 ->
  exec_result i rf pc = alu_add_case (opm (bits i 14 12) (bits i 31 25) (immI i) true) (rf (bits i 19 15)) (immI i).
Proof. intros H. unfold exec_result. rewrite (dec_opimm i H). reflexivity. Qed.
Lemma exec_op i rf pc : bits i 6 0 = 51 -> bits i 31 25 <> 1 ->
  exec_result i rf pc = alu_add_case (opm (bits i 14 12) (bits i 31 25) 0 false) (rf (bits i 19 15)) (rf (bits i 24 20)).
Proof. intros H N. unfold exec_result. rewrite (dec_op i H N). reflexivity. Qed.
Lemma f3_range i : 0 <= bits i 14 12 < 8.
Proof. pose proof (bits_range i 14 12 ltac:(lia)) as H. unfold is_w in H. change (2 ^ (14 - 12 + 1)) with 8 in H. exact H. Qed.
Lemma exec_md i rf pc : bits i 6 0 = 51 -> bits i 31 25 = 1 ->
  exec_result i rf pc = Val (ref_muldiv (bits i 14 12) (rf (bits i 19 15)) (rf (bits i 24 20))).
Proof.
  intros H N. unfold exec_result. rewrite (dec_md i H N). unfold dec.
  pose proof (f3_range i) as R. set (f := bits i 14 12) in *. clearbody f.
  assert (C : f = 0 \/ f = 1 \/ f = 2 \/ f = 3 \/ f = 4 \/ f = 5 \/ f = 6 \/ f = 7) by lia.
  destruct C as [C|[C|[C|[C|[C|[C|[C|C]]]]]]]; subst f; reflexivity.
Qed.
Lemma add0 m a b : m_func3 m = 0 -> m_src2_is_imm m = true -> alu_add_case m a b = Val (w32 (a + b)).
Proof. intros F S. unfold alu_add_case. rewrite F, S. eqbs. now rewrite andb_false_r. Qed.
Lemma exec_lui i rf pc : bits i 6 0 = 55 -> rf 0 = 0 -> exec_result i rf pc = Val (immU i).
Proof.
  intros H R0. unfold exec_result. rewrite (dec_lui i H). unfold dec, decompose, exec_uop, mk_uop, operand, alu.
  cbn [m_op m_src1_en m_src2_en m_src1_is_pc m_src2_is_imm m_imm d_type d_src1_areg d_src1_en d_src1_is_pc d_src2_is_imm d_imm].
  rewrite add0 by reflexivity. f_equal. rewrite R0, Z.add_0_l. apply w32_id, w32_range.
Qed.
Lemma exec_auipc i rf pc : bits i 6 0 = 23 -> exec_result i rf pc = Val (w32 (immU i + pc)).
Proof.
  intros H. unfold exec_result. rewrite (dec_auipc i H). unfold dec, decompose, exec_uop, mk_uop, operand, alu.
  cbn [m_op m_src1_en m_src2_en m_src1_is_pc m_src2_is_imm m_imm d_type d_src1_areg d_src1_en d_src1_is_pc d_src2_is_imm d_imm].
  rewrite add0 by reflexivity. do 2 f_equal. lia.
Qed.
Lemma exec_link i rf pc : bits i 6 0 = 111 \/ bits i 6 0 = 103 -> exec_result i rf pc = Val (w32 (pc + 4)).
Proof.
  intros [H|H]; unfold exec_result; [rewrite (dec_jal i H)|rewrite (dec_jalr i H)]; unfold dec, decompose, exec_uop, mk_uop, set_imm, set_en, operand, alu;
  cbn [m_op m_iq m_dest_en m_src1_sel m_func3 m_func7 m_is_atomic m_src1_en m_src2_en m_src1_is_pc m_src2_is_imm m_imm d_type d_src1_areg d_src1_en d_src1_is_pc d_src2_is_imm d_imm];
  now rewrite add0 by reflexivity.
Qed.

(** ** Agreement of the register results *)
Lemma immI_shamt i : Z.land (immI i) 31 = bits i 24 20.
Proof.
  apply (word_ext 5); [lia| | |].
  - change 31 with (2 ^ 5 - 1). rewrite land_lo by lia. unfold is_w. apply Z.mod_pos_bound. reflexivity.
  - exact (bits_range i 24 20 ltac:(lia)).
  - intros k K. rewrite Z.land_spec. change 31 with (2 ^ 5 - 1). rewrite testbit_ones_pred by lia.
    replace (k <? 5) with true by lia. rewrite andb_true_r. rewrite immI_isa. unfold isa_immI. rewrite word_testbit by lia.
    replace (k <? 11) with true by lia. rewrite testbit_bits by lia. replace (k <? 24 - 20 + 1) with true by lia. reflexivity.
Qed.
Ltac f7case f := repeat match goal with
  | |- context [f =? ?k] => destruct (Z.eqb_spec f k) as [->|]; [cbn [andb negb]; try reflexivity; try congruence|] end.
Lemma agree_opimm i a o : ref_opimm i a = o -> o <> Stale ->
  alu_add_case (opm (bits i 14 12) (bits i 31 25) (immI i) true) a (immI i) = o.
Proof.
  intros H N. subst o. unfold ref_opimm in *. cbv zeta in *. rewrite <- immI_shamt in *. unfold alu_add_case, opm.
  cbn [m_func3 m_func7 m_src2_is_imm m_imm negb].
  pose proof (f3_range i) as R. set (f := bits i 14 12) in *. set (g := bits i 31 25) in *. set (b := immI i) in *. clearbody f g b.
  assert (C : f = 0 \/ f = 1 \/ f = 2 \/ f = 3 \/ f = 4 \/ f = 5 \/ f = 6 \/ f = 7) by lia.
  destruct C as [C|[C|[C|[C|[C|[C|[C|C]]]]]]]; subst f;
    repeat match goal with |- context [Z.eqb ?a ?b] => match a with Z0 => idtac | Zpos _ => idtac end; match b with Z0 => idtac | Zpos _ => idtac end;
      let t := eval cbv in (Z.eqb a b) in change (Z.eqb a b) with t in * end; cbv iota in *; rewrite ?andb_false_r, ?andb_true_r; cbv iota;
    try reflexivity;
    try (destruct (g =? 0); reflexivity).
  - destruct (Z.eqb_spec g 0) as [->|]; [reflexivity|]. destruct (Z.eqb_spec g 48) as [->|]; [reflexivity|].
    destruct (Z.eqb_spec g 20) as [->|]; [reflexivity|]. destruct (Z.eqb_spec g 36) as [->|]; [reflexivity|].
    destruct (Z.eqb_spec g 52) as [->|]; [reflexivity|]. now contradiction N.
  - destruct (Z.eqb_spec g 0) as [->|]; [reflexivity|]. destruct (Z.eqb_spec g 32) as [->|]; [reflexivity|].
    destruct (Z.eqb_spec g 48) as [->|]; [reflexivity|]. destruct (Z.eqb_spec g 36) as [->|]; [reflexivity|].
    destruct (Z.eqb_spec g 52) as [->|]; [reflexivity|]. destruct (Z.eqb_spec g 20) as [->|]; [reflexivity|]. now contradiction N.
Qed.
Lemma agree_op i a b o : bits i 31 25 <> 1 -> ref_op i a b = o -> o <> Stale ->
  alu_add_case (opm (bits i 14 12) (bits i 31 25) 0 false) a b = o.
Proof.
  intros M H N. subst o. unfold ref_op in *. cbv zeta in *. unfold alu_add_case, opm.
  cbn [m_func3 m_func7 m_src2_is_imm m_imm negb].
  pose proof (f3_range i) as R. set (f := bits i 14 12) in *. set (g := bits i 31 25) in *. clearbody f g.
  replace (g =? 1) with false in * by lia. cbv iota in *.
  assert (C : f = 0 \/ f = 1 \/ f = 2 \/ f = 3 \/ f = 4 \/ f = 5 \/ f = 6 \/ f = 7) by lia.
  destruct C as [C|[C|[C|[C|[C|[C|[C|C]]]]]]]; subst f;
    repeat match goal with |- context [Z.eqb ?a ?b] => match a with Z0 => idtac | Zpos _ => idtac end; match b with Z0 => idtac | Zpos _ => idtac end;
      let t := eval cbv in (Z.eqb a b) in change (Z.eqb a b) with t in * end; cbv iota in *; rewrite ?andb_false_r, ?andb_true_r; cbv iota;
    (destruct (Z.eqb_spec g 0) as [->|]; [reflexivity|]);
    try (destruct (Z.eqb_spec g 32) as [->|]; [reflexivity|]);
    try (destruct (Z.eqb_spec g 16) as [->|]; [reflexivity|]);
    try (destruct (Z.eqb_spec g 4) as [->|]; [reflexivity|]);
    try (destruct (Z.eqb_spec g 5) as [->|]; [reflexivity|]);
    try (destruct (Z.eqb_spec g 48) as [->|]; [reflexivity|]);
    try (destruct (Z.eqb_spec g 36) as [->|]; [reflexivity|]);
    try (destruct (Z.eqb_spec g 20) as [->|]; [reflexivity|]);
    try (destruct (Z.eqb_spec g 52) as [->|]; [reflexivity|]);
    now contradiction N.
Qed.

(** ** Whole steps of RV32IM *)
Definition pc4 (s : ref) : Z := w32 (r_pc s + 4).
Lemma im_opimm e s : bits (r_inst s) 6 0 = 19 -> rv32im e s =
  match ref_opimm (r_inst s) (r_gpr s (bits (r_inst s) 19 15)) with
  | Val v => Done (set_pc (wr s (bits (r_inst s) 11 7) v) (pc4 s)) | Stale => Done (set_pc s (pc4 s)) | UB => Undef | Fail => Halt end.
Proof. intros H. unfold rv32im. cbv zeta. rewrite H. eqbs. reflexivity. Qed.
Lemma im_op e s : bits (r_inst s) 6 0 = 51 -> rv32im e s =
  match ref_op (r_inst s) (r_gpr s (bits (r_inst s) 19 15)) (r_gpr s (bits (r_inst s) 24 20)) with
  | Val v => Done (set_pc (wr s (bits (r_inst s) 11 7) v) (pc4 s)) | Stale => Done (set_pc s (pc4 s)) | UB => Undef | Fail => Halt end.
Proof. intros H. unfold rv32im. cbv zeta. rewrite H. eqbs. reflexivity. Qed.
Lemma im_lui e s : bits (r_inst s) 6 0 = 55 -> rv32im e s = Done (set_pc (wr s (bits (r_inst s) 11 7) (immU (r_inst s))) (pc4 s)).
Proof. intros H. unfold rv32im. cbv zeta. rewrite H. eqbs. reflexivity. Qed.
Lemma im_auipc e s : bits (r_inst s) 6 0 = 23 -> rv32im e s = Done (set_pc (wr s (bits (r_inst s) 11 7) (w32 (immU (r_inst s) + r_pc s))) (pc4 s)).
Proof. intros H. unfold rv32im. cbv zeta. rewrite H. eqbs. reflexivity. Qed.
Lemma im_jal e s : bits (r_inst s) 6 0 = 111 -> rv32im e s = Done (set_pc (wr s (bits (r_inst s) 11 7) (pc4 s)) (w32 (r_pc s + immJ (r_inst s)))).
Proof. intros H. unfold rv32im. cbv zeta. rewrite H. eqbs. reflexivity. Qed.
Lemma im_jalr e s : bits (r_inst s) 6 0 = 103 -> rv32im e s =
  Done (set_pc (wr s (bits (r_inst s) 11 7) (pc4 s)) (Z.land (w32 (r_gpr s (bits (r_inst s) 19 15) + immI (r_inst s))) 0xFFFFFFFE)).
Proof. intros H. unfold rv32im. cbv zeta. rewrite H. eqbs. reflexivity. Qed.
Lemma im_br e s : bits (r_inst s) 6 0 = 99 -> rv32im e s =
  Done (set_pc s (if ref_taken (bits (r_inst s) 14 12) (r_gpr s (bits (r_inst s) 19 15)) (r_gpr s (bits (r_inst s) 24 20))
                  then w32 (r_pc s + immB (r_inst s)) else pc4 s)).
Proof. intros H. unfold rv32im. cbv zeta. rewrite H. eqbs. reflexivity. Qed.

(** The result in terms of the core's. *)
Lemma by_core_op e s v : bits (r_inst s) 6 0 = 51 ->
  ref_op (r_inst s) (r_gpr s (bits (r_inst s) 19 15)) (r_gpr s (bits (r_inst s) 24 20)) <> Stale ->
  exec_result (r_inst s) (r_gpr s) (r_pc s) = Val v ->
  rv32im e s = Done (set_pc (wr s (bits (r_inst s) 11 7) v) (pc4 s)).
Proof.
  intros H N X. rewrite (im_op e s H). destruct (Z.eq_dec (bits (r_inst s) 31 25) 1) as [M|M].
  - rewrite (exec_md _ _ _ H M) in X. unfold ref_op. cbv zeta. rewrite M. eqbs. injection X as <-. reflexivity.
  - rewrite (exec_op _ _ _ H M) in X. rewrite (agree_op _ _ _ _ M eq_refl N) in X. rewrite X. reflexivity.
Qed.
Lemma by_core_opimm e s v : bits (r_inst s) 6 0 = 19 ->
  ref_opimm (r_inst s) (r_gpr s (bits (r_inst s) 19 15)) <> Stale ->
  exec_result (r_inst s) (r_gpr s) (r_pc s) = Val v ->
  rv32im e s = Done (set_pc (wr s (bits (r_inst s) 11 7) v) (pc4 s)).
Proof.
  intros H N X. rewrite (im_opimm e s H). rewrite (exec_opimm _ _ _ H) in X. rewrite (agree_opimm _ _ _ eq_refl N) in X. rewrite X. reflexivity.
Qed.

(** ** Branch micro-ops *)
Lemma core_br i rf pc pt npc : bits i 6 0 = 99 -> exec_branch i rf pc pt npc =
  Some (bru (mk_uop (decode i) IQ_BR U_BR) pc (rf (bits i 19 15)) (rf (bits i 24 20)) pt npc).
Proof. intros H. unfold exec_branch. rewrite (dec_br i H). reflexivity. Qed.
Lemma br_target i rf pc pt npc r : bits i 6 0 = 99 -> bits i 14 12 <> 2 -> bits i 14 12 <> 3 ->
  exec_branch i rf pc pt npc = Some r ->
  bo_target r = if ref_taken (bits i 14 12) (rf (bits i 19 15)) (rf (bits i 24 20)) then w32 (pc + immB i) else w32 (pc + 4).
Proof.
  intros H N2 N3 X. rewrite (core_br _ _ _ _ _ H) in X. injection X as <-. rewrite (dec_br i H). unfold dec, mk_uop, bru, ref_taken.
  cbn [m_op m_func3 m_imm d_func3 d_imm bo_target].
  pose proof (f3_range i) as R. set (f := bits i 14 12) in *. clearbody f.
  assert (C : f = 0 \/ f = 1 \/ f = 4 \/ f = 5 \/ f = 6 \/ f = 7) by lia.
  destruct C as [C|[C|[C|[C|[C|C]]]]]; subst f; reflexivity.
Qed.
Lemma jal_target i rf pc pt npc r : bits i 6 0 = 111 -> exec_branch i rf pc pt npc = Some r -> bo_target r = w32 (pc + immJ i).
Proof. intros H X. unfold exec_branch in X. rewrite (dec_jal i H) in X. injection X as <-. reflexivity. Qed.
Lemma jalr_target i rf pc pt npc r : bits i 6 0 = 103 -> exec_branch i rf pc pt npc = Some r ->
  bo_target r = Z.land (w32 (rf (bits i 19 15) + immI i)) 0xFFFFFFFE.
Proof. intros H X. unfold exec_branch in X. rewrite (dec_jalr i H) in X. injection X as <-. reflexivity. Qed.

(** ** Fields of the legal encodings *)
Lemma rf_fields : forall o, 0 <= fst (rop_f o) < 128 /\ 0 <= snd (rop_f o) < 8.
Proof. destruct o; cbn; lia. Qed.
Lemma rop_legal o rd rs1 rs2 a b : reg_ix rd -> reg_ix rs1 -> reg_ix rs2 -> ref_op (enc_rop o rd rs1 rs2) a b <> Stale.
Proof.
  intros D A B. assert (F : rfields (fst (rop_f o)) rs2 rs1 (snd (rop_f o)) rd 51).
  { unfold rfields, reg_ix in *. pose proof (rf_fields o). lia. }
  unfold enc_rop. fields F. unfold ref_op. cbv zeta. rewrite E2, E3.
  destruct o; cbn [rop_f fst snd]; eqbs; try discriminate; unfold rol_c, ror_c; destruct (Z.land b 31 =? 0); discriminate.
Qed.
Lemma mop_legal o rd rs1 rs2 a b : reg_ix rd -> reg_ix rs1 -> reg_ix rs2 -> ref_op (enc_mop o rd rs1 rs2) a b <> Stale.
Proof.
  intros D A B. assert (F : rfields 1 rs2 rs1 (mop_f o) rd 51) by (unfold rfields, reg_ix in *; destruct o; cbn [mop_f]; lia).
  unfold enc_mop. fields F. unfold ref_op. cbv zeta. rewrite E3. eqbs. discriminate.
Qed.
Lemma sh_fields : forall o, 0 <= fst (rop_f (shop_r o)) < 128 /\ 0 <= snd (rop_f (shop_r o)) < 8.
Proof. destruct o; cbn; lia. Qed.
Lemma iop_fields o rd rs1 imm : reg_ix rd -> reg_ix rs1 ->
  let w := enc_iop o rd rs1 imm in bits w 6 0 = 19 /\ bits w 14 12 = iop_f o /\ bits w 11 7 = rd /\ bits w 19 15 = rs1.
Proof.
  intros D A. cbv zeta. unfold enc_iop. rewrite enc_I_R. pose proof (fld_11_0 imm).
  assert (F : rfields (fld imm 11 0 / 32) (fld imm 11 0 mod 32) rs1 (iop_f o) rd 19) by (unfold rfields, reg_ix in *; destruct o; cbn [iop_f]; lia).
  fields F. tauto.
Qed.
Lemma iop_legal o rd rs1 imm a : reg_ix rd -> reg_ix rs1 -> ref_opimm (enc_iop o rd rs1 imm) a <> Stale.
Proof.
  intros D A. destruct (iop_fields o rd rs1 imm D A) as (_ & E & _). unfold ref_opimm. cbv zeta. rewrite E.
  destruct o; cbn [iop_f]; eqbs; discriminate.
Qed.
Lemma shop_legal o rd rs1 n a : reg_ix rd -> reg_ix rs1 -> 0 <= n < 32 -> ref_opimm (enc_shop o rd rs1 n) a <> Stale.
Proof.
  intros D A N. assert (F : rfields (fst (rop_f (shop_r o))) n rs1 (snd (rop_f (shop_r o))) rd 19).
  { unfold rfields, reg_ix in *. pose proof (sh_fields o). lia. }
  unfold enc_shop. fields F. unfold ref_opimm. cbv zeta. rewrite E2, E3.
  destruct o; cbn [shop_r rop_f fst snd]; eqbs; try discriminate. unfold ror_c. destruct (Z.land _ 31 =? 0); discriminate.
Qed.
Lemma uop1_legal o rd rs1 a b : reg_ix rd -> reg_ix rs1 ->
  (bits (enc_uop1 o rd rs1) 6 0 = 19 /\ ref_opimm (enc_uop1 o rd rs1) a <> Stale) \/
  (bits (enc_uop1 o rd rs1) 6 0 = 51 /\ ref_op (enc_uop1 o rd rs1) a b <> Stale).
Proof.
  intros D A. destruct o; cbn [enc_uop1];
  match goal with |- context [enc_R ?f7 ?r2 ?r1 ?f3 ?d ?op] =>
    assert (F : rfields f7 r2 r1 f3 d op) by (unfold rfields, reg_ix in *; lia); fields F;
    unfold ref_opimm, ref_op; cbv zeta; rewrite E1, E2, E3, E6; eqbs end; [left|left|left|left|left|left|left|right]; (split; [reflexivity|discriminate]).
Qed.
Lemma uop1_rd o rd rs1 : reg_ix rd -> reg_ix rs1 -> bits (enc_uop1 o rd rs1) 11 7 = rd.
Proof.
  intros D A. destruct o; cbn [enc_uop1];
  match goal with |- context [enc_R ?f7 ?r2 ?r1 ?f3 ?d ?op] =>
    assert (F : rfields f7 r2 r1 f3 d op) by (unfold rfields, reg_ix in *; lia); fields F; assumption end.
Qed.
Lemma u_fields i rd op : 0 <= i < 2 ^ 20 -> reg_ix rd -> 0 <= op < 128 -> bits (enc_U i rd op) 6 0 = op /\ bits (enc_U i rd op) 11 7 = rd.
Proof.
  intros I D O. unfold enc_U, reg_ix in *. rewrite !bits_div by lia. change (2 ^ 20) with 1048576 in *. change (2 ^ 12) with 4096. change (2 ^ 7) with 128.
  change (2 ^ 0) with 1. change (2 ^ (6 - 0 + 1)) with 128. change (2 ^ (11 - 7 + 1)) with 32. lia.
Qed.
Lemma j_fields off rd op : reg_ix rd -> 0 <= op < 128 -> bits (enc_J off rd op) 6 0 = op /\ bits (enc_J off rd op) 11 7 = rd.
Proof.
  intros D O. unfold enc_J, reg_ix in *. rewrite !bits_div by lia.
  set (a := fld off 20 20). set (b := fld off 10 1). set (c := fld off 11 11). set (d := fld off 19 12). clearbody a b c d.
  change (2 ^ 31) with 2147483648. change (2 ^ 21) with 2097152. change (2 ^ 20) with 1048576. change (2 ^ 12) with 4096. change (2 ^ 7) with 128.
  change (2 ^ 0) with 1. change (2 ^ (6 - 0 + 1)) with 128. change (2 ^ (11 - 7 + 1)) with 32. lia.
Qed.
