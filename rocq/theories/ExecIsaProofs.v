(** Whole-instruction results: decode, decompose and execute. *)
From Verif Require Import Base BaseLemmas ExecModel IsaSpec ExecProofs AluProofs.
Ltac Zify.zify_post_hook ::= Z.div_mod_to_equations.

Definition wf_rf (rf : Z -> Z) : Prop := (forall r, is_w 32 (rf r)) /\ rf 0 = 0.

Lemma rop_f_range o : 0 <= fst (rop_f o) < 128 /\ 0 <= snd (rop_f o) < 8 /\ fst (rop_f o) <> 1.
Proof. destruct o; cbn; lia. Qed.

Lemma exec_R f7 rs2 rs1 f3 rd rf pc :
  rfields f7 rs2 rs1 f3 rd 51 -> f7 <> 1 ->
  exec_result (enc_R f7 rs2 rs1 f3 rd 51) rf pc =
  alu_add_case (rmuop f7 f3 (negb (rd =? 0))) (rf rs1) (rf rs2).
Proof.
  intros H Hn. unfold exec_result. rewrite decode_R by auto.
  destruct (Z.eqb_spec f7 1); [lia|]. reflexivity.
Qed.

Lemma rop_exec o rd rs1 rs2 rf pc :
  reg_ix rd -> reg_ix rs1 -> reg_ix rs2 -> (forall r, is_w 32 (rf r)) ->
  rot_zero o (rf rs2) = false ->
  exec_result (enc_rop o rd rs1 rs2) rf pc = Val (sem_rop o (rf rs1) (rf rs2)) /\
  d_dest_areg (decode (enc_rop o rd rs1 rs2)) = rd /\
  d_dest_en (decode (enc_rop o rd rs1 rs2)) = negb (rd =? 0).
Proof.
  intros Hd H1 H2 Hrf Hrot. pose proof (rop_f_range o) as (Hf7 & Hf3 & Hne).
  assert (HF : rfields (fst (rop_f o)) rs2 rs1 (snd (rop_f o)) rd 51) by rf_ok.
  unfold enc_rop. rewrite decode_R by auto. rewrite exec_R by auto.
  rewrite alu_rop by auto. repeat split.
Qed.

Lemma rot_zero_exec o rd rs1 rs2 rf pc :
  reg_ix rd -> reg_ix rs1 -> reg_ix rs2 ->
  rot_zero o (rf rs2) = true ->
  exec_result (enc_rop o rd rs1 rs2) rf pc = UB.
Proof.
  intros Hd H1 H2 Hrot. pose proof (rop_f_range o) as (Hf7 & Hf3 & Hne).
  assert (HF : rfields (fst (rop_f o)) rs2 rs1 (snd (rop_f o)) rd 51) by rf_ok.
  unfold enc_rop. rewrite exec_R by auto.
  destruct o; cbn [rot_zero] in Hrot; try discriminate;
    unfold alu_add_case, rmuop; cbn -[Z.land rol_c ror_c]; rewrite land31;
    unfold rol_c, ror_c; now rewrite Hrot.
Qed.

Lemma decode_I f7 rs2 rs1 f3 rd :
  rfields f7 rs2 rs1 f3 rd 19 ->
  decode (enc_R f7 rs2 rs1 f3 rd 19) =
  mk_duop rd rs1 rs2 (negb (rd =? 0)) true false false true f3 f7
    (immI (enc_R f7 rs2 rs1 f3 rd 19)) (f7 * 32 + rs2) T_ADD false false.
Proof.
  intros H. fields H. unfold decode, decode_case. cbv zeta.
  rewrite E1, E2, E3, E4, E5, E6, E7. cbn [Z.eqb Pos.eqb].
    cbn [d_type d_func7 it_eqb andb d_dest_areg d_src1_areg d_src2_areg d_dest_en
         d_src1_en d_src2_en d_src1_is_pc d_src2_is_imm d_func3 d_imm d_csr_idx
         d_is_atomic d_illegal]; destruct (rd =? 0); reflexivity.
Qed.

Lemma exec_I f7 rs2 rs1 f3 rd rf pc :
  rfields f7 rs2 rs1 f3 rd 19 ->
  let i := immI (enc_R f7 rs2 rs1 f3 rd 19) in
  exec_result (enc_R f7 rs2 rs1 f3 rd 19) rf pc =
  alu_add_case (imuop f7 f3 i (negb (rd =? 0))) (rf rs1) i.
Proof. intros H i. unfold exec_result. rewrite decode_I by auto. reflexivity. Qed.

Lemma immI_R f7 rs2 rs1 f3 rd op :
  rfields f7 rs2 rs1 f3 rd op ->
  immI (enc_R f7 rs2 rs1 f3 rd op) = w32 (sext (f7 * 32 + rs2) 12).
Proof.
  intros H. unfold immI. do 2 f_equal. unfold rfields in H. rewrite bits_div by lia.
  unfold enc_R. change (2 ^ (31 - 20 + 1)) with 4096. lia.
Qed.

Lemma shop_exec o rd rs1 shamt rf pc :
  reg_ix rd -> reg_ix rs1 -> 0 <= shamt < 32 -> (forall r, is_w 32 (rf r)) ->
  shrot_zero o shamt = false ->
  exec_result (enc_shop o rd rs1 shamt) rf pc = Val (sem_shop o (rf rs1) shamt) /\
  d_dest_areg (decode (enc_shop o rd rs1 shamt)) = rd /\
  d_dest_en (decode (enc_shop o rd rs1 shamt)) = negb (rd =? 0).
Proof.
  intros Hd H1 H2 Hrf Hrot. pose proof (rop_f_range (shop_r o)) as (Hf7 & Hf3 & Hne).
  assert (HF : rfields (fst (rop_f (shop_r o))) shamt rs1 (snd (rop_f (shop_r o))) rd 19) by rf_ok.
  unfold enc_shop. rewrite decode_I by auto. rewrite exec_I by auto.
  rewrite immI_R by auto.
  rewrite (alu_shop o (rf rs1) shamt); auto using land31_imm.
Qed.

Lemma rori_zero_exec rd rs1 rf pc :
  reg_ix rd -> reg_ix rs1 -> exec_result (enc_shop RORI rd rs1 0) rf pc = UB.
Proof.
  intros Hd H1. assert (HF : rfields 48 0 rs1 5 rd 19) by rf_ok.
  unfold enc_shop; cbn [shop_r rop_f fst snd]. rewrite exec_I by auto. rewrite immI_R by auto.
  reflexivity.
Qed.

Lemma iop_f_range o : 0 <= iop_f o < 8.
Proof. destruct o; cbn; lia. Qed.

Lemma iop_exec o rd rs1 imm rf pc :
  reg_ix rd -> reg_ix rs1 -> -2048 <= imm < 2048 -> (forall r, is_w 32 (rf r)) ->
  exec_result (enc_iop o rd rs1 imm) rf pc = Val (sem_iop o (rf rs1) imm) /\
  d_dest_areg (decode (enc_iop o rd rs1 imm)) = rd /\
  d_dest_en (decode (enc_iop o rd rs1 imm)) = negb (rd =? 0).
Proof.
  intros Hd H1 Hi Hrf. pose proof (iop_f_range o). pose proof (fld_11_0 imm).
  unfold enc_iop. pose proof (immI_enc imm rs1 (iop_f o) rd 19 Hi H1 ltac:(lia) Hd ltac:(lia)) as Him.
  rewrite enc_I_R in *.
  assert (HF : rfields (fld imm 11 0 / 32) (fld imm 11 0 mod 32) rs1 (iop_f o) rd 19) by rf_ok.
  rewrite decode_I by auto. rewrite exec_I by auto. rewrite Him. rewrite alu_iop by auto.
  repeat split.
Qed.

Lemma uop1_exec o rd rs1 rf pc :
  reg_ix rd -> reg_ix rs1 -> wf_rf rf ->
  exec_result (enc_uop1 o rd rs1) rf pc = Val (sem_uop1 o (rf rs1)) /\
  d_dest_areg (decode (enc_uop1 o rd rs1)) = rd /\
  d_dest_en (decode (enc_uop1 o rd rs1)) = negb (rd =? 0).
Proof.
  intros Hd H1 [Hrf H0].
  destruct o; cbn [enc_uop1];
  try (match goal with |- exec_result (enc_R ?f7 ?f2 _ ?f3 _ 19) _ _ = Val (sem_uop1 ?o _) /\ _ =>
    assert (HF : rfields f7 f2 rs1 f3 rd 19) by rf_ok;
    rewrite decode_I by auto; rewrite exec_I by auto; rewrite immI_R by auto;
    split; [|split; reflexivity]
  end).
  1-7: match goal with |- alu_add_case (imuop _ _ ?i ?de) _ ?i = Val (sem_uop1 ?o _) =>
     exact (alu_uop1 o (rf rs1) de (Hrf _) ltac:(discriminate) i eq_refl) end.
  - pose proof (rop_exec PACK rd rs1 0 rf pc Hd H1 ltac:(unfold reg_ix; lia) Hrf eq_refl) as H.
    unfold enc_rop in H; cbn [rop_f fst snd] in H. destruct H as (-> & ? & ?). split; auto.
    cbn [sem_rop sem_uop1]. rewrite H0. f_equal. lia.
Qed.

(** LUI / AUIPC *)
Lemma bits_op_U imm20 rd op :
  0 <= imm20 < 2 ^ 20 -> reg_ix rd -> 0 <= op < 128 ->
  exists f7 rs2 rs1 f3, rfields f7 rs2 rs1 f3 rd op /\ enc_U imm20 rd op = enc_R f7 rs2 rs1 f3 rd op.
Proof.
  unfold reg_ix; intros.
  exists (imm20 / 2 ^ 13), ((imm20 / 2 ^ 8) mod 32), ((imm20 / 2 ^ 3) mod 32), (imm20 mod 8).
  unfold rfields, enc_U, enc_R. split; [repeat split|]; lia.
Qed.

Lemma decode_lui_word f7 rs2 rs1 f3 rd :
  rfields f7 rs2 rs1 f3 rd 55 ->
  let w := enc_R f7 rs2 rs1 f3 rd 55 in
  decode w = mk_duop rd 0 rs2 (negb (rd =? 0)) true false false true 0 f7
               (immU w) (f7 * 32 + rs2) T_ADD false false.
Proof.
  intros H w. subst w. fields H. unfold decode, decode_case. cbv zeta.
  rewrite E1, E2, E3, E4, E5, E6, E7. cbn [Z.eqb Pos.eqb].
    cbn [d_type d_func7 it_eqb andb d_dest_areg d_src1_areg d_src2_areg d_dest_en
         d_src1_en d_src2_en d_src1_is_pc d_src2_is_imm d_func3 d_imm d_csr_idx
         d_is_atomic d_illegal]; destruct (rd =? 0); reflexivity.
Qed.
Lemma decode_auipc_word f7 rs2 rs1 f3 rd :
  rfields f7 rs2 rs1 f3 rd 23 ->
  let w := enc_R f7 rs2 rs1 f3 rd 23 in
  decode w = mk_duop rd rs1 rs2 (negb (rd =? 0)) false false true true 0 f7
               (immU w) (f7 * 32 + rs2) T_ADD false false.
Proof.
  intros H w. subst w. fields H. unfold decode, decode_case. cbv zeta.
  rewrite E1, E2, E3, E4, E5, E6, E7. cbn [Z.eqb Pos.eqb].
    cbn [d_type d_func7 it_eqb andb d_dest_areg d_src1_areg d_src2_areg d_dest_en
         d_src1_en d_src2_en d_src1_is_pc d_src2_is_imm d_func3 d_imm d_csr_idx
         d_is_atomic d_illegal]; destruct (rd =? 0); reflexivity.
Qed.

Lemma lui_exec rd imm20 rf pc :
  reg_ix rd -> 0 <= imm20 < 2 ^ 20 -> wf_rf rf ->
  exec_result (enc_lui rd imm20) rf pc = Val (imm20 * 2 ^ 12) /\
  d_dest_areg (decode (enc_lui rd imm20)) = rd /\
  d_dest_en (decode (enc_lui rd imm20)) = negb (rd =? 0).
Proof.
  intros Hd Hi [Hrf H0]. unfold enc_lui.
  pose proof (immU_enc imm20 rd 55 Hi Hd ltac:(lia)) as Him.
  destruct (bits_op_U imm20 rd 55 Hi Hd ltac:(lia)) as (f7 & rs2 & rs1 & f3 & HF & Heq).
  rewrite Heq in *. unfold exec_result. rewrite decode_lui_word by auto. rewrite Him.
  split; [|split; reflexivity].
  cbn -[Z.mul Z.pow w32 Z.testbit]. rewrite H0.
  unfold alu, alu_add_case. cbn -[Z.mul Z.pow w32 Z.testbit].
  rewrite andb_false_r. f_equal. apply w32_id. unfold is_w; lia.
Qed.
Lemma auipc_exec rd imm20 rf pc :
  reg_ix rd -> 0 <= imm20 < 2 ^ 20 ->
  exec_result (enc_auipc rd imm20) rf pc = Val ((pc + imm20 * 2 ^ 12) mod 2 ^ 32) /\
  d_dest_areg (decode (enc_auipc rd imm20)) = rd /\
  d_dest_en (decode (enc_auipc rd imm20)) = negb (rd =? 0).
Proof.
  intros Hd Hi. unfold enc_auipc.
  pose proof (immU_enc imm20 rd 23 Hi Hd ltac:(lia)) as Him.
  destruct (bits_op_U imm20 rd 23 Hi Hd ltac:(lia)) as (f7 & rs2 & rs1 & f3 & HF & Heq).
  rewrite Heq in *. unfold exec_result. rewrite decode_auipc_word by auto. rewrite Him.
  split; [|split; reflexivity].
  cbn -[Z.mul Z.pow w32 Z.testbit Z.add Z.modulo].
  unfold alu, alu_add_case. cbn -[Z.mul Z.pow w32 Z.testbit Z.add Z.modulo].
  rewrite andb_false_r. reflexivity.
Qed.

(** MUL / DIV *)
Lemma mop_f_range o : 0 <= mop_f o < 8.
Proof. destruct o; cbn; lia. Qed.

Lemma mul_range_u a b : is_w 32 a -> is_w 32 b -> is_w 64 (a * b).
Proof. unfold is_w; intros. nia. Qed.

Lemma mop_exec o rd rs1 rs2 rf pc :
  reg_ix rd -> reg_ix rs1 -> reg_ix rs2 -> (forall r, is_w 32 (rf r)) ->
  exec_result (enc_mop o rd rs1 rs2) rf pc = Val (sem_mop o (rf rs1) (rf rs2)) /\
  d_dest_areg (decode (enc_mop o rd rs1 rs2)) = rd /\
  d_dest_en (decode (enc_mop o rd rs1 rs2)) = negb (rd =? 0).
Proof.
  intros Hd H1 H2 Hrf. pose proof (mop_f_range o).
  assert (HF : rfields 1 rs2 rs1 (mop_f o) rd 51) by rf_ok.
  unfold enc_mop, exec_result. rewrite decode_R by auto.
  pose proof (Hrf rs1) as Ha. pose proof (Hrf rs2) as Hb.
  assert (Hab : forall a b, is_w 32 a -> is_w 32 b -> wrap 64 (a * b) = a * b)
    by (intros; apply wrap_id; now apply mul_range_u).
  set (a := rf rs1) in *. set (b := rf rs2) in *.
  split; [|destruct o; split; reflexivity].
  assert (Hs0 : (s32 b =? 0) = (b =? 0)).
  { unfold s32, is_w in *. destruct (Z.ltb_spec b (2 ^ 31)); [reflexivity|].
    destruct (Z.eqb_spec b 0), (Z.eqb_spec (b - 2 ^ 32) 0); lia. }
  destruct o; cbn [mop_f] in *.
  - unfold exec_uop. cbn -[Z.mul Z.pow w32 wrap sem_mop mul_unit]. unfold mul_unit.
    cbn -[Z.mul Z.pow w32 wrap]. fold a b. rewrite Hab by auto. reflexivity.
  - unfold exec_uop. cbn -[Z.mul Z.pow w32 wrap sem_mop mul_unit]. unfold mul_unit.
    cbn -[Z.mul Z.pow w32 wrap Z.shiftr s32 sgn M32 Z.modulo Z.div]. fold a b.
    rewrite Z.shiftr_div_pow2 by lia. reflexivity.
  - unfold exec_uop. cbn -[Z.mul Z.pow w32 wrap sem_mop mul_unit]. unfold mul_unit.
    cbn -[Z.mul Z.pow w32 wrap Z.shiftr s32 sgn M32 Z.modulo Z.div]. fold a b.
    rewrite Z.shiftr_div_pow2 by lia. reflexivity.
  - unfold exec_uop. cbn -[Z.mul Z.pow w32 wrap sem_mop mul_unit]. unfold mul_unit.
    cbn -[Z.mul Z.pow w32 wrap Z.shiftr s32 sgn M32 Z.modulo Z.div]. fold a b.
    rewrite Hab by auto. rewrite Z.shiftr_div_pow2 by lia. f_equal. apply w32_id.
    pose proof (mul_range_u a b Ha Hb). unfold is_w, M32 in *.
    split; [apply Z.div_pos; lia | apply Z.div_lt_upper_bound; lia].
  - unfold exec_uop. cbn -[Z.mul Z.pow w32 wrap sem_mop div_unit]. unfold div_unit.
    cbn -[Z.mul Z.pow w32 wrap s32 sgn M32 Z.modulo Z.quot Z.eqb Z.opp Z.sub]. fold a b.
    change (4 =? 4) with true. cbv iota. rewrite Hs0. f_equal.
    destruct (Z.eqb_spec b 0); [reflexivity|].
    destruct ((s32 a =? - 2 ^ 31) && (s32 b =? -1)) eqn:E; [|reflexivity].
    apply andb_true_iff in E. destruct E as [Ea Eb].
    apply Z.eqb_eq in Ea. apply Z.eqb_eq in Eb.
    change sgn with s32. rewrite Ea, Eb. reflexivity.
  - unfold exec_uop. cbn -[Z.mul Z.pow w32 wrap sem_mop div_unit]. unfold div_unit.
    cbn -[Z.mul Z.pow w32 wrap s32 sgn M32 Z.modulo Z.quot Z.eqb Z.opp Z.sub Z.div]. fold a b.
    reflexivity.
  - unfold exec_uop. cbn -[Z.mul Z.pow w32 wrap sem_mop div_unit]. unfold div_unit.
    cbn -[Z.mul Z.pow w32 wrap s32 sgn M32 Z.modulo Z.quot Z.rem Z.eqb Z.opp Z.sub]. fold a b.
    change (6 =? 4) with false; change (6 =? 5) with false; change (6 =? 6) with true.
    cbv iota. rewrite Hs0. f_equal.
    destruct (Z.eqb_spec b 0); [now apply s32_mod|].
    destruct ((s32 a =? - 2 ^ 31) && (s32 b =? -1)) eqn:E; [|reflexivity].
    apply andb_true_iff in E. destruct E as [Ea Eb].
    apply Z.eqb_eq in Ea. apply Z.eqb_eq in Eb.
    change sgn with s32. rewrite Ea, Eb. reflexivity.
  - unfold exec_uop. cbn -[Z.mul Z.pow w32 wrap sem_mop div_unit]. unfold div_unit.
    cbn -[Z.mul Z.pow w32 wrap s32 sgn M32 Z.modulo Z.quot Z.eqb Z.opp Z.sub Z.div]. fold a b.
    reflexivity.
Qed.

(** Branches and jumps *)
Ltac dec H :=
  let E := fresh in pose proof (enc_R_fields _ _ _ _ _ _ H) as E; cbv zeta in E;
  let e1 := fresh in let e2 := fresh in let e3 := fresh in let e4 := fresh in
  let e5 := fresh in let e6 := fresh in let e7 := fresh in
  destruct E as (e1 & e2 & e3 & e4 & e5 & e6 & e7);
  unfold decode, decode_case; cbv zeta;
  rewrite e1, e2, e3, e4, e5, e6, e7; cbn [Z.eqb Pos.eqb];
  cbn [d_type d_func7 it_eqb andb d_dest_areg d_src1_areg d_src2_areg d_dest_en
         d_src1_en d_src2_en d_src1_is_pc d_src2_is_imm d_func3 d_imm d_csr_idx
         d_is_atomic d_illegal].

Lemma decode_br f7 rs2 rs1 f3 rd :
  rfields f7 rs2 rs1 f3 rd 99 ->
  let w := enc_R f7 rs2 rs1 f3 rd 99 in
  decode w = mk_duop rd rs1 rs2 false true true false true f3 f7
               (immB w) (f7 * 32 + rs2) T_BR false false.
Proof. intros H w. subst w. dec H. destruct (rd =? 0); reflexivity. Qed.
Lemma decode_jal f7 rs2 rs1 f3 rd :
  rfields f7 rs2 rs1 f3 rd 111 ->
  let w := enc_R f7 rs2 rs1 f3 rd 111 in
  decode w = mk_duop rd rs1 rs2 (negb (rd =? 0)) false false true true 0 f7
               (immJ w) (f7 * 32 + rs2) T_JAL false false.
Proof. intros H w. subst w. dec H. destruct (rd =? 0); reflexivity. Qed.
Lemma decode_jalr f7 rs2 rs1 f3 rd :
  rfields f7 rs2 rs1 f3 rd 103 ->
  let w := enc_R f7 rs2 rs1 f3 rd 103 in
  decode w = mk_duop rd rs1 rs2 (negb (rd =? 0)) true false true true 0 f7
               (immI w) (f7 * 32 + rs2) T_JALR false false.
Proof. intros H w. subst w. dec H. destruct (rd =? 0); reflexivity. Qed.

(** What a correct branch outcome is: [target] the ISA next PC, [pn] the address
    the front end continued at. *)
Definition bru_correct (r : bru_out) (taken : bool) (target pn : Z) (pt : bool) : Prop :=
  bo_taken r = taken /\ bo_target r = target /\
  (pn <> target -> bo_mispred r = true) /\
  (pt = taken -> pn = target -> bo_mispred r = false).

Definition pred_next (pt : bool) (npc pc : Z) : Z := if pt then npc else (pc + 4) mod 2 ^ 32.

Lemma bru_generic m pc v1 v2 pt npc taken pc_br :
  bo_taken (bru m pc v1 v2 pt npc) = taken ->
  (bo_taken (bru m pc v1 v2 pt npc) = true -> bo_target (bru m pc v1 v2 pt npc) = pc_br) ->
  bru_correct (bru m pc v1 v2 pt npc) taken (if taken then pc_br else (pc + 4) mod 2 ^ 32)
    (pred_next pt npc pc) pt.
Proof.
  unfold bru_correct, pred_next, bru. cbn [bo_taken bo_target bo_mispred].
  set (t := match m_op m with U_BR => _ | U_JUMP => _ | _ => _ end).
  set (pb := match m_op m with U_JUMP => _ | _ => _ end).
  intros -> Hb. destruct taken.
  - specialize (Hb eq_refl). subst pc_br. destruct pt; cbn [andb orb negb].
    + repeat split; auto; intros; destruct (Z.eqb_spec npc pb); cbn; congruence.
    + repeat split; auto; try discriminate.
  - destruct pt; cbn [andb orb negb]; repeat split; auto; try discriminate;
      try (intros H; elim H; reflexivity).
Qed.

Lemma enc_B_fields off rs2 rs1 f3 op :
  reg_ix rs1 -> reg_ix rs2 -> 0 <= f3 < 8 -> 0 <= op < 128 ->
  rfields (fld off 12 12 * 2 ^ 6 + fld off 10 5) rs2 rs1 f3 (fld off 4 1 * 2 + fld off 11 11) op.
Proof.
  intros. pose proof (fld_range off 12 12 ltac:(lia)). pose proof (fld_range off 10 5 ltac:(lia)).
  pose proof (fld_range off 4 1 ltac:(lia)). pose proof (fld_range off 11 11 ltac:(lia)).
  unfold is_w in *.
  cbn [Z.sub Z.add Z.opp Z.pos_sub Pos.pred_double Pos.sub Pos.add Pos.succ] in *. rf_ok.
Qed.

Lemma bop_exec o rs1 rs2 off rf pc pt npc :
  reg_ix rs1 -> reg_ix rs2 -> -4096 <= off < 4096 -> off mod 2 = 0 ->
  (forall r, is_w 32 (rf r)) ->
  exists r, exec_branch (enc_bop o rs1 rs2 off) rf pc pt npc = Some r /\
    bru_correct r (bcond o (rf rs1) (rf rs2)) (next_bop o pc (rf rs1) (rf rs2) off)
      (pred_next pt npc pc) pt /\
    d_dest_en (decode (enc_bop o rs1 rs2 off)) = false.
Proof.
  intros H1 H2 Ho He Hrf. unfold enc_bop.
  assert (Hf3 : 0 <= bop_f o < 8) by (destruct o; cbn; lia).
  pose proof (immB_enc off rs2 rs1 (bop_f o) 99 Ho He H1 H2 Hf3 ltac:(lia)) as Him.
  pose proof (enc_B_fields off rs2 rs1 (bop_f o) 99 H1 H2 Hf3 ltac:(lia)) as HF.
  unfold enc_B in *. unfold exec_branch. rewrite decode_br by auto. rewrite Him.
  cbn [decompose d_type filter mk_uop m_iq]. eexists; split; [reflexivity|].
  split; [|reflexivity].
  unfold next_bop. apply bru_generic.
  - destruct o; cbn [bcond bop_f bru bo_taken m_op m_func3 d_func3 mk_uop operand m_src1_en m_src2_en
      d_src1_en d_src2_en d_src1_areg d_src2_areg]; ceqb; cbv iota; try reflexivity;
      change sgn with s32.
    + destruct (Z.leb_spec (s32 (rf rs2)) (s32 (rf rs1))), (Z.ltb_spec (s32 (rf rs1)) (s32 (rf rs2))); try lia; reflexivity.
    + destruct (Z.leb_spec (rf rs2) (rf rs1)), (Z.ltb_spec (rf rs1) (rf rs2)); try lia; reflexivity.
  - unfold bru. cbn [bo_taken bo_target m_op mk_uop m_imm d_imm]. intros ->.
    unfold w32, M32. now rewrite Zplus_mod_idemp_r.
Qed.

Lemma enc_J_R off rd op :
  reg_ix rd -> 0 <= op < 128 ->
  exists f7 rs2 rs1 f3, rfields f7 rs2 rs1 f3 rd op /\ enc_J off rd op = enc_R f7 rs2 rs1 f3 rd op.
Proof.
  intros Hd Ho. unfold reg_ix in Hd.
  pose proof (fld_range off 20 20 ltac:(lia)). pose proof (fld_range off 10 1 ltac:(lia)).
  pose proof (fld_range off 11 11 ltac:(lia)). pose proof (fld_range off 19 12 ltac:(lia)).
  unfold is_w in *.
  cbn [Z.sub Z.add Z.opp Z.pos_sub Pos.pred_double Pos.sub Pos.add Pos.succ] in *.
  change (2 ^ 1) with 2 in *. change (2 ^ 10) with 1024 in *. change (2 ^ 8) with 256 in *.
  set (hi := fld off 20 20 * 2048 + fld off 10 1 * 2 + fld off 11 11).
  exists (hi / 32), (hi mod 32), (fld off 19 12 / 8), (fld off 19 12 mod 8).
  unfold rfields, enc_J, enc_R. split; [repeat split|]; subst hi; lia.
Qed.

Lemma jal_exec rd off rf pc pt npc :
  reg_ix rd -> - 2 ^ 20 <= off < 2 ^ 20 -> off mod 2 = 0 ->
  (exists r, exec_branch (enc_jal rd off) rf pc pt npc = Some r /\
     bru_correct r true (next_jal pc off) (pred_next pt npc pc) pt) /\
  exec_result (enc_jal rd off) rf pc = Val ((pc + 4) mod 2 ^ 32) /\
  d_dest_areg (decode (enc_jal rd off)) = rd /\
  d_dest_en (decode (enc_jal rd off)) = negb (rd =? 0).
Proof.
  intros Hd Ho He. unfold enc_jal.
  pose proof (immJ_enc off rd 111 Ho He Hd ltac:(lia)) as Him.
  destruct (enc_J_R off rd 111 Hd ltac:(lia)) as (f7 & rs2 & rs1 & f3 & HF & Heq).
  rewrite Heq in *. unfold exec_branch, exec_result. rewrite decode_jal by auto. rewrite Him.
  split; [|split; [|split; reflexivity]].
  - cbn [decompose d_type filter mk_uop m_iq set_en set_imm]. eexists; split; [reflexivity|].
    apply (bru_generic _ _ _ _ _ _ true).
    + reflexivity.
    + unfold bru. cbn [bo_taken bo_target m_op mk_uop m_imm d_imm m_src1_en d_src1_en set_en set_imm]. intros _.
      unfold w32, next_jal, M32. now rewrite Zplus_mod_idemp_r.
  - cbn [decompose d_type]. unfold exec_uop, alu, alu_add_case. 
    cbn [mk_uop set_en set_imm m_op m_src1_is_pc d_src1_is_pc m_src2_is_imm d_src2_is_imm m_imm
         m_func3 d_func3 m_func7 d_func7]. ceqb. cbn [negb]. rewrite andb_false_r. reflexivity.
Qed.

Lemma land_even x : is_w 32 x -> Z.land x (2 ^ 32 - 2) = 2 * (x / 2).
Proof.
  intros Hx. apply Z.bits_inj'; intros i Hi. rewrite Z.land_spec.
  replace (2 ^ 32 - 2) with (2 * (2 ^ 31 - 1)) by lia.
  destruct (Z.eq_dec i 0) as [->|].
  - now rewrite !Z.testbit_even_0, andb_false_r.
  - replace i with (Z.succ (i - 1)) by lia. rewrite !Z.testbit_even_succ by lia.
    rewrite testbit_ones_pred by lia. rewrite <- Z.div2_div, Z.div2_spec, Z.shiftr_spec by lia.
    replace (i - 1 + 1) with (Z.succ (i - 1)) by lia.
    destruct (Z.ltb_spec (i - 1) 31); [now rewrite andb_true_r|].
    rewrite (hi_false x) by (auto; lia). reflexivity.
Qed.

Lemma jalr_exec rd rs1 imm rf pc pt npc :
  reg_ix rd -> reg_ix rs1 -> -2048 <= imm < 2048 ->
  (exists r, exec_branch (enc_jalr rd rs1 imm) rf pc pt npc = Some r /\
     bru_correct r true (next_jalr (rf rs1) imm) (pred_next pt npc pc) pt) /\
  exec_result (enc_jalr rd rs1 imm) rf pc = Val ((pc + 4) mod 2 ^ 32) /\
  d_dest_areg (decode (enc_jalr rd rs1 imm)) = rd /\
  d_dest_en (decode (enc_jalr rd rs1 imm)) = negb (rd =? 0).
Proof.
  intros Hd H1 Hi. unfold enc_jalr. pose proof (fld_11_0 imm).
  pose proof (immI_enc imm rs1 0 rd 103 Hi H1 ltac:(lia) Hd ltac:(lia)) as Him.
  rewrite enc_I_R in *.
  assert (HF : rfields (fld imm 11 0 / 32) (fld imm 11 0 mod 32) rs1 0 rd 103) by rf_ok.
  unfold exec_branch, exec_result. rewrite decode_jalr by auto. rewrite Him.
  split; [|split; [|split; reflexivity]].
  - cbn [decompose d_type filter mk_uop m_iq set_en set_imm]. eexists; split; [reflexivity|].
    apply (bru_generic _ _ _ _ _ _ true).
    + reflexivity.
    + unfold bru. cbn [bo_taken bo_target m_op mk_uop m_imm d_imm m_src1_en d_src1_en set_en set_imm operand d_src1_areg]. intros _.
      rewrite land_even by apply w32_range. unfold w32, next_jalr, M32. now rewrite Zplus_mod_idemp_r.
  - cbn [decompose d_type]. unfold exec_uop, alu, alu_add_case. 
    cbn [mk_uop set_en set_imm m_op m_src1_is_pc d_src1_is_pc m_src2_is_imm d_src2_is_imm m_imm
         m_func3 d_func3 m_func7 d_func7]. ceqb. cbn [negb]. rewrite andb_false_r. reflexivity.
Qed.

(** Memory instructions *)
Lemma decode_load f7 rs2 rs1 f3 rd :
  rfields f7 rs2 rs1 f3 rd 3 ->
  let w := enc_R f7 rs2 rs1 f3 rd 3 in
  decode w = mk_duop rd rs1 rs2 (negb (rd =? 0)) true false false true f3 f7
               (immI w) (f7 * 32 + rs2) T_LOAD false false.
Proof. intros H w. subst w. dec H. destruct (rd =? 0); reflexivity. Qed.
Lemma decode_store f7 rs2 rs1 f3 rd :
  rfields f7 rs2 rs1 f3 rd 35 ->
  let w := enc_R f7 rs2 rs1 f3 rd 35 in
  decode w = mk_duop rd rs1 rs2 false true true false true f3 f7
               (immS w) (f7 * 32 + rs2) T_STORE false false.
Proof. intros H w. subst w. dec H. destruct (rd =? 0); reflexivity. Qed.

Lemma load_exec f3 rd rs1 imm rf :
  0 <= f3 < 8 -> reg_ix rd -> reg_ix rs1 -> -2048 <= imm < 2048 ->
  exec_addr (enc_load f3 rd rs1 imm) rf = Some ((rf rs1 + imm) mod 2 ^ 32) /\
  d_func3 (decode (enc_load f3 rd rs1 imm)) = f3 /\
  d_dest_areg (decode (enc_load f3 rd rs1 imm)) = rd /\
  d_dest_en (decode (enc_load f3 rd rs1 imm)) = negb (rd =? 0).
Proof.
  intros H3 Hd H1 Hi. unfold enc_load. pose proof (fld_11_0 imm).
  pose proof (immI_enc imm rs1 f3 rd 3 Hi H1 ltac:(lia) Hd ltac:(lia)) as Him.
  rewrite enc_I_R in *.
  assert (HF : rfields (fld imm 11 0 / 32) (fld imm 11 0 mod 32) rs1 f3 rd 3) by rf_ok.
  unfold exec_addr. rewrite decode_load by auto. rewrite Him.
  split; [|repeat split].
  cbn [decompose d_type filter mk_uop m_iq]. unfold agu, operand.
  cbn [mk_uop m_imm d_imm m_src1_en d_src1_en d_src1_areg]. unfold w32. now rewrite Zplus_mod_idemp_r.
Qed.

Lemma store_exec f3 rs1 rs2 imm rf old :
  0 <= f3 < 8 -> reg_ix rs1 -> reg_ix rs2 -> -2048 <= imm < 2048 ->
  exec_addr (enc_store f3 rs1 rs2 imm) rf = Some ((rf rs1 + imm) mod 2 ^ 32) /\
  exec_store_data (enc_store f3 rs1 rs2 imm) rf old = Some (rf rs2) /\
  d_func3 (decode (enc_store f3 rs1 rs2 imm)) = f3 /\
  d_dest_en (decode (enc_store f3 rs1 rs2 imm)) = false.
Proof.
  intros H3 H1 H2 Hi. unfold enc_store.
  pose proof (immS_enc imm rs2 rs1 f3 35 Hi H1 H2 ltac:(lia) ltac:(lia)) as Him.
  unfold enc_S in *. pose proof (fld_range imm 11 5 ltac:(lia)).
  pose proof (fld_range imm 4 0 ltac:(lia)). unfold is_w in *.
  cbn [Z.sub Z.add Z.opp Z.pos_sub Pos.pred_double Pos.sub Pos.add Pos.succ] in *.
  assert (HF : rfields (fld imm 11 5) rs2 rs1 f3 (fld imm 4 0) 35) by rf_ok.
  unfold exec_addr, exec_store_data. rewrite decode_store by auto. rewrite Him.
  split; [|split; [|split; reflexivity]].
  - cbn [decompose d_type filter mk_uop m_iq set_en]. unfold agu, operand.
    cbn [mk_uop m_imm d_imm m_src1_en d_src1_en d_src1_areg set_en]. unfold w32. now rewrite Zplus_mod_idemp_r.
  - reflexivity.
Qed.

Lemma decode_amo f7 rs2 rs1 f3 rd :
  rfields f7 rs2 rs1 f3 rd 47 ->
  let w := enc_R f7 rs2 rs1 f3 rd 47 in
  let o := Z.shiftr f7 2 in
  decode w = mk_duop (if negb (o =? 2) && negb (o =? 3) && (rd =? 0) then 32 else rd) rs1 rs2
               (negb ((rd =? 0) && ((o =? 2) || (o =? 3)))) true (negb (o =? 2)) false true f3 f7
               0 (f7 * 32 + rs2) T_AMO true false.
Proof.
  intros H w o. subst w o. dec H.
  change AMO_LR with 2. change AMO_SC with 3.
  destruct (Z.shiftr f7 2 =? 2), (Z.shiftr f7 2 =? 3), (rd =? 0) eqn:E; cbn [negb andb orb]; try reflexivity;
    rewrite E; reflexivity.
Qed.

Lemma amo_f_range o : 0 <= amo_f o < 32 /\ amo_f o <> 2 /\ amo_f o <> 3.
Proof. destruct o; cbn; lia. Qed.

(** The value an RMW returns goes to [rd]; when [rd] is x0 the decoder redirects
    it to scratch register 32 so that the store half can read it. *)
Lemma amo_exec o aqrl rd rs1 rs2 rf old :
  0 <= aqrl < 4 -> reg_ix rd -> reg_ix rs1 -> reg_ix rs2 ->
  (forall r, is_w 32 (rf r)) -> is_w 32 old ->
  let w := enc_amo o aqrl rd rs1 rs2 in
  exec_addr w rf = Some (rf rs1) /\
  exec_store_data w rf old = Some (sem_amo o old (rf rs2)) /\
  d_dest_areg (decode w) = (if rd =? 0 then 32 else rd) /\ d_dest_en (decode w) = true.
Proof.
  intros Ha Hd H1 H2 Hrf Hold w. subst w. unfold enc_amo.
  pose proof (amo_f_range o) as (Hf & Hn2 & Hn3).
  assert (HF : rfields (amo_f o * 4 + aqrl) rs2 rs1 2 rd 47) by rf_ok.
  assert (Hsh : Z.shiftr (amo_f o * 4 + aqrl) 2 = amo_f o)
    by (rewrite Z.shiftr_div_pow2 by lia; change (2 ^ 2) with 4; lia).
  unfold exec_addr, exec_store_data. rewrite decode_amo by auto. rewrite Hsh.
  destruct (Z.eqb_spec (amo_f o) 2); [lia|]. destruct (Z.eqb_spec (amo_f o) 3); [lia|].
  cbn [negb andb orb].
  unfold decompose; cbn [d_type d_func7]; rewrite Hsh; change AMO_LR with 2; change AMO_SC with 3.
  destruct (Z.eqb_spec (amo_f o) 2); [lia|]. destruct (Z.eqb_spec (amo_f o) 3); [lia|].
  split; [|split; [|split]].
  - cbn [filter mk_uop m_iq set_en]. unfold agu, operand.
    cbn [mk_uop m_imm d_imm m_src1_en d_src1_en d_src1_areg set_en]. rewrite Z.add_0_r.
    now rewrite w32_id.
  - cbn [filter mk_uop m_iq set_en set_amo_std m_src1_en m_src1_sel m_src2_en d_src1_en d_src2_en
         d_src2_areg operand]. f_equal. unfold sdu.
    cbn [m_is_atomic m_func7 mk_uop set_en set_amo_std negb d_func7]. rewrite Hsh. cbv zeta.
    pose proof (Hrf rs2) as Hb. set (b := rf rs2) in *.
    unfold AMO_SWAP, AMO_ADD, AMO_XOR, AMO_AND, AMO_OR, AMO_MIN, AMO_MAX, AMO_MINU, AMO_MAXU.
    destruct o; cbn [amo_f sem_amo sem_rop]; ceqb; cbv iota; try reflexivity.
    + bitwise.
    + bitwise.
    + bitwise.
    + now apply min_ok.
    + now apply max_ok.
    + destruct (Z.ltb_spec old b); lia.
    + destruct (Z.ltb_spec b old); lia.
  - cbn [d_dest_areg]. now destruct (rd =? 0).
  - cbn [d_dest_en]. now destruct (rd =? 0).
Qed.

(** LR computes its address from rs1; SC its address and data. *)
Lemma lr_exec aqrl rd rs1 rf :
  0 <= aqrl < 4 -> reg_ix rd -> reg_ix rs1 -> (forall r, is_w 32 (rf r)) ->
  let w := enc_lr aqrl rd rs1 in
  exec_addr w rf = Some (rf rs1) /\ exec_store_data w rf 0 = None /\
  d_dest_areg (decode w) = rd /\ d_dest_en (decode w) = negb (rd =? 0).
Proof.
  intros Ha Hd H1 Hrf w. subst w. unfold enc_lr.
  assert (HF : rfields (2 * 4 + aqrl) 0 rs1 2 rd 47) by rf_ok.
  assert (Hsh : Z.shiftr (2 * 4 + aqrl) 2 = 2)
    by (rewrite Z.shiftr_div_pow2 by lia; change (2 ^ 2) with 4; lia).
  unfold exec_addr, exec_store_data. rewrite decode_amo by auto. rewrite Hsh.
  cbn [negb andb orb Z.eqb Pos.eqb].
  unfold decompose; cbn [d_type d_func7]; rewrite Hsh; change AMO_LR with 2. cbn [Z.eqb Pos.eqb].
  split; [|split; [|split]].
  - cbn [filter mk_uop m_iq set_en]. unfold agu, operand.
    cbn [mk_uop m_imm d_imm m_src1_en d_src1_en d_src1_areg set_en]. rewrite Z.add_0_r.
    now rewrite w32_id.
  - reflexivity.
  - reflexivity.
  - cbn [d_dest_en]. now rewrite andb_true_r.
Qed.
Lemma sc_exec aqrl rd rs1 rs2 rf old :
  0 <= aqrl < 4 -> reg_ix rd -> reg_ix rs1 -> reg_ix rs2 -> (forall r, is_w 32 (rf r)) ->
  let w := enc_sc aqrl rd rs1 rs2 in
  exec_addr w rf = Some (rf rs1) /\ exec_store_data w rf old = Some (rf rs2) /\
  d_dest_areg (decode w) = rd /\ d_dest_en (decode w) = negb (rd =? 0).
Proof.
  intros Ha Hd H1 H2 Hrf w. subst w. unfold enc_sc.
  assert (HF : rfields (3 * 4 + aqrl) rs2 rs1 2 rd 47) by rf_ok.
  assert (Hsh : Z.shiftr (3 * 4 + aqrl) 2 = 3)
    by (rewrite Z.shiftr_div_pow2 by lia; change (2 ^ 2) with 4; lia).
  unfold exec_addr, exec_store_data. rewrite decode_amo by auto. rewrite Hsh.
  cbn [negb andb orb Z.eqb Pos.eqb].
  unfold decompose; cbn [d_type d_func7]; rewrite Hsh; change AMO_LR with 2; change AMO_SC with 3.
  cbn [Z.eqb Pos.eqb].
  split; [|split; [|split]].
  - cbn [filter mk_uop m_iq set_en]. unfold agu, operand.
    cbn [mk_uop m_imm d_imm m_src1_en d_src1_en d_src1_areg set_en]. rewrite Z.add_0_r.
    now rewrite w32_id.
  - cbn [filter mk_uop m_iq set_en set_amo_std m_src1_en m_src1_sel m_src2_en d_src1_en d_src2_en
         d_src2_areg operand]. f_equal. unfold sdu.
    cbn [m_is_atomic m_func7 mk_uop set_en set_amo_std negb d_func7]. rewrite Hsh. reflexivity.
  - reflexivity.
  - cbn [d_dest_en]. now rewrite andb_true_r.
Qed.

(** Forms used by the statements. *)
Lemma rot_zero_false o b : (o = ROL \/ o = ROR -> b mod 32 <> 0) -> rot_zero o b = false.
Proof.
  intros H. destruct o; auto; cbn [rot_zero]; apply Z.eqb_neq; unfold sh; apply H; auto.
Qed.
Lemma rop_exec' o rd rs1 rs2 rf pc :
  reg_ix rd -> reg_ix rs1 -> reg_ix rs2 -> (forall r, 0 <= rf r < 2 ^ 32) ->
  (o = ROL \/ o = ROR -> rf rs2 mod 32 <> 0) ->
  exec_result (enc_rop o rd rs1 rs2) rf pc = Val (sem_rop o (rf rs1) (rf rs2)) /\
  d_dest_areg (decode (enc_rop o rd rs1 rs2)) = rd /\
  d_dest_en (decode (enc_rop o rd rs1 rs2)) = negb (rd =? 0).
Proof. intros; apply rop_exec; auto using rot_zero_false. Qed.
Lemma rop_ub_iff o rd rs1 rs2 rf pc :
  reg_ix rd -> reg_ix rs1 -> reg_ix rs2 -> (forall r, 0 <= rf r < 2 ^ 32) ->
  (exec_result (enc_rop o rd rs1 rs2) rf pc = UB <-> (o = ROL \/ o = ROR) /\ rf rs2 mod 32 = 0).
Proof.
  intros Hd H1 H2 Hrf. destruct (rot_zero o (rf rs2)) eqn:E.
  - rewrite rot_zero_exec by auto. split; auto. intros _.
    destruct o; cbn [rot_zero] in E; try discriminate; apply Z.eqb_eq in E; auto.
  - destruct (rop_exec o rd rs1 rs2 rf pc Hd H1 H2 Hrf E) as [-> _].
    split; [discriminate|]. intros [[-> | ->] H]; cbn [rot_zero] in E; apply Z.eqb_neq in E;
      unfold sh in E; lia.
Qed.
Lemma rotate_zero_witness :
  exists o rd rs1 rs2 rf pc,
    reg_ix rd /\ reg_ix rs1 /\ reg_ix rs2 /\ (forall r, 0 <= rf r < 2 ^ 32) /\
    exec_result (enc_rop o rd rs1 rs2) rf pc <> Val (sem_rop o (rf rs1) (rf rs2)) /\
    exec_result (enc_rop o rd rs1 rs2) rf pc = UB.
Proof.
  exists ROL, 5, 6, 7, (fun r => if r =? 6 then 5 else 0), 0.
  unfold reg_ix. repeat split; try lia; try (destruct (r =? 6); lia); vm_compute; congruence.
Qed.
Lemma shop_exec' o rd rs1 shamt rf pc :
  reg_ix rd -> reg_ix rs1 -> 0 <= shamt < 32 -> (forall r, 0 <= rf r < 2 ^ 32) ->
  (o = RORI -> shamt <> 0) ->
  exec_result (enc_shop o rd rs1 shamt) rf pc = Val (sem_shop o (rf rs1) shamt) /\
  d_dest_areg (decode (enc_shop o rd rs1 shamt)) = rd /\
  d_dest_en (decode (enc_shop o rd rs1 shamt)) = negb (rd =? 0).
Proof.
  intros; apply shop_exec; auto. destruct o; auto. cbn. apply Z.eqb_neq; auto.
Qed.
Lemma imm_all w :
  immI w = isa_immI w /\ immS w = isa_immS w /\ immB w = isa_immB w /\
  immU w = isa_immU w /\ immJ w = isa_immJ w.
Proof. auto using immI_isa, immS_isa, immB_isa, immU_isa, immJ_isa. Qed.
Lemma imm_round_trips :
  (forall imm rs1 f3 rd op, -2048 <= imm < 2048 -> reg_ix rs1 -> 0 <= f3 < 8 -> reg_ix rd ->
     0 <= op < 128 -> immI (enc_I (fld imm 11 0) rs1 f3 rd op) = imm mod 2 ^ 32) /\
  (forall imm rs2 rs1 f3 op, -2048 <= imm < 2048 -> reg_ix rs1 -> reg_ix rs2 -> 0 <= f3 < 8 ->
     0 <= op < 128 -> immS (enc_S imm rs2 rs1 f3 op) = imm mod 2 ^ 32) /\
  (forall off rs2 rs1 f3 op, -4096 <= off < 4096 -> off mod 2 = 0 -> reg_ix rs1 -> reg_ix rs2 ->
     0 <= f3 < 8 -> 0 <= op < 128 -> immB (enc_B off rs2 rs1 f3 op) = off mod 2 ^ 32) /\
  (forall imm20 rd op, 0 <= imm20 < 2 ^ 20 -> reg_ix rd -> 0 <= op < 128 ->
     immU (enc_U imm20 rd op) = imm20 * 2 ^ 12) /\
  (forall off rd op, - 2 ^ 20 <= off < 2 ^ 20 -> off mod 2 = 0 -> reg_ix rd -> 0 <= op < 128 ->
     immJ (enc_J off rd op) = off mod 2 ^ 32).
Proof. auto 10 using immI_enc, immS_enc, immB_enc, immU_enc, immJ_enc. Qed.
