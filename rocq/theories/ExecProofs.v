(** Proofs about decode and the functional units. *)
From Verif Require Import Base BaseLemmas ExecModel IsaSpec.
Ltac Zify.zify_post_hook ::= Z.div_mod_to_equations.

(** ** Words built bit by bit *)
Lemma of_bits_range n f : is_w (Z.of_nat n) (of_bits n f).
Proof.
  unfold is_w; induction n as [|k IH]; [cbn; lia|].
  cbn [of_bits]. rewrite Nat2Z.inj_succ, Z.pow_succ_r by lia.
  destruct (f (Z.of_nat k)); lia.
Qed.

Lemma of_bits_testbit n f i :
  0 <= i -> Z.testbit (of_bits n f) i = (i <? Z.of_nat n) && f i.
Proof.
  intros Hi. induction n as [|k IH].
  - cbn. rewrite Z.testbit_0_l. destruct (Z.ltb_spec i 0); [lia|reflexivity].
  - cbn [of_bits]. pose proof (of_bits_range k f) as Hr.
    assert (Hx : of_bits k f + (if f (Z.of_nat k) then 2 ^ Z.of_nat k else 0)
                 = Z.lor (of_bits k f) (if f (Z.of_nat k) then 2 ^ Z.of_nat k else 0)).
    { destruct (f (Z.of_nat k)); [|now rewrite Z.lor_0_r, Z.add_0_r].
      rewrite Z.lor_comm, Z.add_comm.
      replace (2 ^ Z.of_nat k) with (Z.shiftl 1 (Z.of_nat k)) by (rewrite Z.shiftl_1_l; auto).
      symmetry. rewrite <- Z.lxor_lor, <- Z.add_nocarry_lxor; auto;
      apply Z.bits_inj'; intros j Hj; rewrite Z.land_spec, Z.bits_0, Z.shiftl_1_l, Z.pow2_bits_eqb by lia;
      (destruct (Z.eqb_spec (Z.of_nat k) j); [|reflexivity]); subst;
      rewrite (is_w_testbit (Z.of_nat k)) by (auto; lia); reflexivity. }
    rewrite Hx, Z.lor_spec, IH. rewrite Nat2Z.inj_succ.
    destruct (Z.eqb_spec i (Z.of_nat k)) as [->|Hne].
    + destruct (Z.ltb_spec (Z.of_nat k) (Z.of_nat k)); [lia|].
      destruct (Z.ltb_spec (Z.of_nat k) (Z.succ (Z.of_nat k))); [|lia].
      cbn [andb orb]. destruct (f (Z.of_nat k)).
      * apply Z.pow2_bits_true; lia.
      * apply Z.testbit_0_l.
    + assert (Z.testbit (if f (Z.of_nat k) then 2 ^ Z.of_nat k else 0) i = false) as ->.
      { destruct (f (Z.of_nat k)); [apply Z.pow2_bits_false; lia | apply Z.testbit_0_l]. }
      rewrite orb_false_r.
      destruct (Z.ltb_spec i (Z.of_nat k)), (Z.ltb_spec i (Z.succ (Z.of_nat k)));
        try lia; reflexivity.
Qed.

Lemma word_range f : is_w 32 (word f).
Proof. exact (of_bits_range 32 f). Qed.
Lemma word_testbit f i : 0 <= i < 32 -> Z.testbit (word f) i = f i.
Proof.
  intros. unfold word. rewrite of_bits_testbit by lia.
  change (Z.of_nat 32) with 32. destruct (Z.ltb_spec i 32); [reflexivity|lia].
Qed.
Lemma eq_word x f :
  is_w 32 x -> (forall i, 0 <= i < 32 -> Z.testbit x i = f i) -> x = word f.
Proof.
  intros Hx H. apply (word_ext 32); auto using word_range; try lia.
  intros. rewrite H, word_testbit; auto.
Qed.

(** ** Field extraction *)
Definition rfields (f7 rs2 rs1 f3 rd op : Z) : Prop :=
  0 <= f7 < 128 /\ 0 <= rs2 < 32 /\ 0 <= rs1 < 32 /\ 0 <= f3 < 8 /\ 0 <= rd < 32 /\ 0 <= op < 128.

Lemma enc_R_range f7 rs2 rs1 f3 rd op :
  rfields f7 rs2 rs1 f3 rd op -> is_w 32 (enc_R f7 rs2 rs1 f3 rd op).
Proof. unfold rfields, is_w, enc_R; lia. Qed.

Lemma enc_R_fields f7 rs2 rs1 f3 rd op :
  rfields f7 rs2 rs1 f3 rd op ->
  let w := enc_R f7 rs2 rs1 f3 rd op in
  bits w 6 0 = op /\ bits w 14 12 = f3 /\ bits w 31 25 = f7 /\ bits w 11 7 = rd /\
  bits w 19 15 = rs1 /\ bits w 24 20 = rs2 /\ Z.shiftr w 20 = f7 * 32 + rs2.
Proof.
  intros H w. unfold rfields in H. subst w. unfold enc_R.
  rewrite !bits_div by lia. rewrite Z.shiftr_div_pow2 by lia.
  cbn [Z.sub Z.add Z.pow Z.pow_pos Pos.iter Z.mul Pos.mul Pos.add Z.opp Z.pos_sub Pos.pred_double Pos.succ Z.succ_double Z.pred_double Z.double].
  repeat split; lia.
Qed.

(** ** Decode of each format *)
Ltac fields H :=
  let E := fresh in pose proof (enc_R_fields _ _ _ _ _ _ H) as E; cbv zeta in E;
  destruct E as (?E1 & ?E2 & ?E3 & ?E4 & ?E5 & ?E6 & ?E7).

Lemma decode_R f7 rs2 rs1 f3 rd :
  rfields f7 rs2 rs1 f3 rd 51 ->
  decode (enc_R f7 rs2 rs1 f3 rd 51) =
  mk_duop rd rs1 rs2 (negb (rd =? 0)) true true false false f3 f7 0 (f7 * 32 + rs2)
    (if f7 =? 1 then if Z.testbit f3 2 then T_DIV else T_MUL else T_ADD) false false.
Proof.
  intros H. fields H. unfold decode, decode_case. cbv zeta.
  rewrite E1, E2, E3, E4, E5, E6, E7. cbn [Z.eqb Pos.eqb].
  destruct (f7 =? 1); [destruct (Z.testbit f3 2)|];
    cbn [d_type d_func7 it_eqb andb d_dest_areg d_src1_areg d_src2_areg d_dest_en
         d_src1_en d_src2_en d_src1_is_pc d_src2_is_imm d_func3 d_imm d_csr_idx
         d_is_atomic d_illegal]; destruct (rd =? 0); reflexivity.
Qed.

(** Every word with a given major opcode is an [enc_R] of its fields. *)
Lemma enc_R_of_word w :
  is_w 32 w ->
  w = enc_R (bits w 31 25) (bits w 24 20) (bits w 19 15) (bits w 14 12) (bits w 11 7) (bits w 6 0)
  /\ rfields (bits w 31 25) (bits w 24 20) (bits w 19 15) (bits w 14 12) (bits w 11 7) (bits w 6 0).
Proof.
  unfold is_w, rfields, enc_R; intros H.
  rewrite !bits_div by lia.
  cbn [Z.sub Z.add Z.pow Z.pow_pos Pos.iter Z.mul Pos.mul Pos.add Z.opp Z.pos_sub Pos.pred_double Pos.succ Z.succ_double Z.pred_double Z.double] in *.
  split; [lia|]. repeat split; lia.
Qed.

(** Immediates equal the bit-by-bit ISA definition for every word. *)
Lemma testbit_sext x len i :
  0 < len -> 0 <= i ->
  Z.testbit (sext x len) i = Z.testbit x (Z.min i (len - 1)).
Proof.
  intros Hl Hi. unfold sext. set (y := x mod 2 ^ len).
  assert (Hy : is_w len y) by (apply wrap_range; lia).
  assert (Hb : forall j, 0 <= j -> Z.testbit y j = (j <? len) && Z.testbit x j)
    by (intros; apply testbit_wrap; lia).
  assert (H2 : 2 ^ len = 2 * 2 ^ (len - 1)).
  { rewrite <- Z.pow_succ_r by lia. f_equal; lia. }
  assert (Hp : 0 < 2 ^ (len - 1)) by (apply Z.pow_pos_nonneg; lia).
  unfold is_w in Hy.
  assert (Hs : Z.testbit x (len - 1) = negb (y <? 2 ^ (len - 1))).
  { specialize (Hb (len - 1) ltac:(lia)).
    destruct (Z.ltb_spec (len - 1) len); [|lia]. cbn [andb] in Hb. rewrite <- Hb.
    rewrite Z.testbit_eqb by lia.
    destruct (Z.ltb_spec y (2 ^ (len - 1))); cbn [negb].
    - rewrite Z.div_small by lia. reflexivity.
    - replace y with ((y - 2 ^ (len - 1)) + 1 * 2 ^ (len - 1)) by lia.
      rewrite Z.div_add by lia. rewrite Z.div_small by lia. reflexivity. }
  destruct (Z.ltb_spec y (2 ^ (len - 1))) as [Hlt|Hge]; cbn [negb] in Hs.
  - destruct (Z.min_spec i (len - 1)) as [[? ->]|[? ->]].
    + rewrite Hb by lia. destruct (Z.ltb_spec i len); [reflexivity|lia].
    + rewrite Hs. apply (is_w_testbit (len - 1)); unfold is_w; lia.
  - destruct (Z.min_spec i (len - 1)) as [[? ->]|[? ->]].
    + assert (Z.testbit (y - 2 ^ len) i = Z.testbit y i) as ->.
      { replace (y - 2 ^ len) with (y + (-1) * 2 ^ len) by lia.
        rewrite <- (Z.mod_pow2_bits_low (y + -1 * 2 ^ len) len i) by lia.
        rewrite Z.mod_add by lia. now rewrite Z.mod_pow2_bits_low by lia. }
      rewrite Hb by lia. destruct (Z.ltb_spec i len); [reflexivity|lia].
    + rewrite Hs.
      assert (is_w (len - 1) (- (y - 2 ^ len) - 1)) as Hw by (unfold is_w; lia).
      replace (y - 2 ^ len) with (Z.lnot (- (y - 2 ^ len) - 1)) by (unfold Z.lnot; lia).
      rewrite Z.lnot_spec by lia.
      rewrite (is_w_testbit (len - 1)) by (auto; lia). reflexivity.
Qed.

Ltac zcases :=
  repeat match goal with
  | |- context [?a <? ?b] => destruct (Z.ltb_spec a b); try lia
  | |- context [?a =? ?b] => destruct (Z.eqb_spec a b); try lia
  end.
Ltac bw := repeat first
  [ rewrite testbit_w32 | rewrite Z.lor_spec | rewrite Z.shiftl_spec by lia
  | rewrite testbit_bits by lia | rewrite testbit_sext by lia ].

Lemma sext_neg_bit x len i : i < 0 -> Z.testbit (sext x len) i = false.
Proof. intros; destruct i; try lia; reflexivity. Qed.

Lemma testbit_neg x i : i < 0 -> Z.testbit x i = false.
Proof. intros; destruct i; try lia; reflexivity. Qed.

Lemma immI_isa w : immI w = isa_immI w.
Proof.
  apply eq_word; [apply w32_range|]. intros i Hi. unfold immI. bw.
  zcases; cbn [andb]; f_equal; lia.
Qed.
Lemma immU_isa w : immU w = isa_immU w.
Proof.
  apply eq_word; [apply w32_range|]. intros i Hi. unfold immU. bw.
  zcases; cbn [andb].
  - rewrite testbit_neg by lia. reflexivity.
  - bw. zcases. cbn [andb]. f_equal; lia.
Qed.
Ltac immtac :=
  bw; repeat match goal with
  | |- context [Z.testbit (sext ?x ?l) ?i] =>
      first [rewrite (testbit_neg (sext x l) i) by lia | rewrite (testbit_sext x l i) by lia]
  | |- context [Z.testbit (bits ?x ?h ?l) ?i] =>
      first [rewrite (testbit_neg (bits x h l) i) by lia | rewrite (testbit_bits x h l i) by lia]
  end; zcases; cbn [andb orb]; rewrite ?orb_false_r; try reflexivity; try (f_equal; lia).
Lemma immS_isa w : immS w = isa_immS w.
Proof.
  apply eq_word; [apply w32_range|]. intros i Hi. unfold immS.
  destruct (Z.ltb_spec i 5).
  - immtac.
  - immtac.
Qed.
Lemma immB_isa w : immB w = isa_immB w.
Proof.
  apply eq_word; [apply w32_range|]. intros i Hi. unfold immB.
  destruct (Z.eqb_spec i 0); [immtac|].
  destruct (Z.ltb_spec i 5); [immtac|].
  destruct (Z.ltb_spec i 11); [immtac|].
  destruct (Z.eqb_spec i 11); [immtac|]. immtac.
Qed.
Lemma immJ_isa w : immJ w = isa_immJ w.
Proof.
  apply eq_word; [apply w32_range|]. intros i Hi. unfold immJ.
  destruct (Z.eqb_spec i 0); [immtac|].
  destruct (Z.ltb_spec i 11); [immtac|].
  destruct (Z.eqb_spec i 11); [immtac|].
  destruct (Z.ltb_spec i 20); [immtac|]. immtac.
Qed.

(** ** Immediate round trips *)
Lemma testbit_concat a b n i :
  0 <= n -> is_w n b -> 0 <= i ->
  Z.testbit (a * 2 ^ n + b) i = if i <? n then Z.testbit b i else Z.testbit a (i - n).
Proof.
  intros Hn Hb Hi. unfold is_w in Hb. assert (0 < 2 ^ n) by (apply Z.pow_pos_nonneg; lia).
  destruct (Z.ltb_spec i n).
  - rewrite <- (Z.mod_pow2_bits_low _ n i) by lia.
    rewrite Z.add_comm, Z.mod_add by lia. now rewrite Z.mod_small by lia.
  - replace i with ((i - n) + n) at 1 by lia.
    rewrite <- Z.div_pow2_bits by lia.
    rewrite Z.add_comm, Z.div_add by lia. rewrite (Z.div_small b) by lia.
    now rewrite Z.add_0_l.
Qed.

Lemma fld_bits v hi lo : 0 <= lo <= hi -> fld v hi lo = bits v hi lo.
Proof. intros; unfold fld; now rewrite bits_div by lia. Qed.
Lemma fld_range v hi lo : 0 <= lo <= hi -> is_w (hi - lo + 1) (fld v hi lo).
Proof. intros; rewrite fld_bits by lia; now apply bits_range. Qed.
Lemma testbit_fld v hi lo i :
  0 <= lo <= hi -> 0 <= i -> Z.testbit (fld v hi lo) i = (i <? hi - lo + 1) && Z.testbit v (i + lo).
Proof. intros; rewrite fld_bits by lia; now apply testbit_bits. Qed.

Lemma sext_id v n : 0 < n -> - 2 ^ (n - 1) <= v < 2 ^ (n - 1) -> sext v n = v.
Proof.
  intros Hn Hv. unfold sext.
  assert (H2 : 2 ^ n = 2 * 2 ^ (n - 1)) by (rewrite <- Z.pow_succ_r by lia; f_equal; lia).
  assert (Hp : 0 < 2 ^ (n - 1)) by (apply Z.pow_pos_nonneg; lia).
  destruct (Z.ltb_spec v 0).
  - replace (v mod 2 ^ n) with (v + 2 ^ n).
    + destruct (Z.ltb_spec (v + 2 ^ n) (2 ^ (n - 1))); lia.
    + rewrite <- (Z.mod_small (v + 2 ^ n) (2 ^ n)) by lia.
      replace (v + 2 ^ n) with (v + 1 * 2 ^ n) by lia. now rewrite Z.mod_add by lia.
  - rewrite Z.mod_small by lia. destruct (Z.ltb_spec v (2 ^ (n - 1))); lia.
Qed.

Lemma testbit_high v n i :
  0 < n -> - 2 ^ (n - 1) <= v < 2 ^ (n - 1) -> n - 1 <= i ->
  Z.testbit v i = Z.testbit v (n - 1).
Proof.
  intros Hn Hv Hi. rewrite <- (sext_id v n Hn Hv) at 1. rewrite testbit_sext by lia.
  f_equal; lia.
Qed.

Lemma testbit_enc_R f7 rs2 rs1 f3 rd op k :
  rfields f7 rs2 rs1 f3 rd op -> 0 <= k ->
  Z.testbit (enc_R f7 rs2 rs1 f3 rd op) k =
  if k <? 7 then Z.testbit op k else if k <? 12 then Z.testbit rd (k - 7)
  else if k <? 15 then Z.testbit f3 (k - 12) else if k <? 20 then Z.testbit rs1 (k - 15)
  else if k <? 25 then Z.testbit rs2 (k - 20) else Z.testbit f7 (k - 25).
Proof.
  intros H Hk. unfold rfields in H.
  replace (enc_R f7 rs2 rs1 f3 rd op) with
    (((((f7 * 2 ^ 5 + rs2) * 2 ^ 5 + rs1) * 2 ^ 3 + f3) * 2 ^ 5 + rd) * 2 ^ 7 + op)
    by (unfold enc_R; lia).
  rewrite testbit_concat by (unfold is_w; lia).
  destruct (Z.ltb_spec k 7); [reflexivity|].
  rewrite testbit_concat by (unfold is_w; lia).
  destruct (Z.ltb_spec (k - 7) 5), (Z.ltb_spec k 12); try lia; [reflexivity|].
  rewrite testbit_concat by (unfold is_w; lia).
  destruct (Z.ltb_spec (k - 7 - 5) 3), (Z.ltb_spec k 15); try lia; [f_equal; lia|].
  rewrite testbit_concat by (unfold is_w; lia).
  destruct (Z.ltb_spec (k - 7 - 5 - 3) 5), (Z.ltb_spec k 20); try lia; [f_equal; lia|].
  rewrite testbit_concat by (unfold is_w; lia).
  destruct (Z.ltb_spec (k - 7 - 5 - 3 - 5) 5), (Z.ltb_spec k 25); try lia; f_equal; lia.
Qed.

Lemma enc_I_R imm12 rs1 f3 rd op :
  enc_I imm12 rs1 f3 rd op = enc_R (imm12 / 32) (imm12 mod 32) rs1 f3 rd op.
Proof. unfold enc_I, enc_R; lia. Qed.

Lemma fld_11_0 v : 0 <= fld v 11 0 < 4096.
Proof. pose proof (fld_range v 11 0 ltac:(lia)); unfold is_w in *; lia. Qed.

Lemma immI_enc imm rs1 f3 rd op :
  -2048 <= imm < 2048 -> reg_ix rs1 -> 0 <= f3 < 8 -> reg_ix rd -> 0 <= op < 128 ->
  immI (enc_I (fld imm 11 0) rs1 f3 rd op) = imm mod 2 ^ 32.
Proof.
  intros Hi H1 H3 Hd Ho. unfold reg_ix in *. unfold immI.
  assert (bits (enc_I (fld imm 11 0) rs1 f3 rd op) 31 20 = fld imm 11 0) as ->.
  { pose proof (fld_11_0 imm). rewrite bits_div by lia. unfold enc_I.
    cbn [Z.sub Z.add Z.opp Z.pos_sub Pos.pred_double Pos.sub Pos.add Pos.succ Z.pow Z.pow_pos Pos.iter Z.mul Pos.mul] in *. lia. }
  replace (sext (fld imm 11 0) 12) with (sext imm 12).
  - rewrite sext_id by lia. reflexivity.
  - unfold sext, fld. rewrite Z.pow_0_r, Z.div_1_r.
    change (11 - 0 + 1) with 12. now rewrite Z.mod_mod by lia.
Qed.

Ltac rf_ok := unfold rfields, reg_ix in *; repeat split; lia.

Lemma immS_enc imm rs2 rs1 f3 op :
  -2048 <= imm < 2048 -> reg_ix rs1 -> reg_ix rs2 -> 0 <= f3 < 8 -> 0 <= op < 128 ->
  immS (enc_S imm rs2 rs1 f3 op) = imm mod 2 ^ 32.
Proof.
  intros Hi H1 H2 H3 Ho. rewrite immS_isa. symmetry. apply eq_word; [apply w32_range|].
  intros i Hr. fold (w32 imm). rewrite testbit_w32.
  unfold enc_S. pose proof (fld_range imm 11 5 ltac:(lia)).
  pose proof (fld_range imm 4 0 ltac:(lia)). unfold is_w in *.
  cbn [Z.sub Z.add Z.opp Z.pos_sub Pos.pred_double Pos.sub Pos.add Pos.succ] in *.
  rewrite !testbit_enc_R by (rf_ok || lia).
  destruct (Z.ltb_spec i 5); [zcases; rewrite testbit_fld by lia; zcases; cbn [andb]; f_equal; lia|].
  destruct (Z.ltb_spec i 11); [zcases; rewrite testbit_fld by lia; zcases; cbn [andb]; f_equal; lia|].
  zcases; rewrite testbit_fld by lia; zcases; cbn [andb].
  rewrite (testbit_high imm 12) by lia. f_equal; lia.
Qed.

Lemma immB_enc off rs2 rs1 f3 op :
  -4096 <= off < 4096 -> off mod 2 = 0 -> reg_ix rs1 -> reg_ix rs2 -> 0 <= f3 < 8 -> 0 <= op < 128 ->
  immB (enc_B off rs2 rs1 f3 op) = off mod 2 ^ 32.
Proof.
  intros Hi He H1 H2 H3 Ho. rewrite immB_isa. symmetry. apply eq_word; [apply w32_range|].
  intros i Hr. fold (w32 off). rewrite testbit_w32.
  unfold enc_B.
  pose proof (fld_range off 12 12 ltac:(lia)). pose proof (fld_range off 10 5 ltac:(lia)).
  pose proof (fld_range off 4 1 ltac:(lia)). pose proof (fld_range off 11 11 ltac:(lia)).
  unfold is_w in *.
  cbn [Z.sub Z.add Z.opp Z.pos_sub Pos.pred_double Pos.sub Pos.add Pos.succ] in *.
  rewrite !testbit_enc_R by (rf_ok || lia).
  change (fld off 4 1 * 2) with (fld off 4 1 * 2 ^ 1).
  destruct (Z.eqb_spec i 0) as [->|].
  { zcases. cbn [andb]. rewrite Z.bit0_odd, Zodd_mod. rewrite He. reflexivity. }
  destruct (Z.ltb_spec i 5).
  { zcases; rewrite testbit_concat by (unfold is_w; lia); zcases; rewrite testbit_fld by lia; zcases; cbn [andb]; f_equal; lia. }
  destruct (Z.ltb_spec i 11).
  { zcases; rewrite testbit_concat by (unfold is_w; lia); zcases; rewrite testbit_fld by lia; zcases; cbn [andb]; f_equal; lia. }
  destruct (Z.eqb_spec i 11).
  { zcases; rewrite testbit_concat by (unfold is_w; lia); zcases; rewrite testbit_fld by lia; zcases; cbn [andb]; f_equal; lia. }
  zcases; rewrite testbit_concat by (unfold is_w; lia); zcases; rewrite testbit_fld by lia; zcases; cbn [andb].
  rewrite (testbit_high off 13) by lia. f_equal; lia.
Qed.

Lemma immU_enc imm20 rd op :
  0 <= imm20 < 2 ^ 20 -> reg_ix rd -> 0 <= op < 128 ->
  immU (enc_U imm20 rd op) = imm20 * 2 ^ 12.
Proof.
  intros Hi Hd Ho. unfold reg_ix in *. rewrite immU_isa. symmetry. apply eq_word.
  { unfold is_w. lia. }
  intros i Hr. unfold enc_U.
  replace (imm20 * 2 ^ 12 + rd * 2 ^ 7 + op) with (imm20 * 2 ^ 12 + (rd * 2 ^ 7 + op)) by lia.
  rewrite testbit_concat by (unfold is_w; lia).
  replace (imm20 * 2 ^ 12) with (imm20 * 2 ^ 12 + 0) by lia.
  rewrite testbit_concat by (unfold is_w; lia).
  destruct (i <? 12); [apply Z.testbit_0_l|reflexivity].
Qed.

Lemma immJ_enc off rd op :
  -2 ^ 20 <= off < 2 ^ 20 -> off mod 2 = 0 -> reg_ix rd -> 0 <= op < 128 ->
  immJ (enc_J off rd op) = off mod 2 ^ 32.
Proof.
  intros Hi He Hd Ho. unfold reg_ix in *. rewrite immJ_isa. symmetry. apply eq_word; [apply w32_range|].
  intros i Hr. fold (w32 off). rewrite testbit_w32. unfold enc_J.
  pose proof (fld_range off 20 20 ltac:(lia)). pose proof (fld_range off 10 1 ltac:(lia)).
  pose proof (fld_range off 11 11 ltac:(lia)). pose proof (fld_range off 19 12 ltac:(lia)).
  unfold is_w in *.
  cbn [Z.sub Z.add Z.opp Z.pos_sub Pos.pred_double Pos.sub Pos.add Pos.succ] in *.
  replace (fld off 20 20 * 2 ^ 31 + fld off 10 1 * 2 ^ 21 + fld off 11 11 * 2 ^ 20 +
     fld off 19 12 * 2 ^ 12 + rd * 2 ^ 7 + op) with
   (((((fld off 20 20 * 2 ^ 10 + fld off 10 1) * 2 ^ 1 + fld off 11 11) * 2 ^ 8 + fld off 19 12) * 2 ^ 5 + rd) * 2 ^ 7 + op) by lia.
  rewrite !testbit_concat by (unfold is_w; lia).
  destruct (Z.eqb_spec i 0) as [->|].
  { zcases. cbn [andb]. rewrite Z.bit0_odd, Zodd_mod. rewrite He. reflexivity. }
  destruct (Z.ltb_spec i 11).
  { zcases; repeat (rewrite testbit_concat by (unfold is_w; lia); zcases); rewrite testbit_fld by lia; zcases; cbn [andb]; f_equal; lia. }
  destruct (Z.eqb_spec i 11).
  { zcases; repeat (rewrite testbit_concat by (unfold is_w; lia); zcases); rewrite testbit_fld by lia; zcases; cbn [andb]; f_equal; lia. }
  destruct (Z.ltb_spec i 20).
  { zcases; repeat (rewrite testbit_concat by (unfold is_w; lia); zcases); rewrite testbit_fld by lia; zcases; cbn [andb]; f_equal; lia. }
  zcases; repeat (rewrite testbit_concat by (unfold is_w; lia); zcases); rewrite testbit_fld by lia; zcases; cbn [andb].
  rewrite (testbit_high off 21) by lia. f_equal; lia.
Qed.
