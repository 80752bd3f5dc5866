(** C68: what the floating point unit computes, and where it and the reference
    simulator part. *)
From Verif Require Import Base BaseLemmas WakeModel ExecModel RefModel FpuModel FpuSpec FpuProofs.
From Coq Require Import Lia.
Local Open Scope Z_scope.
Ltac Zify.zify_post_hook ::= Z.div_mod_to_equations.
#[local] Opaque Z.land Z.lor Z.lxor Z.shiftr Z.shiftl.

(** *** How a word reaches the unit *)
Definition unary (f7 : Z) : bool := (f7 =? 96) || (f7 =? 104) || (f7 =? 44) || (f7 =? 112).
Lemma core_fp_eq sf i rf : fld i 0 7 = 0x53 ->
  core_fp sf i rf = inl (fpu sf true (fld i 12 3) (fld i 25 7) (fld i 20 5)
                          (rf (fld i 15 5)) (if unary (fld i 25 7) then 0 else rf (fld i 20 5))).
Proof.
  intros Ho. unfold core_fp, decode, decode_case.
  rewrite !bits_fld by lia.
  change (6 - 0 + 1) with 7. change (14 - 12 + 1) with 3. change (31 - 25 + 1) with 7.
  change (11 - 7 + 1) with 5. change (19 - 15 + 1) with 5. change (24 - 20 + 1) with 5.
  rewrite Ho. cbn [Z.eqb Pos.eqb d_type it_eqb andb decompose mk_uop m_op m_func3 m_func7 m_imm m_src1_en m_src2_en
    d_func3 d_func7 d_imm d_src1_en d_src2_en d_src1_areg d_src2_areg operand].
  unfold operand, unary.
  destruct ((fld i 25 7 =? 96) || (fld i 25 7 =? 104) || (fld i 25 7 =? 44) || (fld i 25 7 =? 112)); reflexivity.
Qed.
Lemma other_ops sf i rf : fld i 0 7 <> 0x53 -> core_fp sf i rf = inr tt.
Proof.
  intros Ho. unfold core_fp.
  assert (D : d_type (decode i) <> T_FP).
  { unfold decode. cbn [d_type]. unfold decode_case.
    assert (E : bits i 6 0 = fld i 0 7) by (rewrite bits_fld by lia; reflexivity). rewrite E.
    destruct (fld i 0 7 =? 83) eqn:H83; [apply Z.eqb_eq in H83; contradiction|].
    repeat match goal with |- context [if ?c then _ else _] => destruct c end; cbn [d_type]; discriminate. }
  unfold decompose. destruct (d_type (decode i)) eqn:T; try contradiction; try reflexivity.
  all: repeat match goal with |- context [if ?c then _ else _] => destruct c end; reflexivity.
Qed.

(** *** What each instruction has to compute, softfloat's operations given *)
Definition computes (sf : sfloat) (o : fop) (f3 a b v : Z) : Prop :=
  let rm := if f3 =? 7 then 0 else f3 in      (* the dynamic mode is "nearest, ties to even": there is no fcsr *)
  match o with
  | FAdd => v = sf_add sf rm a b | FSub => v = sf_sub sf rm a b
  | FMul => v = sf_mul sf rm a b | FDiv => v = sf_div sf rm a b | FSqrt => v = sf_sqrt sf rm a
  | FSgnj => v = with_sign (f_sign b) a | FSgnjn => v = with_sign (negb (f_sign b)) a
  | FSgnjx => v = with_sign (xorb (f_sign a) (f_sign b)) a
  | FMin => is_min a b v | FMax => is_max a b v
  | FEq => v = b2z (sf_eq sf a b) | FLt => v = b2z (sf_lt sf a b) | FLe => v = b2z (sf_le sf a b)
  | FClass => v = 2 ^ class_bit (class_of a)
  | FCvtW => v = sf_toi sf rm a | FCvtWu => v = sf_tou sf rm a
  | FCvtSW => v = sf_ofi sf rm a | FCvtSWu => v = sf_ofu sf rm a end.
(** Subtracting is adding the negated operand, as in softfloat with the
    RISC-V NaN rules. *)
Definition sub_ok (sf : sfloat) : Prop := forall rm a b, sf_sub sf rm a b = sf_add sf rm a (Z.lxor b 0x80000000).

Lemma fld_range i lo n : 0 <= n -> 0 <= fld i lo n < 2 ^ n.
Proof. intros Hn. apply Z.mod_pos_bound. apply Z.pow_pos_nonneg; lia. Qed.
Lemma sel5 r : 0 <= r < 32 -> Z.land r 0x1F = r.
Proof. intros H. rewrite (land_ones_lit r 5 0x1F) by (try lia; reflexivity). apply Z.mod_small. exact H. Qed.

Theorem c68_computes : forall sf i rf o,
  lt_ok sf -> sub_ok sf -> (forall r, is_w 32 (rf r)) -> encodes i o ->
  exists v, core_fp sf i rf = inl (Some v) /\
    computes sf o (fld i 12 3) (rf (fld i 15 5)) (rf (fld i 20 5)) v.
Proof.
  intros sf i rf o L S W (Ho & H7 & H3 & H2).
  rewrite core_fp_eq by exact Ho. rewrite H7.
  assert (R3 := fld_range i 12 3 ltac:(discriminate)). assert (R2 := fld_range i 20 5 ltac:(discriminate)).
  change (2 ^ 3) with 8 in R3. change (2 ^ 5) with 32 in R2.
  assert (Wa := W (fld i 15 5)). assert (Wb := W (fld i 20 5)).
  set (a := rf (fld i 15 5)) in *. set (b := rf (fld i 20 5)) in *.
  set (f3 := fld i 12 3) in *. set (r2 := fld i 20 5) in *. clearbody f3 r2 a b.
  unfold fpu, computes. rewrite (sel5 r2 R2).
  destruct o; cbn [f7_of f3_ok rs2_ok] in *;
    try (rewrite H3); try (rewrite H2);
    cbn [Z.eqb Pos.eqb negb unary orb b2z];
    repeat match goal with |- context [Z.shiftr ?x 2 =? ?y] =>
      let v := eval vm_compute in (Z.shiftr x 2 =? y) in change (Z.shiftr x 2 =? y) with v end; cbv beta iota;
    eexists; (split; [reflexivity|]); try reflexivity.
  - symmetry. apply S.
  - apply sgnj_ok; assumption.
  - apply sgnjn_ok; assumption.
  - apply sgnjx_ok; assumption.
  - apply min_ok; assumption.
  - apply max_ok; assumption.
  - apply classify_ok; assumption.
Qed.

(** *** The reference simulator gives the same value *)
Lemma class_same v : is_w 32 v -> f_class v = classify v.
Proof.
  intros H. unfold f_class, classify. rewrite !bits_fld by lia.
  destruct (parts v H) as (E1 & E2 & E3). rewrite E1, E2, E3.
  assert (B1 : fld v 31 (31 - 31 + 1) = if f_sign v then 1 else 0).
  { unfold fld, f_sign, is_w in *. change (2 ^ (31 - 31 + 1)) with 2. change (2 ^ 32) with 4294967296 in H. change (2 ^ 31) with 2147483648.
    destruct (Z.leb_spec 2147483648 v); lia. }
  assert (B2 : fld v 23 (30 - 23 + 1) = f_mag v / 2 ^ 23).
  { unfold fld, f_mag, is_w in *. change (2 ^ (30 - 23 + 1)) with 256. change (2 ^ 31) with 2147483648. change (2 ^ 23) with 8388608. lia. }
  assert (B3 : fld v 0 (22 - 0 + 1) = f_mag v mod 2 ^ 23).
  { unfold fld, f_mag, is_w in *. change (2 ^ (22 - 0 + 1)) with 8388608. change (2 ^ 31) with 2147483648. change (2 ^ 23) with 8388608. change (2 ^ 0) with 1. lia. }
  rewrite B1, B2, B3.
  assert (Hm := f_mag_range v). set (m := f_mag v mod 2 ^ 23).
  assert (Hf : 0 <= m) by (apply Z.mod_pos_bound; reflexivity).
  rewrite quiet_bit by exact Hf.
  assert (Q : Z.testbit m 22 = ((m / 2 ^ 22) mod 2 =? 1)).
  { rewrite Z.testbit_odd, Z.shiftr_div_pow2 by lia. rewrite Zmod_odd. destruct (Z.odd (m / 2 ^ 22)); reflexivity. }
  assert (Q0 : ((m / 2 ^ 22) mod 2 =? 0) = negb ((m / 2 ^ 22) mod 2 =? 1)).
  { rewrite Zmod_odd. destruct (Z.odd (m / 2 ^ 22)); reflexivity. }
  rewrite Q, Q0. unfold nz.
  destruct (f_sign v), (f_mag v / 2 ^ 23 =? 0), (f_mag v / 2 ^ 23 =? 255), (m =? 0), ((m / 2 ^ 22) mod 2 =? 1); reflexivity.
Qed.

Theorem c68_reference_agrees : forall sf i rf o,
  sub_ok sf -> (forall r, is_w 32 (rf r)) -> encodes i o ->
  exists v, core_fp sf i rf = inl (Some v) /\
    forall c, zfinx sf i (rf (fld i 15 5)) (rf (fld i 20 5)) c = Some (v, false).
Proof.
  intros sf i rf o S W (Ho & H7 & H3 & H2).
  rewrite core_fp_eq by exact Ho. rewrite H7.
  assert (R3 := fld_range i 12 3 ltac:(discriminate)). assert (R2 := fld_range i 20 5 ltac:(discriminate)).
  change (2 ^ 3) with 8 in R3. change (2 ^ 5) with 32 in R2.
  assert (Wa := W (fld i 15 5)). assert (Wb := W (fld i 20 5)).
  set (a := rf (fld i 15 5)) in *. set (b := rf (fld i 20 5)) in *.
  unfold zfinx. rewrite !bits_fld by lia.
  change (6 - 0 + 1) with 7. change (14 - 12 + 1) with 3. change (31 - 25 + 1) with 7. change (24 - 20 + 1) with 5.
  rewrite Ho, H7.
  set (f3 := fld i 12 3) in *. set (r2 := fld i 20 5) in *. clearbody f3 r2 a b.
  unfold fpu. rewrite (sel5 r2 R2).
  destruct o; cbn [f7_of f3_ok rs2_ok] in *;
    try (rewrite H3); try (rewrite H2);
    try (replace (4 <? (if f3 =? 7 then 0 else f3)) with false
         by (destruct (Z.eqb_spec f3 7); [reflexivity | symmetry; apply Z.ltb_ge; lia]));
    cbn [Z.eqb Pos.eqb negb unary orb b2z nz];
    repeat match goal with |- context [Z.shiftr ?x 2 =? ?y] =>
      let v := eval vm_compute in (Z.shiftr x 2 =? y) in change (Z.shiftr x 2 =? y) with v end; cbv beta iota;
    eexists; (split; [reflexivity|]); intros c; try reflexivity.
  - rewrite S. reflexivity.
  - rewrite class_same by exact Wa. reflexivity.
Qed.

(** *** Where they part *)
(** Every word of the FP major opcode is sent to the unit: decode never calls
    one illegal; and no word of the fused multiply-add opcodes gets there. *)
Theorem c68_never_illegal : forall i, fld i 0 7 = 0x53 -> d_illegal (decode i) = false.
Proof.
  intros i Ho. unfold decode. cbn [d_illegal]. unfold decode_case. rewrite !bits_fld by lia.
  change (6 - 0 + 1) with 7. rewrite Ho. reflexivity.
Qed.

(** The words on which the unit fails an assert, exactly. *)
Definition aborts (f7 f3 r2 : Z) : bool :=
  if f7 / 4 <=? 3 then false
  else if (f7 =? 96) || (f7 =? 104) then 2 <=? r2
  else if f7 =? 44 then 1 <=? r2
  else if (f7 =? 16) || (f7 =? 80) then 3 <=? f3
  else if f7 =? 20 then 2 <=? f3
  else if f7 =? 112 then (1 <=? r2) || negb (f3 =? 1)
  else true.
Theorem c68_aborts_exactly : forall sf i rf,
  core_fp sf i rf = inl None <-> fld i 0 7 = 0x53 /\ aborts (fld i 25 7) (fld i 12 3) (fld i 20 5) = true.
Proof.
  intros sf i rf. destruct (Z.eq_dec (fld i 0 7) 0x53) as [Ho|Ho].
  2:{ rewrite other_ops by exact Ho. split; [discriminate | intros [C _]; contradiction]. }
  rewrite core_fp_eq by exact Ho.
  assert (R7 := fld_range i 25 7 ltac:(discriminate)).
  assert (R3 := fld_range i 12 3 ltac:(discriminate)). assert (R2 := fld_range i 20 5 ltac:(discriminate)).
  change (2 ^ 7) with 128 in R7. change (2 ^ 3) with 8 in R3. change (2 ^ 5) with 32 in R2.
  set (a := rf (fld i 15 5)) in *. set (b := if unary (fld i 25 7) then 0 else rf (fld i 20 5)) in *.
  set (f7 := fld i 25 7) in *. set (f3 := fld i 12 3) in *. set (r2 := fld i 20 5) in *. clearbody f3 r2 a b f7.
  unfold fpu, aborts. rewrite (sel5 r2 R2), Z.shiftr_div_pow2 by lia. change (2 ^ 2) with 4.
  cbn [negb].
  assert (X : (inl (Some 0) : option Z + unit) = inl None <-> False) by (split; [discriminate | contradiction]).
  split.
  - intros H. split; [exact Ho|]. injection H as H. revert H.
    repeat match goal with
    | |- context [Z.eqb ?x ?y] => destruct (Z.eqb_spec x y)
    | |- context [Z.leb ?x ?y] => destruct (Z.leb_spec x y)
    end; cbn [orb negb]; intros; try discriminate; try reflexivity; lia.
  - intros [_ H]. f_equal. revert H.
    repeat match goal with
    | |- context [Z.eqb ?x ?y] => destruct (Z.eqb_spec x y)
    | |- context [Z.leb ?x ?y] => destruct (Z.leb_spec x y)
    end; cbn [orb negb]; intros; try discriminate; try reflexivity; lia.
Qed.

(** The format field is ignored by the four arithmetic operations: the double,
    half and quad precision forms are executed in single precision, where the
    reference refuses the word. *)
Theorem c68_formats_refuted : forall sf i rf,
  fld i 0 7 = 0x53 -> fld i 27 5 <= 3 -> fld i 25 2 <> 0 ->
  core_fp sf i rf = core_fp sf (i - fld i 25 2 * 2 ^ 25) rf /\ (exists v, core_fp sf i rf = inl (Some v)) /\
  forall a b c, zfinx sf i a b c = None.
Proof.
  intros sf i rf Ho Ht Hf.
  set (j := i - fld i 25 2 * 2 ^ 25).
  assert (Jo : fld j 0 7 = fld i 0 7) by (unfold j, fld; change (2 ^ 0) with 1; change (2 ^ 7) with 128; change (2 ^ 2) with 4; change (2 ^ 25) with 33554432; lia).
  assert (J3 : fld j 12 3 = fld i 12 3) by (unfold j, fld; change (2 ^ 12) with 4096; change (2 ^ 3) with 8; change (2 ^ 2) with 4; change (2 ^ 25) with 33554432; lia).
  assert (J1 : fld j 15 5 = fld i 15 5) by (unfold j, fld; change (2 ^ 15) with 32768; change (2 ^ 5) with 32; change (2 ^ 2) with 4; change (2 ^ 25) with 33554432; lia).
  assert (J2 : fld j 20 5 = fld i 20 5) by (unfold j, fld; change (2 ^ 20) with 1048576; change (2 ^ 5) with 32; change (2 ^ 2) with 4; change (2 ^ 25) with 33554432; lia).
  assert (F7 : fld i 25 7 = 4 * fld i 27 5 + fld i 25 2) by (unfold fld; change (2 ^ 27) with 134217728; change (2 ^ 25) with 33554432; change (2 ^ 7) with 128; change (2 ^ 5) with 32; change (2 ^ 2) with 4; lia).
  assert (J7 : fld j 25 7 = 4 * fld i 27 5) by (unfold j, fld; change (2 ^ 27) with 134217728; change (2 ^ 25) with 33554432; change (2 ^ 7) with 128; change (2 ^ 5) with 32; change (2 ^ 2) with 4; lia).
  rewrite (core_fp_eq sf j rf) by (rewrite Jo; exact Ho). rewrite (core_fp_eq sf i rf) by exact Ho.
  rewrite J3, J1, J2, J7, F7.
  assert (R27 := fld_range i 27 5 ltac:(discriminate)). assert (R25 := fld_range i 25 2 ltac:(discriminate)).
  change (2 ^ 2) with 4 in R25. 
  set (t := fld i 27 5) in *. set (f := fld i 25 2) in *.
  assert (Ct : t = 0 \/ t = 1 \/ t = 2 \/ t = 3) by lia. assert (Cf : f = 1 \/ f = 2 \/ f = 3) by lia.
  split; [|split].
  - clearbody t f. destruct Ct as [-> | [-> | [-> | -> ]]]; destruct Cf as [-> | [-> | -> ]]; reflexivity.
  - clearbody t f. destruct Ct as [-> | [-> | [-> | -> ]]]; destruct Cf as [-> | [-> | -> ]]; eexists; reflexivity.
  - intros a b c. unfold zfinx. rewrite !bits_fld by lia.
    change (6 - 0 + 1) with 7. change (14 - 12 + 1) with 3. change (31 - 25 + 1) with 7. change (24 - 20 + 1) with 5.
    rewrite Ho, F7. fold t f. destruct (4 <? (if fld i 12 3 =? 7 then 0 else fld i 12 3)); [reflexivity|].
    clearbody t f. destruct Ct as [-> | [-> | [-> | -> ]]]; destruct Cf as [-> | [-> | -> ]]; reflexivity.
Qed.

(** Reserved rounding modes: the core passes 5 and 6 to softfloat, the reference
    refuses the word. *)
Theorem c68_reserved_rounding_refuted : forall sf i rf,
  fld i 0 7 = 0x53 -> fld i 25 7 = 0 -> fld i 12 3 = 5 \/ fld i 12 3 = 6 ->
  core_fp sf i rf = inl (Some (sf_add sf (fld i 12 3) (rf (fld i 15 5)) (rf (fld i 20 5)))) /\
  forall a b c, zfinx sf i a b c = None.
Proof.
  intros sf i rf Ho H7 H3. split.
  - rewrite core_fp_eq by exact Ho. rewrite H7. destruct H3 as [-> | -> ]; reflexivity.
  - intros a b c. unfold zfinx. rewrite !bits_fld by lia. change (14 - 12 + 1) with 3.
    destruct H3 as [-> | -> ]; reflexivity.
Qed.

(** Fused multiply-add: illegal in the core, executed by the reference. *)
Theorem c68_fused_refuted : forall sf i rf,
  In (fld i 0 7) [0x43; 0x47; 0x4B; 0x4F] -> fld i 12 3 <= 4 ->
  d_illegal (decode i) = true /\ core_fp sf i rf = inr tt /\
  forall a b c, exists v, zfinx sf i a b c = Some (v, false).
Proof.
  intros sf i rf Ho H3. split; [|split].
  - unfold decode. cbn [d_illegal]. unfold decode_case. rewrite !bits_fld by lia. change (6 - 0 + 1) with 7.
    cbn [In] in Ho. destruct Ho as [<- | [<- | [<- | [<- | []]]]]; reflexivity.
  - apply other_ops. cbn [In] in Ho. destruct Ho as [<- | [<- | [<- | [<- | []]]]]; discriminate.
  - intros a b c. unfold zfinx. rewrite !bits_fld by lia. change (6 - 0 + 1) with 7. change (14 - 12 + 1) with 3.
    assert (E : 4 <? (if fld i 12 3 =? 7 then 0 else fld i 12 3) = false)
      by (destruct (fld i 12 3 =? 7); [reflexivity | apply Z.ltb_ge; exact H3]).
    rewrite E. cbn [In] in Ho.
    destruct Ho as [<- | [<- | [<- | [<- | []]]]]; eexists; reflexivity.
Qed.

(** The number of cycles an operation takes. *)
Theorem c68_latency : forall o,
  latency true (f7_of o) = match o with FMul | FCvtW | FCvtWu | FCvtSW | FCvtSWu => 3 | FDiv | FSqrt => 10 | _ => 5 end.
Proof. destruct o; reflexivity. Qed.

(** The issue unit schedules the wake-up with the same number. *)
Theorem c68_latency_agrees : forall f7, Z.of_nat (isu_lat 4 f7) = latency true f7.
Proof.
  intros f7. unfold isu_lat, latency. cbn [negb]. destruct (Z.eqb_spec (Z.shiftr f7 2) 2) as [-> |]; [reflexivity|].
  destruct (Z.eqb_spec (Z.shiftr f7 2) 3) as [-> |]; [reflexivity|].
  destruct ((Z.shiftr f7 2 =? 0) || (Z.shiftr f7 2 =? 1)); [reflexivity|].
  destruct (Z.eqb_spec f7 0x2C) as [-> |]; [reflexivity|].
  destruct ((f7 =? 0x60) || (f7 =? 0x68)); reflexivity.
Qed.

(** *** Runs *)
Definition toy_lt (a b : Z) : bool :=
  negb (INF <? f_mag a) && negb (INF <? f_mag b) && (f_key a <? f_key b).
Definition toy : sfloat := mksf (fun _ a b => a + b) (fun _ a b => a + Z.lxor b 0x80000000) (fun _ a b => a * b) (fun _ a b => a / b)
  (fun _ a => Z.sqrt a) (fun _ a b c => a * b + c) Z.eqb toy_lt Z.leb (fun _ a => a) (fun _ a => a) (fun _ a => a) (fun _ a => a).
Example toy_lt_ok : lt_ok toy.
Proof.
  intros a b Ha Hb. cbn [sf_lt toy]. unfold toy_lt, f_nan. rewrite !andb_true_iff, !negb_true_iff, !Z.ltb_ge, Z.ltb_lt. lia.
Qed.
Example toy_sub_ok : sub_ok toy.
Proof. intros rm a b. reflexivity. Qed.
(** fmin.s x3, x1, x2 of -0 and +0 is -0; fclass.s of a signalling NaN. *)
Definition regs (a b : Z) (r : Z) : Z := if r =? 1 then a else if r =? 2 then b else 0.
Definition r_word (f7 rs2 f3 : Z) : Z := f7 * 2 ^ 25 + rs2 * 2 ^ 20 + 1 * 2 ^ 15 + f3 * 2 ^ 12 + 3 * 2 ^ 7 + 0x53.
Example c68_run :
  encodes (r_word 20 2 0) FMin /\ encodes (r_word 112 0 1) FClass /\
  core_fp toy (r_word 20 2 0) (regs 0x80000000 0) = inl (Some 0x80000000) /\
  core_fp toy (r_word 20 2 1) (regs 0x80000000 0) = inl (Some 0) /\
  core_fp toy (r_word 112 0 1) (regs 0x7f800001 0) = inl (Some 256) /\
  core_fp toy (r_word 16 2 1) (regs 0x3f800000 0x3f800000) = inl (Some 0xbf800000).
Proof. repeat split; vm_compute; auto; intuition discriminate. Qed.
(** fmv.w.x (func7 0x78) and fsqrt.s with rs2 = 1 stop the simulator; the
    reference reports an illegal instruction. *)
Example c68_run_aborts :
  core_fp toy (r_word 0x78 0 0) (regs 0 0) = inl None /\ zfinx toy (r_word 0x78 0 0) 0 0 0 = None /\
  core_fp toy (r_word 0x70 1 1) (regs 0 0) = inl None /\ zfinx toy (r_word 0x70 1 1) 0 0 0 = Some (16, false).
Proof. vm_compute. auto. Qed.
Example c68_run_formats :
  core_fp toy (r_word 1 2 0) (regs 5 6) = inl (Some 11) /\ fld (r_word 1 2 0) 0 7 = 0x53 /\ fld (r_word 1 2 0) 25 2 = 1.
Proof. vm_compute. auto. Qed.

Print Assumptions c68_computes.
Print Assumptions c68_reference_agrees.
Print Assumptions c68_never_illegal.
Print Assumptions c68_aborts_exactly.
Print Assumptions c68_formats_refuted.
Print Assumptions c68_reserved_rounding_refuted.
Print Assumptions c68_fused_refuted.
Print Assumptions c68_latency.
Print Assumptions c68_latency_agrees.
