(** The ALU, MUL and DIV datapaths compute the ISA-defined values. *)
From Verif Require Import Base BaseLemmas ExecModel IsaSpec ExecProofs.
Ltac Zify.zify_post_hook ::= Z.div_mod_to_equations.

Lemma sgn_s32 x : sgn x = s32 x.
Proof. reflexivity. Qed.

Lemma land31 b : Z.land b 31 = sh b.
Proof. unfold sh. change 31 with (Z.ones 5). now rewrite Z.land_ones by lia. Qed.
Lemma sh_range b : 0 <= sh b < 32.
Proof. unfold sh; lia. Qed.

Lemma shl_mul a s : 0 <= s -> shl a s = (a * 2 ^ s) mod 2 ^ 32.
Proof. intros; unfold shl, w32. now rewrite Z.shiftl_mul_pow2. Qed.
Lemma shr_div a s : 0 <= s -> shr a s = a / 2 ^ s.
Proof. intros; unfold shr. now rewrite Z.shiftr_div_pow2. Qed.

Lemma testbit_shl a s i : 0 <= i -> Z.testbit (shl a s) i = (i <? 32) && Z.testbit a (i - s).
Proof. intros; unfold shl. now rewrite testbit_w32, Z.shiftl_spec. Qed.
Lemma testbit_shr a s i : 0 <= i -> Z.testbit (shr a s) i = Z.testbit a (i + s).
Proof. intros; unfold shr. now rewrite Z.shiftr_spec. Qed.
Lemma testbit_not32 a i : 0 <= i -> Z.testbit (not32 a) i = xorb (Z.testbit a i) (i <? 32).
Proof. intros; unfold not32. now rewrite Z.lxor_spec, testbit_ones_pred. Qed.
Lemma not32_range a : is_w 32 a -> is_w 32 (not32 a).
Proof. intros; unfold not32; apply is_w_lxor; unfold is_w; auto; lia. Qed.
Lemma shl_range a s : is_w 32 (shl a s).
Proof. apply w32_range. Qed.
Lemma shr_range a s : is_w 32 a -> 0 <= s -> is_w 32 (shr a s).
Proof.
  intros. unfold is_w in *. rewrite shr_div by lia.
  assert (0 < 2 ^ s) by (apply Z.pow_pos_nonneg; lia).
  split; [apply Z.div_pos; lia|].
  apply Z.le_lt_trans with a; [|lia]. apply Z.div_le_upper_bound; nia.
Qed.
Lemma testbit_1 i : Z.testbit 1 i = (i =? 0).
Proof. destruct (Z.eqb_spec i 0) as [->|]; [reflexivity|]. destruct i; try lia; [now destruct p | reflexivity]. Qed.

Lemma hi_false a i : is_w 32 a -> 32 <= i -> Z.testbit a i = false.
Proof. intros; apply (is_w_testbit 32); auto; lia. Qed.

Lemma rol_ok a s : is_w 32 a -> 0 < s < 32 ->
  Z.lor (shl a s) (shr a (32 - s)) = word (fun i => Z.testbit a ((i - s) mod 32)).
Proof.
  intros Ha Hs. apply eq_word.
  { apply is_w_lor; [lia| apply shl_range | apply shr_range; auto; lia]. }
  intros i Hi. rewrite Z.lor_spec, testbit_shl, testbit_shr by lia.
  destruct (Z.ltb_spec i 32); [|lia]. cbn [andb].
  destruct (Z.ltb_spec i s).
  - rewrite testbit_neg by lia. cbn [orb]. f_equal. lia.
  - rewrite (hi_false a (i + (32 - s))) by (auto; lia). rewrite orb_false_r. f_equal. lia.
Qed.
Lemma ror_ok a s : is_w 32 a -> 0 < s < 32 ->
  Z.lor (shr a s) (shl a (32 - s)) = word (fun i => Z.testbit a ((i + s) mod 32)).
Proof.
  intros Ha Hs. apply eq_word.
  { apply is_w_lor; [lia| apply shr_range; auto; lia | apply shl_range]. }
  intros i Hi. rewrite Z.lor_spec, testbit_shl, testbit_shr by lia.
  destruct (Z.ltb_spec i 32); [|lia]. cbn [andb].
  destruct (Z.ltb_spec (i + s) 32).
  - rewrite (testbit_neg a (i - (32 - s))) by lia. rewrite orb_false_r. f_equal. lia.
  - rewrite (hi_false a (i + s)) by (auto; lia). cbn [orb]. f_equal. lia.
Qed.

(** Carry-less multiplication loops. *)
Lemma clmul_fold b t is acc k :
  Z.testbit (fold_left (fun out i => if Z.testbit b (Z.of_nat i)
                         then Z.lxor out (t (Z.of_nat i)) else out) is acc) k =
  xorb (Z.testbit acc k)
       (fold_right (fun i p => xorb (Z.testbit b (Z.of_nat i) && Z.testbit (t (Z.of_nat i)) k) p) false is).
Proof.
  revert acc; induction is as [|i is IH]; intros; cbn [fold_left fold_right].
  - now rewrite xorb_false_r.
  - rewrite IH. destruct (Z.testbit b (Z.of_nat i)); cbn [andb].
    + rewrite Z.lxor_spec. now rewrite !xorb_assoc.
    + now rewrite xorb_false_l.
Qed.
Lemma parity_seq n f :
  parity n f = fold_right (fun i p => xorb (f (Z.of_nat i)) p) false (seq 0 n).
Proof.
  induction n as [|n IH]; [reflexivity|].
  rewrite seq_S, fold_right_app. cbn [parity fold_right].
  rewrite IH. rewrite Nat.add_0_l, xorb_false_r.
  generalize (f (Z.of_nat n)); intros c. clear IH. generalize (seq 0 n); intros l.
  induction l as [|x l IHl]; cbn [fold_right]; [now destruct c|].
  rewrite <- IHl. now rewrite xorb_assoc.
Qed.
Lemma fold_xor_ext (f g : nat -> bool) l :
  (forall i, In i l -> f i = g i) ->
  fold_right (fun i p => xorb (f i) p) false l = fold_right (fun i p => xorb (g i) p) false l.
Proof. induction l; intros H; cbn; [reflexivity|]. rewrite H by now left. rewrite IHl; auto. intros; apply H; now right. Qed.

Lemma fold_lxor_range b t is acc :
  is_w 32 acc -> (forall i, In i is -> is_w 32 (t (Z.of_nat i))) ->
  is_w 32 (fold_left (fun out i => if Z.testbit b (Z.of_nat i)
                         then Z.lxor out (t (Z.of_nat i)) else out) is acc).
Proof.
  revert acc; induction is as [|i is IH]; intros acc Ha Ht; cbn [fold_left]; auto.
  apply IH.
  - destruct (Z.testbit b (Z.of_nat i)); auto. apply is_w_lxor; auto; [lia|]. apply Ht; now left.
  - intros; apply Ht; now right.
Qed.

Lemma clmul_ok a b : is_w 32 a -> clmul_c a b = word (fun k => cl_bit a b k).
Proof.
  intros Ha. unfold clmul_c, clmul_loop. apply eq_word.
  { apply (fold_lxor_range b (fun i => shl a i)); [unfold is_w; lia|]. intros; apply shl_range. }
  intros k Hk. rewrite (clmul_fold b (fun i => shl a i)), Z.testbit_0_l, xorb_false_l. unfold cl_bit.
  rewrite parity_seq. apply fold_xor_ext. intros i _.
  rewrite testbit_shl by lia. destruct (Z.ltb_spec k 32); [reflexivity|lia].
Qed.
Lemma clmulr_ok a b : is_w 32 a -> clmulr_c a b = word (fun k => cl_bit a b (k + 31)).
Proof.
  intros Ha. unfold clmulr_c, clmul_loop. apply eq_word.
  { apply (fold_lxor_range b (fun i => shr a (31 - i))); [unfold is_w; lia|]. intros i Hi; apply in_seq in Hi. apply shr_range; auto; lia. }
  intros k Hk. rewrite (clmul_fold b (fun i => shr a (31 - i))), Z.testbit_0_l, xorb_false_l. unfold cl_bit.
  rewrite parity_seq. apply fold_xor_ext. intros i _.
  rewrite testbit_shr by lia. do 2 f_equal. lia.
Qed.
Lemma clmulh_ok a b : is_w 32 a -> clmulh_c a b = word (fun k => cl_bit a b (k + 32)).
Proof.
  intros Ha. unfold clmulh_c, clmul_loop. apply eq_word.
  { apply (fold_lxor_range b (fun i => shr a (32 - i))); [unfold is_w; lia|]. intros i Hi; apply in_seq in Hi. apply shr_range; auto; lia. }
  intros k Hk. rewrite (clmul_fold b (fun i => shr a (32 - i))), Z.testbit_0_l, xorb_false_l. unfold cl_bit.
  rewrite parity_seq. change (seq 0 32) with (0%nat :: seq 1 31). cbn [fold_right].
  rewrite (hi_false a (k + 32 - Z.of_nat 0)) by (auto; lia). rewrite andb_false_r, xorb_false_l.
  apply fold_xor_ext. intros i _.
  rewrite testbit_shr by lia. do 2 f_equal. lia.
Qed.

Lemma b2z_if (b : bool) : b2z b = if b then 1 else 0.
Proof. reflexivity. Qed.

(** Value of a register-register micro-op on the ALU. *)
Definition rmuop (f7 f3 : Z) (de : bool) : muop :=
  mk_muop IQ_INT U_ADD de true true S1_src1 false false f3 f7 0 false.
Definition imuop (f7 f3 imm : Z) (de : bool) : muop :=
  mk_muop IQ_INT U_ADD de true false S1_src1 false true f3 f7 imm false.

Definition rot_zero (o : rop) (b : Z) : bool :=
  match o with ROL | ROR => sh b =? 0 | _ => false end.

Ltac bitwise :=
  apply eq_word;
  [ repeat first [apply is_w_lor; [lia| |] | apply is_w_lxor; [lia| |] | apply not32_range
                 | apply shl_range | assumption
                 | apply is_w_land; [lia| |] ]; auto; try (unfold is_w in *; lia)
  | let i := fresh "i" in let Hi := fresh "Hi" in intros i Hi;
    repeat first [rewrite Z.lor_spec | rewrite Z.lxor_spec | rewrite Z.land_spec
                 | rewrite testbit_not32 by lia | rewrite testbit_shl by lia | rewrite testbit_1];
    zcases; repeat match goal with |- context [Z.testbit ?a ?k] => destruct (Z.testbit a k) end;
    try reflexivity ].

Lemma land_lt a b : is_w 32 a -> 0 <= b -> 0 <= Z.land a b.
Proof. intros. apply Z.land_nonneg; lia. Qed.

Lemma s32_inj a b : is_w 32 a -> is_w 32 b -> s32 a = s32 b -> a = b.
Proof. intros Ha Hb H. rewrite <- (s32_mod a Ha), <- (s32_mod b Hb), H. reflexivity. Qed.
Lemma min_ok a b : is_w 32 a -> is_w 32 b ->
  (if s32 a <? s32 b then a else b) = (if sgn a <=? sgn b then a else b).
Proof.
  intros Ha Hb. change sgn with s32.
  destruct (Z.ltb_spec (s32 a) (s32 b)), (Z.leb_spec (s32 a) (s32 b)); try lia; try reflexivity.
  symmetry; apply s32_inj; auto; lia.
Qed.
Lemma max_ok a b : is_w 32 a -> is_w 32 b ->
  (if s32 b <? s32 a then a else b) = (if sgn b <=? sgn a then a else b).
Proof.
  intros Ha Hb. change sgn with s32.
  destruct (Z.ltb_spec (s32 b) (s32 a)), (Z.leb_spec (s32 b) (s32 a)); try lia; try reflexivity.
  apply s32_inj; auto; lia.
Qed.
Lemma lor_disjoint a b n : 0 <= n -> is_w n a -> Z.lor a (b * 2 ^ n) = a + b * 2 ^ n.
Proof.
  intros Hn Ha. symmetry. rewrite <- Z.lxor_lor, <- Z.add_nocarry_lxor; auto;
  apply Z.bits_inj'; intros j Hj; rewrite Z.land_spec, Z.bits_0;
  (destruct (Z.ltb_spec j n);
   [rewrite Z.mul_pow2_bits_low by lia; now rewrite andb_false_r
   |rewrite (is_w_testbit n) by (auto; lia); reflexivity]).
Qed.

Lemma alu_rop o a b de :
  is_w 32 a -> is_w 32 b -> rot_zero o b = false ->
  alu_add_case (rmuop (fst (rop_f o)) (snd (rop_f o)) de) a b = Val (sem_rop o a b).
Proof.
  intros Ha Hb Hrot.
  pose proof (sh_range b) as Hsh.
  destruct o; unfold alu_add_case, rmuop; cbn -[Z.mul Z.add Z.sub Z.min Z.max Z.testbit Z.ltb Z.leb Z.land Z.lor Z.lxor Z.pow Z.modulo Z.div w32 clmul_c clmulr_c clmulh_c shl shr sar not32 word M32 s32 sgn rol_c ror_c sh];
    rewrite ?land31, ?andb_false_r; cbn [andb]; f_equal; try reflexivity.
  - (* SLL *) now rewrite shl_mul by lia.
  - bitwise.
  - now rewrite shr_div by lia.
  - unfold sar, w32. now rewrite Z.shiftr_div_pow2 by lia.
  - bitwise.
  - bitwise.
  - unfold shl, w32, M32. rewrite Z.shiftl_mul_pow2 by lia. rewrite Zplus_mod_idemp_r. f_equal. lia.
  - unfold shl, w32, M32. rewrite Z.shiftl_mul_pow2 by lia. rewrite Zplus_mod_idemp_r. f_equal. lia.
  - unfold shl, w32, M32. rewrite Z.shiftl_mul_pow2 by lia. rewrite Zplus_mod_idemp_r. f_equal. lia.
  - pose proof (not32_range b Hb). bitwise.
  - bitwise.
  - bitwise.
  - now apply min_ok.
  - destruct (Z.ltb_spec a b); lia.
  - now apply max_ok.
  - destruct (Z.ltb_spec b a); lia.
  - unfold rol_c. cbn [rot_zero] in Hrot. rewrite Hrot. f_equal. apply rol_ok; auto. lia.
  - unfold ror_c. cbn [rot_zero] in Hrot. rewrite Hrot. f_equal. apply ror_ok; auto. lia.
  - now apply clmul_ok.
  - now apply clmulh_ok.
  - now apply clmulr_ok.
  - bitwise.
  - rewrite shr_div by lia. change 1 with (Z.ones 1) at 1. rewrite Z.land_ones by lia.
    rewrite Z.testbit_eqb by lia. change (2 ^ 1) with 2.
    destruct (Z.eqb_spec ((a / 2 ^ sh b) mod 2) 1); lia.
  - bitwise.
  - bitwise.
  - rewrite shl_mul by lia. change 65535 with (Z.ones 16). rewrite Z.land_ones by lia.
    replace ((b * 2 ^ 16) mod 2 ^ 32) with ((b mod 2 ^ 16) * 2 ^ 16) by lia.
    apply lor_disjoint; [lia|]. apply wrap_range; lia.
  - rewrite shl_mul by lia. change 255 with (Z.ones 8). rewrite !Z.land_ones by lia.
    rewrite (Z.mod_small (b mod 2 ^ 8 * 2 ^ 8)) by lia.
    apply lor_disjoint; [lia|]. apply wrap_range; lia.
Qed.

(** Shift/bit immediates: same unit, amount from the immediate field. *)
Lemma land31_imm f7 shamt :
  0 <= shamt < 32 -> Z.land (w32 (sext (f7 * 32 + shamt) 12)) 31 = shamt.
Proof.
  intros. rewrite land31. unfold sh, w32, sext. destruct (_ <? _); lia.
Qed.

Definition shrot_zero (o : shop) (s : Z) : bool :=
  match o with RORI => s =? 0 | _ => false end.

Lemma alu_shop o a shamt b de :
  is_w 32 a -> 0 <= shamt < 32 -> Z.land b 31 = shamt -> shrot_zero o shamt = false ->
  alu_add_case (imuop (fst (rop_f (shop_r o))) (snd (rop_f (shop_r o))) b de) a b
  = Val (sem_shop o a shamt).
Proof.
  intros Ha Hs Hb Hrot.
  assert (Hss : sh shamt = shamt) by (unfold sh; lia).
  assert (Hw : is_w 32 shamt) by (unfold is_w; lia).
  assert (Hl : Z.land shamt 31 = shamt) by (rewrite land31; auto).
  unfold sem_shop.
  rewrite <- (alu_rop (shop_r o) a shamt de); auto.
  - destruct o; unfold alu_add_case, imuop, rmuop;
      cbn -[Z.mul Z.add Z.sub Z.land Z.lor Z.lxor Z.pow Z.modulo shl shr sar not32 rol_c ror_c];
      rewrite Hb, ?Hl; reflexivity.
  - destruct o; cbn in *; auto. now rewrite Hss.
Qed.

(** Decide closed equality tests without unfolding those on variables. *)
Ltac ceqb :=
  repeat match goal with
  | |- context [Z.eqb ?x ?y] =>
      lazymatch x with Z0 => idtac | Zpos ?p => is_ground p end;
      lazymatch y with Z0 => idtac | Zpos ?p => is_ground p end;
      let v := eval vm_compute in (Z.eqb x y) in change (Z.eqb x y) with v; cbv iota
  end.

Lemma alu_iop o a imm f7 de :
  is_w 32 a -> -2048 <= imm < 2048 ->
  alu_add_case (imuop f7 (iop_f o) (imm mod 2 ^ 32) de) a (imm mod 2 ^ 32) = Val (sem_iop o a imm).
Proof.
  intros Ha Hi. assert (Hb : is_w 32 (imm mod 2 ^ 32)) by apply w32_range.
  destruct o; unfold alu_add_case, imuop; cbn [m_func3 m_func7 m_src2_is_imm iop_f negb sem_iop];
    cbv zeta; ceqb; rewrite ?andb_false_r; cbn [andb];
    repeat match goal with |- context [if ?c then Val ?x else Val ?x] =>
      replace (if c then Val x else Val x) with (Val x) by (destruct c; reflexivity) end; f_equal.
  - unfold w32, M32. now rewrite Zplus_mod_idemp_r.
  - change sgn with s32. replace (s32 (imm mod 2 ^ 32)) with imm; [reflexivity|].
    unfold s32. destruct (_ <? _) eqn:E; lia.
  - cbn [sem_rop]. unfold M32. set (b := imm mod 2 ^ 32) in *. bitwise.
  - cbn [sem_rop]. unfold M32. set (b := imm mod 2 ^ 32) in *. bitwise.
  - cbn [sem_rop]. unfold M32. set (b := imm mod 2 ^ 32) in *. bitwise.
Qed.


(** Unary operations. *)
Lemma lead0_bound n a : 0 <= lead0 n a <= Z.of_nat n.
Proof. induction n; cbn [lead0]; [lia|]. destruct (Z.testbit a (Z.of_nat n)); lia. Qed.
Lemma lead0_log2 n a :
  0 < a -> Z.log2 a < Z.of_nat n -> lead0 n a = Z.of_nat n - 1 - Z.log2 a.
Proof.
  intros Ha. induction n as [|n IH]; intros Hl; [pose proof (Z.log2_nonneg a); lia|].
  cbn [lead0]. destruct (Z.eq_dec (Z.of_nat n) (Z.log2 a)) as [E|E].
  - rewrite E, Z.bit_log2 by lia. lia.
  - rewrite Z.bits_above_log2 by lia. rewrite IH by lia. lia.
Qed.
Lemma lead0_zero n : lead0 n 0 = Z.of_nat n.
Proof. induction n; cbn [lead0]; [reflexivity|]. rewrite Z.testbit_0_l, IHn. lia. Qed.

(** [x & -x] isolates the lowest set bit. *)
Lemma trail0_spec n i a t :
  0 <= i -> i <= t < i + Z.of_nat n -> Z.testbit a t = true ->
  (forall j, i <= j < t -> Z.testbit a j = false) -> trail0 n i a = t - i.
Proof.
  revert i; induction n as [|n IH]; intros i Hi Ht Hb Hlow; [lia|].
  cbn [trail0]. destruct (Z.eq_dec i t) as [->|Hne]; [rewrite Hb; lia|].
  rewrite Hlow by lia. rewrite (IH (i + 1)); try lia; auto. intros; apply Hlow; lia.
Qed.
Lemma trail0_zero n i : trail0 n i 0 = Z.of_nat n.
Proof. revert i; induction n; intros; cbn [trail0]; [reflexivity|]. rewrite Z.testbit_0_l, IHn. lia. Qed.

Lemma low_bit_pos p :
  exists t, 0 <= t /\ Z.testbit (Zpos p) t = true /\
    (forall j, 0 <= j < t -> Z.testbit (Zpos p) j = false) /\
    Z.land (Zpos p) (- Zpos p) = 2 ^ t.
Proof.
  induction p as [p IH|p IH|].
  - exists 0. repeat split; try lia.
    replace (- Zpos p~1) with (Z.lnot (2 * Zpos p)) by (unfold Z.lnot; lia).
    change (Zpos p~1) with (2 * Zpos p + 1).
    apply Z.bits_inj'; intros j Hj. rewrite Z.land_spec, Z.lnot_spec, Z.pow2_bits_eqb by lia.
    destruct (Z.eqb_spec 0 j) as [<-|].
    + now rewrite Z.testbit_odd_0, Z.testbit_even_0.
    + replace j with (Z.succ (j - 1)) by lia.
      rewrite Z.testbit_odd_succ, Z.testbit_even_succ by lia. apply andb_negb_r.
  - destruct IH as (t & Ht & Hb & Hlow & Hland). exists (t + 1). repeat split; try lia.
    + change (Zpos p~0) with (2 * Zpos p). rewrite Z.add_1_r, Z.testbit_even_succ by lia; auto.
    + intros j Hj. change (Zpos p~0) with (2 * Zpos p).
      destruct (Z.eq_dec j 0) as [->|]; [apply Z.testbit_even_0|].
      replace j with (Z.succ (j - 1)) by lia. rewrite Z.testbit_even_succ by lia. apply Hlow; lia.
    + change (Zpos p~0) with (2 * Zpos p). replace (- (2 * Zpos p)) with (2 * (- Zpos p)) by lia.
      rewrite Z.pow_add_r by lia. rewrite <- Hland.
      apply Z.bits_inj'; intros j Hj. rewrite Z.land_spec.
      destruct (Z.eq_dec j 0) as [->|].
      * rewrite !Z.testbit_even_0. change (2 ^ 1) with 2. rewrite (Z.mul_comm _ 2). now rewrite Z.testbit_even_0.
      * change (2 ^ 1) with 2. rewrite (Z.mul_comm _ 2).
        replace j with (Z.succ (j - 1)) by lia. rewrite !Z.testbit_even_succ by lia.
        now rewrite Z.land_spec.
  - exists 0. repeat split; try lia.
Qed.

Lemma ctz_ok a : is_w 32 a -> a <> 0 -> builtin_ctz a = trail0 32 0 a.
Proof.
  intros Ha Hn. unfold is_w in Ha. destruct a as [|p|p]; try lia.
  destruct (low_bit_pos p) as (t & Ht & Hb & Hlow & Hland).
  unfold builtin_ctz. rewrite Hland, Z.log2_pow2 by lia.
  assert (t < 32).
  { destruct (Z.lt_ge_cases t 32); auto. rewrite (hi_false (Zpos p) t) in Hb by (unfold is_w; lia). discriminate. }
  rewrite (trail0_spec 32 0 (Zpos p) t); auto; lia.
Qed.
Lemma clz_ok a : is_w 32 a -> a <> 0 -> builtin_clz a = lead0 32 a.
Proof.
  intros Ha Hn. unfold is_w in Ha. unfold builtin_clz.
  rewrite lead0_log2; try lia. change (Z.of_nat 32) with 32. apply Z.log2_lt_pow2; lia.
Qed.

Lemma ones_even n a : ones (S n) (2 * a) = ones n a.
Proof.
  induction n as [|n IH].
  - cbn [ones]. change (Z.of_nat 0) with 0. now rewrite Z.testbit_even_0.
  - change (ones (S (S n)) (2 * a)) with
      ((if Z.testbit (2 * a) (Z.of_nat (S n)) then 1 else 0) + ones (S n) (2 * a)).
    rewrite IH. cbn [ones]. rewrite Nat2Z.inj_succ, Z.testbit_even_succ by lia. reflexivity.
Qed.
Lemma ones_odd n a : ones (S n) (2 * a + 1) = 1 + ones n a.
Proof.
  induction n as [|n IH].
  - cbn [ones]. change (Z.of_nat 0) with 0. now rewrite Z.testbit_odd_0.
  - change (ones (S (S n)) (2 * a + 1)) with
      ((if Z.testbit (2 * a + 1) (Z.of_nat (S n)) then 1 else 0) + ones (S n) (2 * a + 1)).
    rewrite IH. cbn [ones]. rewrite Nat2Z.inj_succ, Z.testbit_odd_succ by lia. lia.
Qed.
Lemma popcount_ones p n : Zpos p < 2 ^ Z.of_nat n -> pos_popcount p = ones n (Zpos p).
Proof.
  revert n; induction p as [p IH|p IH|]; intros n H.
  - destruct n as [|n]; [cbn in H; lia|]. rewrite Nat2Z.inj_succ, Z.pow_succ_r in H by lia.
    change (Zpos p~1) with (2 * Zpos p + 1). rewrite ones_odd, <- IH by lia. reflexivity.
  - destruct n as [|n]; [cbn in H; lia|]. rewrite Nat2Z.inj_succ, Z.pow_succ_r in H by lia.
    change (Zpos p~0) with (2 * Zpos p). rewrite ones_even, <- IH by lia. reflexivity.
  - destruct n as [|n]; [cbn in H; lia|]. change 1 with (2 * 0 + 1). rewrite ones_odd.
    cbn [pos_popcount]. replace (ones n 0) with 0; [reflexivity|].
    clear H. induction n; cbn [ones]; [reflexivity|]. rewrite Z.testbit_0_l. lia.
Qed.
Lemma popcount_ok a : is_w 32 a -> builtin_popcount a = ones 32 a.
Proof.
  unfold is_w; intros. destruct a as [|p|p]; try lia; [reflexivity|].
  apply popcount_ones. change (Z.of_nat 32) with 32. lia.
Qed.

Lemma sextb_ok a : is_w 32 a -> sextb_c a = word (fun i => Z.testbit a (Z.min i 7)).
Proof.
  intros Ha. apply eq_word; [apply w32_range|]. intros i Hi.
  unfold sextb_c. rewrite testbit_w32. change 255 with (Z.ones 8). rewrite Z.land_ones by lia.
  change (if _ <? _ then _ else _) with (sext a 8). rewrite testbit_sext by lia.
  destruct (Z.ltb_spec i 32); [reflexivity|lia].
Qed.
Lemma sexth_ok a : is_w 32 a -> sexth_c a = word (fun i => Z.testbit a (Z.min i 15)).
Proof.
  intros Ha. apply eq_word; [apply w32_range|]. intros i Hi.
  unfold sexth_c. rewrite testbit_w32. change 65535 with (Z.ones 16). rewrite Z.land_ones by lia.
  change (if _ <? _ then _ else _) with (sext a 16). rewrite testbit_sext by lia.
  destruct (Z.ltb_spec i 32); [reflexivity|lia].
Qed.

Lemma land_byte x k : 0 <= k -> Z.land x (255 * 2 ^ (8 * k)) = byte_of x k * 2 ^ (8 * k).
Proof.
  intros Hk. apply Z.bits_inj'; intros i Hi.
  rewrite Z.land_spec. destruct (Z.ltb_spec i (8 * k)).
  - rewrite !Z.mul_pow2_bits_low by lia. apply andb_false_r.
  - replace i with (8 * k + (i - 8 * k)) by lia. rewrite !Z.mul_pow2_bits_add by lia.
    replace (8 * k + (i - 8 * k)) with ((i - 8 * k) + 8 * k) by lia.
    unfold byte_of. change 255 with (2 ^ 8 - 1). rewrite testbit_ones_pred by lia.
    change 256 with (2 ^ 8).
    rewrite <- (Z.div_pow2_bits x (8 * k) (i - 8 * k)) by lia.
    destruct (Z.ltb_spec (i - 8 * k) 8).
    + rewrite Z.mod_pow2_bits_low by lia. now rewrite andb_true_r.
    + rewrite Z.mod_pow2_bits_high by lia. now rewrite andb_false_r.
Qed.
Lemma byte_range x k : 0 <= byte_of x k < 256.
Proof. unfold byte_of; lia. Qed.
Lemma land_b0 x : Z.land x 255 = byte_of x 0.
Proof. rewrite (land_byte x 0 ltac:(lia) : Z.land x 255 = _). lia. Qed.
Lemma land_b1 x : Z.land x 65280 = byte_of x 1 * 2 ^ 8.
Proof. exact (land_byte x 1 ltac:(lia)). Qed.
Lemma land_b2 x : Z.land x 16711680 = byte_of x 2 * 2 ^ 16.
Proof. exact (land_byte x 2 ltac:(lia)). Qed.
Lemma land_b3 x : Z.land x 4278190080 = byte_of x 3 * 2 ^ 24.
Proof. exact (land_byte x 3 ltac:(lia)). Qed.

Lemma rev8_ok a : is_w 32 a ->
  rev8_c a = byte_of a 3 + byte_of a 2 * 2 ^ 8 + byte_of a 1 * 2 ^ 16 + byte_of a 0 * 2 ^ 24.
Proof.
  intros Ha. unfold rev8_c. rewrite land_b0, land_b1, land_b2, land_b3.
  pose proof (byte_range a 0). pose proof (byte_range a 1).
  pose proof (byte_range a 2). pose proof (byte_range a 3).
  rewrite !shl_mul, !shr_div by lia.
  generalize dependent (byte_of a 0). generalize dependent (byte_of a 1).
  generalize dependent (byte_of a 2). generalize dependent (byte_of a 3). intros b3 ? b2 ? b1 ? b0 ?.
  replace ((b0 * 2 ^ 24) mod 2 ^ 32) with (b0 * 2 ^ 24) by lia.
  replace ((b1 * 2 ^ 8 * 2 ^ 8) mod 2 ^ 32) with (b1 * 2 ^ 16) by lia.
  replace (b2 * 2 ^ 16 / 2 ^ 8) with (b2 * 2 ^ 8) by lia.
  replace (b3 * 2 ^ 24 / 2 ^ 24) with b3 by lia.
  rewrite (Z.lor_comm (Z.lor _ _) b3).
  rewrite (Z.lor_comm (Z.lor _ _) (b2 * 2 ^ 8)).
  rewrite (Z.lor_comm (b0 * 2 ^ 24)).
  rewrite Z.lor_assoc. rewrite (lor_disjoint b3 b2 8) by (unfold is_w; lia).
  rewrite Z.lor_assoc. rewrite (lor_disjoint _ b1 16) by (unfold is_w; lia).
  rewrite (lor_disjoint _ b0 24) by (unfold is_w; lia). reflexivity.
Qed.

Lemma orcb_ok a : is_w 32 a -> orcb_c a = word (fun i => negb (byte_of a (i / 8) =? 0)).
Proof.
  intros Ha. unfold orcb_c. rewrite land_b0, land_b1, land_b2, land_b3. unfold nz.
  replace (byte_of a 1 * 2 ^ 8 =? 0) with (byte_of a 1 =? 0)
    by (destruct (Z.eqb_spec (byte_of a 1) 0), (Z.eqb_spec (byte_of a 1 * 2 ^ 8) 0); lia).
  replace (byte_of a 2 * 2 ^ 16 =? 0) with (byte_of a 2 =? 0)
    by (destruct (Z.eqb_spec (byte_of a 2) 0), (Z.eqb_spec (byte_of a 2 * 2 ^ 16) 0); lia).
  replace (byte_of a 3 * 2 ^ 24 =? 0) with (byte_of a 3 =? 0)
    by (destruct (Z.eqb_spec (byte_of a 3) 0), (Z.eqb_spec (byte_of a 3 * 2 ^ 24) 0); lia).
  set (f := fun k => negb (byte_of a k =? 0)).
  change (word (fun i => negb (byte_of a (i / 8) =? 0))) with
    (of_bits 32 (fun i => f (i / 8))).
  cbn [of_bits]. 
  repeat match goal with |- context [f (Z.of_nat ?n / 8)] =>
    let v := eval vm_compute in (Z.of_nat n / 8) in change (Z.of_nat n / 8) with v end.
  change (negb (byte_of a 0 =? 0)) with (f 0). change (negb (byte_of a 1 =? 0)) with (f 1).
  change (negb (byte_of a 2 =? 0)) with (f 2). change (negb (byte_of a 3 =? 0)) with (f 3).
  destruct (f 0), (f 1), (f 2), (f 3); vm_compute; reflexivity.
Qed.

Lemma alu_uop1 o a de :
  is_w 32 a -> o <> ZEXTH ->
  forall b, b = match o with CLZ => 1536 | CTZ => 1537 | CPOP => 1538 | SEXTB => 1540
                           | SEXTH => 1541 | REV8 => 1688 | ORCB => 647 | ZEXTH => 0 end ->
  alu_add_case (imuop (b / 32) (match o with REV8 | ORCB => 5 | _ => 1 end) b de) a b
  = Val (sem_uop1 o a).
Proof.
  intros Ha Ho b ->. destruct o; try congruence; unfold alu_add_case, imuop;
    cbn [m_func3 m_func7 m_src2_is_imm m_imm negb sem_uop1]; cbv zeta;
    change (1536 / 32) with 48; change (1537 / 32) with 48; change (1538 / 32) with 48;
    change (1540 / 32) with 48; change (1541 / 32) with 48; change (1688 / 32) with 52;
    change (647 / 32) with 20;
    ceqb; cbn [andb]; cbv iota;
    repeat match goal with |- context [Z.testbit (Zpos ?p) (Zpos ?q)] =>
      let v := eval vm_compute in (Z.testbit (Zpos p) (Zpos q)) in
      change (Z.testbit (Zpos p) (Zpos q)) with v end; cbn [andb negb]; cbv iota;
    repeat match goal with |- context [Z.land (Zpos ?p) 31] =>
      let v := eval vm_compute in (Z.land (Zpos p) 31) in
      change (Z.land (Zpos p) 31) with v end; ceqb; f_equal.
  - destruct (Z.eqb_spec a 0) as [->|]; [reflexivity|]. now apply clz_ok.
  - destruct (Z.eqb_spec a 0) as [->|]; [reflexivity|]. now apply ctz_ok.
  - now apply popcount_ok.
  - now apply sextb_ok.
  - now apply sexth_ok.
  - now apply rev8_ok.
  - now apply orcb_ok.
Qed.
