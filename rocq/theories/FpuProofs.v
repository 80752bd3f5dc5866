From Verif Require Import Base BaseLemmas ExecModel RefModel FpuModel FpuSpec.
From Coq Require Import Lia.
Local Open Scope Z_scope.
Ltac Zify.zify_post_hook ::= Z.div_mod_to_equations.
#[local] Opaque Z.land Z.lor Z.lxor Z.shiftr Z.shiftl.

(** *** Fields as arithmetic *)
Lemma land_ones_lit x n m : 0 <= n -> m = 2 ^ n - 1 -> Z.land x m = x mod 2 ^ n.
Proof. intros Hn ->. rewrite <- Z.ones_equiv || idtac. replace (2 ^ n - 1) with (Z.ones n) by (rewrite Z.ones_equiv; lia). apply Z.land_ones; exact Hn. Qed.
Lemma bits_fld i hi lo : 0 <= lo <= hi -> bits i hi lo = fld i lo (hi - lo + 1).
Proof. intros H. unfold fld. apply bits_div; exact H. Qed.

Lemma land_sign x : is_w 32 x -> Z.land x 0x80000000 = if f_sign x then 2 ^ 31 else 0.
Proof.
  intros H. unfold is_w in H. change (2 ^ 32) with 4294967296 in H.
  assert (E : Z.land x 0x80000000 = 2 ^ 31 * (x / 2 ^ 31 mod 2)).
  { apply Z.bits_inj'. intros n Hn.
    rewrite Z.land_spec. change 0x80000000 with (2 ^ 31).
    rewrite Z.pow2_bits_eqb by lia.
    replace (2 ^ 31 * (x / 2 ^ 31 mod 2)) with (Z.shiftl (x / 2 ^ 31 mod 2) 31) by (rewrite Z.shiftl_mul_pow2 by lia; lia).
    rewrite Z.shiftl_spec by lia.
    destruct (Z.eqb_spec 31 n) as [<-|Hne].
    - rewrite andb_true_r. change (31 - 31) with 0. rewrite Z.bit0_odd.
      rewrite <- Z.bit0_odd. change 2 with (2 ^ 1) at 2. rewrite Z.mod_pow2_bits_low by lia.
      rewrite Z.div_pow2_bits by lia. reflexivity.
    - rewrite andb_false_r. symmetry. destruct (Z.lt_ge_cases n 31).
      + apply Z.testbit_neg_r. lia.
      + change 2 with (2 ^ 1) at 2. apply Z.mod_pow2_bits_high. lia. }
  rewrite E. unfold f_sign. change (2 ^ 31) with 2147483648 in *.
  destruct (Z.leb_spec 2147483648 x); lia.
Qed.

Lemma land_mag x : Z.land x 0x7fffffff = f_mag x.
Proof. apply land_ones_lit; [lia | reflexivity]. Qed.
Lemma not32_sign : not32 0x80000000 = 0x7fffffff.
Proof. vm_compute. reflexivity. Qed.
Lemma f_split x : is_w 32 x -> x = f_mag x + (if f_sign x then 2 ^ 31 else 0).
Proof.
  unfold is_w, f_mag, f_sign. change (2 ^ 32) with 4294967296. change (2 ^ 31) with 2147483648.
  intros H. destruct (Z.leb_spec 2147483648 x); lia.
Qed.
Lemma f_mag_range x : 0 <= f_mag x < 2 ^ 31.
Proof. apply Z.mod_pos_bound. reflexivity. Qed.

Lemma lor_sign m (s : bool) : 0 <= m < 2 ^ 31 -> Z.lor m (if s then 2 ^ 31 else 0) = m + (if s then 2 ^ 31 else 0).
Proof.
  intros H. destruct s; [|rewrite Z.lor_0_r; lia].
  assert (E : Z.land m (2 ^ 31) = 0).
  { apply Z.bits_inj'. intros n Hn. rewrite Z.land_spec, Z.bits_0, Z.pow2_bits_eqb by lia.
    destruct (Z.eqb_spec 31 n) as [<-|]; [|apply andb_false_r].
    rewrite (is_w_testbit 31 m 31) by (try lia; exact H). reflexivity. }
  rewrite <- Z.lxor_lor by exact E. symmetry. apply Z.add_nocarry_lxor. exact E.
Qed.
Lemma not32_w x : is_w 32 x -> is_w 32 (not32 x).
Proof. intros H. apply is_w_lxor; [lia | exact H |]. vm_compute. split; congruence. Qed.
Lemma not32_val x : is_w 32 x -> not32 x = 2 ^ 32 - 1 - x.
Proof.
  intros H. unfold not32. apply Z.bits_inj'. intros n Hn.
  rewrite Z.lxor_spec. replace (2 ^ 32 - 1) with (Z.ones 32) by reflexivity.
  replace (Z.ones 32 - x) with (Z.ldiff (Z.ones 32) x).
  { rewrite Z.ldiff_spec. destruct (Z.testbit x n) eqn:Ex; destruct (Z.testbit (Z.ones 32) n) eqn:Eo; try reflexivity.
    exfalso. destruct (Z.lt_ge_cases n 32) as [Hl|Hl].
    - rewrite Z.ones_spec_low in Eo by lia. discriminate.
    - rewrite (is_w_testbit 32 x n) in Ex by (try lia; exact H). discriminate. }
  symmetry. apply Z.sub_nocarry_ldiff.
  apply Z.bits_inj'. intros k Hk. rewrite Z.ldiff_spec, Z.bits_0.
  destruct (Z.lt_ge_cases k 32) as [Hl|Hl].
  - rewrite Z.ones_spec_low by lia. apply andb_false_r.
  - rewrite (is_w_testbit 32 x k) by (try lia; exact H). reflexivity.
Qed.
Lemma sign_not32 x : is_w 32 x -> f_sign (not32 x) = negb (f_sign x).
Proof.
  intros H. rewrite not32_val by exact H. unfold f_sign. unfold is_w in H.
  change (2 ^ 32) with 4294967296 in *. change (2 ^ 31) with 2147483648.
  destruct (Z.leb_spec 2147483648 (4294967296 - 1 - x)), (Z.leb_spec 2147483648 x); cbn; lia || reflexivity.
Qed.
Lemma lxor_sign x (s : bool) : is_w 32 x -> Z.lxor x (if s then 2 ^ 31 else 0) = with_sign (xorb (f_sign x) s) x.
Proof.
  intros H. unfold with_sign.
  assert (E : forall t : bool, f_mag x + (if t then 2 ^ 31 else 0) = Z.lxor (f_mag x) (if t then 2 ^ 31 else 0)).
  { intros t. rewrite <- lor_sign by apply f_mag_range. destruct t; [|rewrite Z.lor_0_r, Z.lxor_0_r; reflexivity].
    symmetry. apply Z.lxor_lor.
    apply Z.bits_inj'. intros n Hn. rewrite Z.land_spec, Z.bits_0, Z.pow2_bits_eqb by lia.
    destruct (Z.eqb_spec 31 n) as [<-|]; [|apply andb_false_r].
    rewrite (is_w_testbit 31 (f_mag x) 31) by (try lia; apply f_mag_range). reflexivity. }
  rewrite (f_split x H) at 1. rewrite !E, Z.lxor_assoc. f_equal.
  destruct (f_sign x), s; reflexivity.
Qed.

(** *** Sign injection *)
Lemma sgnj_ok a b : is_w 32 a -> is_w 32 b ->
  Z.lor (Z.land a (not32 0x80000000)) (Z.land b 0x80000000) = with_sign (f_sign b) a.
Proof. intros Ha Hb. rewrite not32_sign, land_mag, land_sign by exact Hb. apply lor_sign, f_mag_range. Qed.
Lemma sgnjn_ok a b : is_w 32 a -> is_w 32 b ->
  Z.lor (Z.land a (not32 0x80000000)) (Z.land (not32 b) 0x80000000) = with_sign (negb (f_sign b)) a.
Proof. intros Ha Hb. rewrite <- sign_not32 by exact Hb. apply sgnj_ok; [exact Ha | apply not32_w; exact Hb]. Qed.
Lemma sgnjx_ok a b : is_w 32 a -> is_w 32 b ->
  Z.lxor a (Z.land b 0x80000000) = with_sign (xorb (f_sign a) (f_sign b)) a.
Proof. intros Ha Hb. rewrite land_sign by exact Hb. apply lxor_sign; exact Ha. Qed.

(** *** Classification *)
Lemma parts v : is_w 32 v ->
  Z.land (Z.shiftr v 31) 1 = (if f_sign v then 1 else 0) /\
  Z.land (Z.shiftr v 23) 0xFF = f_mag v / 2 ^ 23 /\ Z.land v 0x7FFFFF = f_mag v mod 2 ^ 23.
Proof.
  intros H. unfold is_w in H. change (2 ^ 32) with 4294967296 in H.
  rewrite (land_ones_lit (Z.shiftr v 31) 1 1) by (try lia; reflexivity).
  rewrite (land_ones_lit (Z.shiftr v 23) 8 0xFF) by (try lia; reflexivity).
  rewrite (land_ones_lit v 23 0x7FFFFF) by (try lia; reflexivity).
  rewrite !Z.shiftr_div_pow2 by lia. unfold f_sign, f_mag.
  change (2 ^ 31) with 2147483648. change (2 ^ 23) with 8388608. change (2 ^ 1) with 2. change (2 ^ 8) with 256.
  destruct (Z.leb_spec 2147483648 v); repeat split; lia.
Qed.
Lemma quiet_bit m : 0 <= m -> Z.land (Z.shiftr m 22) 1 = (m / 2 ^ 22) mod 2.
Proof. intros H. rewrite (land_ones_lit _ 1 1) by (try lia; reflexivity). rewrite Z.shiftr_div_pow2 by lia. reflexivity. Qed.

Lemma classify_ok v : is_w 32 v -> classify v = 2 ^ class_bit (class_of v).
Proof.
  intros H. destruct (parts v H) as (E1 & E2 & E3).
  unfold classify. rewrite E1, E2, E3. clear E1 E2 E3.
  assert (Hm := f_mag_range v). unfold class_of. unfold INF.
  change (2 ^ 31) with 2147483648 in Hm. change (2 ^ 23) with 8388608. change (2 ^ 22) with 4194304.
  set (m := f_mag v) in *. set (s := f_sign v).
  rewrite quiet_bit by lia. change (2 ^ 22) with 4194304.
  change (255 * 8388608) with 2139095040. change (2139095040 + 4194304) with 2143289344.
  assert (Hx : m = m / 8388608 * 8388608 + m mod 8388608 /\ 0 <= m mod 8388608 < 8388608) by lia.
  assert (Hq : m mod 8388608 = m mod 8388608 / 4194304 * 4194304 + (m mod 8388608) mod 4194304
               /\ 0 <= (m mod 8388608) mod 4194304 < 4194304) by lia.
  assert (Hb : m mod 8388608 / 4194304 = 0 \/ m mod 8388608 / 4194304 = 1) by lia.
  set (x := m / 8388608) in *. set (f := m mod 8388608) in *.
  set (q := f / 4194304) in *. set (r := f mod 4194304) in *. clearbody x f q r m s.
  destruct (Z.eqb_spec x 0), (Z.eqb_spec x 255), (Z.eqb_spec f 0); try lia;
  destruct (Z.ltb_spec 2139095040 m), (Z.eqb_spec m 2139095040); try lia;
  destruct (Z.ltb_spec m 2143289344), (Z.eqb_spec m 0), (Z.ltb_spec m 8388608); try lia;
  destruct Hb as [-> | -> ]; try lia; destruct s; reflexivity.
Qed.

(** *** NaN tests, minimum and maximum *)
Lemma nan_ok v : is_w 32 v -> nan_u32 v = true <-> f_nan v.
Proof.
  intros H. destruct (parts v H) as (_ & E2 & E3). unfold nan_u32. rewrite E3.
  assert (E : Z.land v 0x7F800000 = 2 ^ 23 * (f_mag v / 2 ^ 23)).
  { rewrite <- E2. rewrite Z.mul_comm, <- Z.shiftl_mul_pow2 by lia.
    apply Z.bits_inj'. intros n Hn. rewrite Z.land_spec, Z.shiftl_spec by lia.
    change 0x7F800000 with (Z.shiftl 0xFF 23). rewrite Z.shiftl_spec by lia.
    destruct (Z.lt_ge_cases n 23).
    - rewrite !(Z.testbit_neg_r _ (n - 23)) by lia. apply andb_false_r.
    - rewrite Z.land_spec, Z.shiftr_spec by lia. replace (n - 23 + 23) with n by lia. reflexivity. }
  rewrite E. unfold f_nan, INF. assert (Hm := f_mag_range v).
  change (2 ^ 31) with 2147483648 in Hm. change (2 ^ 23) with 8388608. change 0x7F800000 with 2139095040.
  destruct (Z.eqb_spec (8388608 * (f_mag v / 8388608)) 2139095040);
  destruct (Z.eqb_spec (f_mag v mod 8388608) 0); cbn; split; intros; try discriminate; try reflexivity; lia.
Qed.
Lemma nan_eq v : is_w 32 v -> RefModel.is_nan v = nan_u32 v.
Proof. reflexivity. Qed.
Lemma nan_false v : is_w 32 v -> nan_u32 v = false -> ~ f_nan v.
Proof. intros H E N. apply nan_ok in N; [congruence | exact H]. Qed.

(** What softfloat's comparison promises. *)
Definition lt_ok (sf : sfloat) : Prop := forall a b, is_w 32 a -> is_w 32 b ->
  (sf_lt sf a b = true <-> ~ f_nan a /\ ~ f_nan b /\ f_key a < f_key b).

Lemma equal_keys a b : is_w 32 a -> is_w 32 b -> f_key a = f_key b ->
  a = b \/ (f_mag a = 0 /\ f_mag b = 0).
Proof.
  intros Ha Hb. rewrite (f_split a Ha), (f_split b Hb) at 2. unfold f_key.
  assert (H1 := f_mag_range a). assert (H2 := f_mag_range b).
  destruct (f_sign a), (f_sign b); intros; [left | right | right | left]; lia.
Qed.
Lemma zeros_lor a b : is_w 32 a -> is_w 32 b -> f_mag a = 0 -> f_mag b = 0 ->
  Z.lor a b = (if f_sign a || f_sign b then 2 ^ 31 else 0) /\ Z.land a b = (if f_sign a && f_sign b then 2 ^ 31 else 0).
Proof.
  intros Ha Hb Za Zb. rewrite (f_split a Ha), (f_split b Hb), Za, Zb.
  destruct (f_sign a), (f_sign b); vm_compute; split; reflexivity.
Qed.

Lemma min_ok sf a b : lt_ok sf -> is_w 32 a -> is_w 32 b -> is_min a b (fmin sf a b).
Proof.
  intros L Ha Hb. unfold is_min, fmin.
  destruct (nan_u32 a) eqn:Na.
  { apply nan_ok in Na; [|exact Ha]. destruct (nan_u32 b) eqn:Nb.
    - apply nan_ok in Nb; [|exact Hb]. cbn. repeat split; intros; try contradiction; reflexivity.
    - apply nan_false in Nb; [|exact Hb]. cbn. repeat split; intros; try contradiction; reflexivity. }
  apply nan_false in Na; [|exact Ha]. cbn [andb]. destruct (nan_u32 b) eqn:Nb.
  { apply nan_ok in Nb; [|exact Hb]. repeat split; intros; try contradiction; reflexivity. }
  apply nan_false in Nb; [|exact Hb]. split; [contradiction|]. split; [contradiction|]. split; [contradiction|].
  intros _ _. unfold f_less.
  destruct (sf_lt sf a b) eqn:E1.
  { apply L in E1; [|exact Ha | exact Hb]. destruct E1 as (_ & _ & E1).
    split; [left; reflexivity|]. split; intros [C|(C & S1 & S2)]; try lia; congruence. }
  destruct (sf_lt sf b a) eqn:E2.
  { apply L in E2; [|exact Hb | exact Ha]. destruct E2 as (_ & _ & E2).
    split; [right; reflexivity|]. split; intros [C|(C & S1 & S2)]; try lia; congruence. }
  assert (K : f_key a = f_key b).
  { assert (~ f_key a < f_key b) by (intros C; assert (sf_lt sf a b = true) by (apply L; auto); congruence).
    assert (~ f_key b < f_key a) by (intros C; assert (sf_lt sf b a = true) by (apply L; auto); congruence). lia. }
  destruct (equal_keys a b Ha Hb K) as [<- | [Za Zb]].
  { rewrite Z.lor_diag. split; [left; reflexivity|]. split; intros [C|(C & S1 & S2)]; try lia; congruence. }
  destruct (zeros_lor a b Ha Hb Za Zb) as [-> _].
  assert (Ea := f_split a Ha). assert (Eb := f_split b Hb). rewrite Za in Ea. rewrite Zb in Eb.
  destruct (f_sign a) eqn:Sa, (f_sign b) eqn:Sb; cbn [orb].
  - replace (2 ^ 31) with a by lia. split; [left; reflexivity|]. split; intros [C|(C & S1 & S2)]; try lia; congruence.
  - replace (2 ^ 31) with a by lia. split; [left; reflexivity|]. split; intros [C|(C & S1 & S2)]; try lia; congruence.
  - replace (2 ^ 31) with b by lia. split; [right; reflexivity|]. split; intros [C|(C & S1 & S2)]; try lia; congruence.
  - replace (0) with a by lia. split; [left; reflexivity|]. split; intros [C|(C & S1 & S2)]; try lia; congruence.
Qed.
Lemma max_ok sf a b : lt_ok sf -> is_w 32 a -> is_w 32 b -> is_max a b (fmax sf a b).
Proof.
  intros L Ha Hb. unfold is_max, fmax.
  destruct (nan_u32 a) eqn:Na.
  { apply nan_ok in Na; [|exact Ha]. destruct (nan_u32 b) eqn:Nb.
    - apply nan_ok in Nb; [|exact Hb]. cbn. repeat split; intros; try contradiction; reflexivity.
    - apply nan_false in Nb; [|exact Hb]. cbn. repeat split; intros; try contradiction; reflexivity. }
  apply nan_false in Na; [|exact Ha]. cbn [andb]. destruct (nan_u32 b) eqn:Nb.
  { apply nan_ok in Nb; [|exact Hb]. repeat split; intros; try contradiction; reflexivity. }
  apply nan_false in Nb; [|exact Hb]. split; [contradiction|]. split; [contradiction|]. split; [contradiction|].
  intros _ _. unfold f_less.
  destruct (sf_lt sf a b) eqn:E1.
  { apply L in E1; [|exact Ha | exact Hb]. destruct E1 as (_ & _ & E1).
    split; [right; reflexivity|]. split; intros [C|(C & S1 & S2)]; try lia; congruence. }
  destruct (sf_lt sf b a) eqn:E2.
  { apply L in E2; [|exact Hb | exact Ha]. destruct E2 as (_ & _ & E2).
    split; [left; reflexivity|]. split; intros [C|(C & S1 & S2)]; try lia; congruence. }
  assert (K : f_key a = f_key b).
  { assert (~ f_key a < f_key b) by (intros C; assert (sf_lt sf a b = true) by (apply L; auto); congruence).
    assert (~ f_key b < f_key a) by (intros C; assert (sf_lt sf b a = true) by (apply L; auto); congruence). lia. }
  destruct (equal_keys a b Ha Hb K) as [<- | [Za Zb]].
  { rewrite Z.land_diag. split; [left; reflexivity|]. split; intros [C|(C & S1 & S2)]; try lia; congruence. }
  destruct (zeros_lor a b Ha Hb Za Zb) as [_ ->].
  assert (Ea := f_split a Ha). assert (Eb := f_split b Hb). rewrite Za in Ea. rewrite Zb in Eb.
  destruct (f_sign a) eqn:Sa, (f_sign b) eqn:Sb; cbn [andb].
  - replace (2 ^ 31) with a by lia. split; [left; reflexivity|]. split; intros [C|(C & S1 & S2)]; try lia; congruence.
  - replace (0) with b by lia. split; [right; reflexivity|]. split; intros [C|(C & S1 & S2)]; try lia; congruence.
  - replace (0) with a by lia. split; [left; reflexivity|]. split; intros [C|(C & S1 & S2)]; try lia; congruence.
  - replace (0) with a by lia. split; [left; reflexivity|]. split; intros [C|(C & S1 & S2)]; try lia; congruence.
Qed.
