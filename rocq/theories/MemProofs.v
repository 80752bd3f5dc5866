From Verif Require Import Base BaseLemmas MemModel MemSpec.
Ltac Zify.zify_post_hook ::= Z.div_mod_to_equations.

Lemma land_lo x n : 0 <= n -> Z.land x (2 ^ n - 1) = x mod 2 ^ n.
Proof. intros H. rewrite <- Z.sub_1_r, <- Z.ones_equiv || replace (2 ^ n - 1) with (Z.ones n) by (rewrite Z.ones_equiv; lia). now apply Z.land_ones. Qed.
Lemma land3 x : Z.land x 3 = x mod 4. Proof. exact (land_lo x 2 ltac:(lia)). Qed.
Lemma land255 x : Z.land x 255 = x mod 256. Proof. exact (land_lo x 8 ltac:(lia)). Qed.
Lemma land65535 x : Z.land x 65535 = x mod 65536. Proof. exact (land_lo x 16 ltac:(lia)). Qed.
Lemma landw x : Z.land x 4294967295 = x mod 4294967296. Proof. exact (land_lo x 32 ltac:(lia)). Qed.
Lemma nz_bit x k : 0 <= k -> nz (Z.land x (2 ^ k)) = Z.testbit x k.
Proof.
  intros K. unfold nz. destruct (Z.testbit x k) eqn:T.
  - destruct (Z.eqb_spec (Z.land x (2 ^ k)) 0) as [E|]; [|reflexivity].
    assert (F : Z.testbit (Z.land x (2 ^ k)) k = true) by (rewrite Z.land_spec, T, Z.pow2_bits_true by lia; reflexivity).
    rewrite E, Z.testbit_0_l in F. discriminate.
  - destruct (Z.eqb_spec (Z.land x (2 ^ k)) 0) as [|N]; [reflexivity|exfalso; apply N].
    apply Z.bits_inj'. intros i I. rewrite Z.land_spec, Z.testbit_0_l. destruct (Z.eq_dec i k) as [->|D]; [now rewrite T|].
    rewrite Z.pow2_bits_false by lia. apply andb_false_r.
Qed.
Lemma lor_add a b : Z.land a b = 0 -> Z.lor a b = a + b.
Proof. intros H. rewrite <- Z.lxor_lor by exact H. symmetry. now apply Z.add_nocarry_lxor. Qed.
Lemma lor_hi x k c : 0 <= k -> 0 <= x < 2 ^ k -> Z.lor x (c * 2 ^ k) = x + c * 2 ^ k.
Proof.
  intros K X. apply lor_add. apply Z.bits_inj'. intros i I. rewrite Z.land_spec, Z.testbit_0_l.
  destruct (Z.ltb_spec i k) as [L|L].
  - rewrite Z.mul_pow2_bits_low by lia. apply andb_false_r.
  - rewrite (is_w_testbit k x i) by (unfold is_w; lia). reflexivity.
Qed.

Ltac cases H := repeat (destruct H as [H | H]; [subst | try contradiction]).

Lemma width_size f3 : load_f3 f3 -> get_mem_width f3 = size f3.
Proof. intros H. cases H; reflexivity. Qed.
Lemma store_is_load f3 : store_f3 f3 -> load_f3 f3.
Proof. intros H. cases H; cbn; tauto. Qed.
Lemma size_cases f3 : size f3 = 1 \/ size f3 = 2 \/ size f3 = 4.
Proof. unfold size. destruct ((f3 =? 0) || (f3 =? 4)); [tauto|]. destruct ((f3 =? 1) || (f3 =? 5)); tauto. Qed.

Lemma top_bit x k : 0 <= k -> 0 <= x < 2 ^ (k + 1) -> Z.testbit x k = (2 ^ k <=? x).
Proof.
  intros K X. rewrite Z.pow_add_r in X by lia. change (2 ^ 1) with 2 in X. assert (P := Z.pow_pos_nonneg 2 k ltac:(lia) K).
  destruct (Z.leb_spec (2 ^ k) x) as [L|L].
  - apply Z.testbit_true; [lia|]. replace (x / 2 ^ k) with 1; [reflexivity|]. apply (Z.div_unique x (2 ^ k) 1 (x - 2 ^ k)); lia.
  - apply Z.testbit_false; [lia|]. rewrite Z.div_small by lia. reflexivity.
Qed.

(** extract_data is: take the addressed bytes, then extend. *)
Lemma extract_spec raw addr f3 : load_f3 f3 ->
  extract_data raw addr f3 = extend f3 ((raw / 256 ^ (addr mod 4)) mod 256 ^ size f3).
Proof.
  intros H. unfold extract_data. rewrite (land3 addr).
  assert (S8 : Z.shiftr raw (addr mod 4 * 8) = raw / 256 ^ (addr mod 4)).
  { rewrite Z.shiftr_div_pow2 by lia. f_equal. change 256 with (2 ^ 8). rewrite <- Z.pow_mul_r by lia. f_equal. lia. }
  rewrite S8. set (q := raw / 256 ^ (addr mod 4)). clearbody q. clear S8.
  cbv zeta. cases H; unfold extend.
  - change (get_mem_width 0) with 1. change (mem_mask_for_width 1) with 255. change (size 0) with 1. change (256 ^ 1) with 256.
    rewrite land255. change (1 * 8 - 1) with 7. rewrite (nz_bit _ 7) by lia. rewrite (top_bit _ 7) by (change (2 ^ (7 + 1)) with 256; lia).
    change (2 ^ 7) with 128. change (w32 (Z.lnot 255)) with (16777215 * 2 ^ 8). change (2 ^ 32 - 256) with (16777215 * 2 ^ 8).
    change (Z.land 0 4 =? 0) with true. change (1 <? 4) with true. change (0 =? 0) with true. cbn [andb].
    destruct (Z.leb_spec 128 (q mod 256)), (Z.ltb_spec (q mod 256) 128); try (exfalso; lia); [|reflexivity].
    rewrite lor_hi by (change (2 ^ 8) with 256; lia). reflexivity.
  - change (get_mem_width 1) with 2. change (mem_mask_for_width 2) with 65535. change (size 1) with 2. change (256 ^ 2) with 65536.
    rewrite land65535. change (2 * 8 - 1) with 15. rewrite (nz_bit _ 15) by lia. rewrite (top_bit _ 15) by (change (2 ^ (15 + 1)) with 65536; lia).
    change (2 ^ 15) with 32768. change (w32 (Z.lnot 65535)) with (65535 * 2 ^ 16). change (2 ^ 32 - 65536) with (65535 * 2 ^ 16).
    change (Z.land 1 4 =? 0) with true. change (2 <? 4) with true. change (1 =? 0) with false. change (1 =? 1) with true. cbn [andb].
    destruct (Z.leb_spec 32768 (q mod 65536)), (Z.ltb_spec (q mod 65536) 32768); try (exfalso; lia); [|reflexivity].
    rewrite lor_hi by (change (2 ^ 16) with 65536; lia). reflexivity.
  - change (get_mem_width 2) with 4. change (mem_mask_for_width 4) with 4294967295. change (size 2) with 4.
    change (4 <? 4) with false. rewrite andb_false_r. cbn [andb]. rewrite landw. reflexivity.
  - change (get_mem_width 4) with 1. change (mem_mask_for_width 1) with 255. change (Z.land 4 4 =? 0) with false. cbn [andb]. rewrite land255. reflexivity.
  - change (get_mem_width 5) with 2. change (mem_mask_for_width 2) with 65535. change (Z.land 5 4 =? 0) with false. cbn [andb]. rewrite land65535. reflexivity.
Qed.

(** Little-endian reading of consecutive bytes of one number. *)
Lemma load_bytes_word m v n : forall off a, 0 <= off ->
  (forall k, 0 <= k < Z.of_nat n -> m (a + k) = (v / 256 ^ (off + k)) mod 256) ->
  load_bytes m a n = (v / 256 ^ off) mod 256 ^ Z.of_nat n.
Proof.
  induction n as [|n IH]; intros off a O H; cbn [load_bytes].
  - change (256 ^ Z.of_nat 0) with 1. now rewrite Z.mod_1_r.
  - rewrite (IH (off + 1)) by (try lia; intros k K; rewrite <- Z.add_assoc, H by lia; do 2 f_equal; f_equal; lia).
    specialize (H 0 ltac:(lia)). rewrite !Z.add_0_r in H. rewrite H.
    rewrite Nat2Z.inj_succ, Z.pow_succ_r by lia. rewrite Z.rem_mul_r by (try lia; apply Z.pow_nonzero; lia).
    rewrite Z.pow_add_r by lia. rewrite Z.div_div by (try lia; apply Z.pow_nonzero; lia). reflexivity.
Qed.
Lemma load_bytes_ext m m' n : forall a, (forall x, a <= x < a + Z.of_nat n -> m x = m' x) -> load_bytes m a n = load_bytes m' a n.
Proof.
  induction n as [|n IH]; intros a H; cbn [load_bytes]; [reflexivity|]. rewrite H by lia. rewrite (IH (a + 1)); [reflexivity|].
  intros x X. apply H. lia.
Qed.
Lemma aligned_off a f3 : load_f3 f3 -> aligned a f3 -> a mod 4 + size f3 <= 4.
Proof. unfold aligned. intros H. cases H; cbv [size]; cbn - [Z.modulo]; lia. Qed.

Lemma word_load_spec W a f3 : load_f3 f3 -> aligned a f3 -> word_load W a f3 = isa_load (bytes_of W) a f3.
Proof.
  intros H A. unfold word_load, isa_load. rewrite extract_spec by exact H. f_equal.
  pose proof (aligned_off a f3 H A). pose proof (size_cases f3).
  rewrite (load_bytes_word (bytes_of W) (W (a / 4)) _ (a mod 4)).
  - rewrite Z2Nat.id by lia. reflexivity.
  - lia.
  - intros k K. unfold bytes_of. rewrite Z2Nat.id in K by lia. replace ((a + k) / 4) with (a / 4) by lia.
    replace ((a + k) mod 4) with (a mod 4 + k) by lia. reflexivity.
Qed.

(** Bits of a strobed word. *)
Lemma strobe_step d s b i : 0 <= b -> 0 <= i < 32 -> b < 4 ->
  Z.testbit (Z.lor (Z.land d (w32 (Z.lnot (Z.shiftl 255 (b * 8))))) (Z.land s (Z.shiftl 255 (b * 8)))) i =
  if (b * 8 <=? i) && (i <? b * 8 + 8) then Z.testbit s i else Z.testbit d i.
Proof.
  intros B I B4. rewrite Z.lor_spec, !Z.land_spec, testbit_w32, Z.lnot_spec by lia. rewrite Z.shiftl_spec by lia.
  replace (i <? 32) with true by lia. cbn [andb].
  assert (T : Z.testbit 255 (i - b * 8) = (b * 8 <=? i) && (i <? b * 8 + 8)).
  { destruct (Z.leb_spec (b * 8) i).
    - change 255 with (2 ^ 8 - 1). rewrite testbit_ones_pred by lia. cbn [andb]. lia.
    - rewrite Z.testbit_neg_r by lia. reflexivity. }
  rewrite T. destruct ((b * 8 <=? i) && (i <? b * 8 + 8)); cbn [negb]; rewrite ?andb_true_r, ?andb_false_r, ?orb_false_r; reflexivity.
Qed.
Lemma strobe_bits d s m i : 0 <= i < 32 -> Z.testbit (apply_strobe d s m) i = if Z.testbit m (i / 8) then Z.testbit s i else Z.testbit d i.
Proof.
  intros I. unfold apply_strobe. cbn [fold_left]. rewrite !nz_bit by lia.
  assert (ST : forall d b, 0 <= b < 4 ->
     Z.testbit (if Z.testbit m b then let mask := Z.shiftl 255 (b * 8) in Z.lor (Z.land d (w32 (Z.lnot mask))) (Z.land s mask) else d) i =
     if (b =? i / 8) && Z.testbit m b then Z.testbit s i else Z.testbit d i).
  { intros d' b B. destruct (Z.testbit m b); [|now rewrite andb_false_r]. cbv zeta. rewrite strobe_step by lia. rewrite andb_true_r.
    replace ((b * 8 <=? i) && (i <? b * 8 + 8)) with (b =? i / 8) by lia. reflexivity. }
  rewrite !ST by lia. clear ST.
  assert (C : i / 8 = 0 \/ i / 8 = 1 \/ i / 8 = 2 \/ i / 8 = 3) by lia.
  destruct C as [-> | [-> | [-> | ->]]]; cbn [Z.eqb Pos.eqb andb]; reflexivity.
Qed.
Lemma byte_bits w k j : 0 <= k -> 0 <= j -> Z.testbit ((w / 256 ^ k) mod 256) j = (j <? 8) && Z.testbit w (j + 8 * k).
Proof.
  intros K J. change 256 with (2 ^ 8) at 2. destruct (Z.ltb_spec j 8) as [L|L].
  - rewrite Z.mod_pow2_bits_low by lia. change 256 with (2 ^ 8). rewrite <- Z.pow_mul_r by lia. rewrite Z.div_pow2_bits by lia. reflexivity.
  - rewrite Z.mod_pow2_bits_high by lia. reflexivity.
Qed.
Lemma byte_ext w w' k k' : 0 <= k -> 0 <= k' -> (forall j, 0 <= j < 8 -> Z.testbit w (j + 8 * k) = Z.testbit w' (j + 8 * k')) ->
  (w / 256 ^ k) mod 256 = (w' / 256 ^ k') mod 256.
Proof.
  intros K K' H. apply Z.bits_inj'. intros j J. rewrite !byte_bits by lia. destruct (Z.ltb_spec j 8); [|reflexivity]. now rewrite H by lia.
Qed.

(** Which byte lanes the strobe selects, and what the aligned data holds. *)
Lemma strb_spec a f3 k : store_f3 f3 -> aligned a f3 -> 0 <= k < 4 ->
  Z.testbit (get_store_strb a f3) k = (a mod 4 <=? k) && (k <? a mod 4 + size f3).
Proof.
  intros H A K. unfold aligned in A. unfold get_store_strb. rewrite (land3 a).
  cases H; cbv [size] in *; cbn - [Z.modulo Z.shiftl wrap Z.testbit Z.leb Z.ltb Z.add] in *; unfold wrap in *;
  assert (C : k = 0 \/ k = 1 \/ k = 2 \/ k = 3) by lia;
  assert (D : a mod 4 = 0 \/ a mod 4 = 1 \/ a mod 4 = 2 \/ a mod 4 = 3) by lia;
  destruct D as [D | [D | [D | D]]]; try (exfalso; lia); rewrite D; destruct C as [-> | [-> | [-> | ->]]]; reflexivity.
Qed.
Lemma align_bits v a f3 i : store_f3 f3 -> aligned a f3 -> (a mod 4) * 8 <= i < (a mod 4) * 8 + 8 * size f3 ->
  Z.testbit (align_store_data v a f3) i = Z.testbit v (i - (a mod 4) * 8).
Proof.
  intros H A I. pose proof (aligned_off a f3 (store_is_load _ H) A) as L. unfold align_store_data. rewrite (land3 a).
  unfold aligned in A. cases H; cbv zeta.
  - change (Z.land 0 3 =? 0) with true. change (size 0) with 1 in *. cbv iota.
    rewrite testbit_w32, Z.shiftl_spec by lia. replace (i <? 32) with true by lia. cbn [andb]. rewrite land255. change 256 with (2 ^ 8).
    rewrite Z.mod_pow2_bits_low by lia. reflexivity.
  - change (Z.land 1 3 =? 0) with false. change (Z.land 1 3 =? 1) with true. change (size 1) with 2 in *. cbv iota.
    rewrite testbit_w32, Z.shiftl_spec by lia. replace (i <? 32) with true by lia. cbn [andb]. rewrite land65535. change 65536 with (2 ^ 16).
    rewrite Z.mod_pow2_bits_low by lia. reflexivity.
  - change (Z.land 2 3 =? 0) with false. change (Z.land 2 3 =? 1) with false. change (Z.land 2 3 =? 2) with true. change (size 2) with 4 in *. cbv iota.
    replace (a mod 4) with 0 by lia. now rewrite Z.sub_0_r.
Qed.
Lemma word_store_spec W a f3 v x : store_f3 f3 -> aligned a f3 -> bytes_of (word_store W a f3 v) x = store_bytes (bytes_of W) a (size f3) v x.
Proof.
  intros H A. pose proof (aligned_off a f3 (store_is_load _ H) A) as L. pose proof (size_cases f3) as SZ.
  unfold bytes_of, word_store, store_bytes. destruct (Z.eqb_spec (x / 4) (a / 4)) as [E|E].
  - destruct ((a <=? x) && (x <? a + size f3)) eqn:R.
    + apply byte_ext; [lia|lia|]. intros j J. rewrite strobe_bits by lia.
      replace ((j + 8 * (x mod 4)) / 8) with (x mod 4) by lia. rewrite strb_spec by (try assumption; lia).
      replace ((a mod 4 <=? x mod 4) && (x mod 4 <? a mod 4 + size f3)) with true by lia.
      rewrite align_bits by (try assumption; lia). f_equal. lia.
    + apply byte_ext; [lia|lia|]. intros j J. rewrite strobe_bits by lia.
      replace ((j + 8 * (x mod 4)) / 8) with (x mod 4) by lia. rewrite strb_spec by (try assumption; lia).
      replace ((a mod 4 <=? x mod 4) && (x mod 4 <? a mod 4 + size f3)) with false by lia. reflexivity.
  - replace ((a <=? x) && (x <? a + size f3)) with false by lia. reflexivity.
Qed.

(** Forwarding. *)
Definition no_wrap (a f3 : Z) : Prop := 0 <= a /\ a + size f3 < 2 ^ 32.
Lemma check_stlf_spec la lf sa sf : load_f3 lf -> store_f3 sf -> no_wrap la lf -> no_wrap sa sf ->
  match check_stlf la lf sa sf with
  | Overlap => sa <= la /\ la + size lf <= sa + size sf
  | Disjoint => ~ shares la (size lf) sa (size sf)
  | Retry => shares la (size lf) sa (size sf) /\ ~ (sa <= la /\ la + size lf <= sa + size sf)
  end.
Proof.
  intros HL HS [L1 L2] [S1 S2]. unfold check_stlf. rewrite !width_size by (try assumption; now apply store_is_load).
  rewrite !w32_id by (unfold is_w; pose proof (size_cases lf); pose proof (size_cases sf); lia).
  pose proof (size_cases lf) as ZL. pose proof (size_cases sf) as ZS. unfold shares.
  destruct ((sa <=? la) && (la + size lf <=? sa + size sf)) eqn:C1; [lia|].
  destruct ((la + size lf <=? sa) || (sa + size sf <=? la)) eqn:C2.
  - intros (x & X1 & X2). lia.
  - split; [|lia]. exists (Z.max la sa). lia.
Qed.
Lemma store_out m a n v x : ~ (a <= x < a + n) -> store_bytes m a n v x = m x.
Proof. intros H. unfold store_bytes. replace ((a <=? x) && (x <? a + n)) with false by lia. reflexivity. Qed.
Lemma store_in m a n v x : a <= x < a + n -> store_bytes m a n v x = (v / 256 ^ (x - a)) mod 256.
Proof. intros H. unfold store_bytes. replace ((a <=? x) && (x <? a + n)) with true by lia. reflexivity. Qed.
Lemma isa_load_ext m m' a f3 : (forall x, a <= x < a + size f3 -> m x = m' x) -> isa_load m a f3 = isa_load m' a f3.
Proof.
  intros H. unfold isa_load. f_equal. apply load_bytes_ext. intros x X. apply H. rewrite Z2Nat.id in X by (pose proof (size_cases f3); lia). exact X.
Qed.
Lemma forward_spec m la lf sa sf d : load_f3 lf -> store_f3 sf -> is_w 32 la -> is_w 32 sa -> sa <= la -> la + size lf <= sa + size sf ->
  extract_data d (w32 (la - sa)) lf = isa_load (store_bytes m sa (size sf) d) la lf.
Proof.
  intros HL HS WL WS A B. rewrite w32_id by (unfold is_w in *; lia). rewrite extract_spec by exact HL. unfold isa_load. f_equal.
  pose proof (size_cases lf) as ZL. pose proof (size_cases sf) as ZS.
  rewrite (load_bytes_word _ d _ (la - sa)); [|lia|].
  - rewrite Z2Nat.id by lia. replace ((la - sa) mod 4) with (la - sa) by lia. reflexivity.
  - intros k K. rewrite Z2Nat.id in K by lia. rewrite store_in by lia. do 2 f_equal. f_equal. lia.
Qed.

Definition pst (s : fstore) : pstore := mkps (fs_paddr s) (fs_func3 s) (fs_data s).
Definition fs_wf (s : fstore) : Prop := fs_paddr_valid s = true -> store_f3 (fs_func3 s) /\ no_wrap (fs_paddr s) (fs_func3 s).
Lemma scan_spec m la lf l : load_f3 lf -> no_wrap la lf -> Forall fs_wf l ->
  match stlf_scan la lf l with
  | Forward v => v = isa_load (after (map pst l) m) la lf
  | ToDcache => isa_load (after (map pst l) m) la lf = isa_load m la lf /\
                Forall (fun s => fs_paddr_valid s = true /\ ~ shares la (size lf) (fs_paddr s) (size (fs_func3 s))) l
  | Again => True
  end.
Proof.
  intros HL NW. induction l as [|s t IH]; intros F; cbn [stlf_scan].
  - split; [reflexivity|constructor].
  - inversion F as [|? ? FS FT]; subst. specialize (IH FT).
    destruct (fs_alloc s); [exact I|]. destruct (fs_paddr_valid s) eqn:PV; cbn [negb]; [|exact I]. destruct (FS PV) as [SF SW].
    pose proof (check_stlf_spec la lf (fs_paddr s) (fs_func3 s) HL SF NW SW) as CK.
    destruct (check_stlf la lf (fs_paddr s) (fs_func3 s)); [| |exact I].
    + assert (EQ : isa_load (after (map pst (s :: t)) m) la lf = isa_load (after (map pst t) m) la lf).
      { apply isa_load_ext. intros x X. cbn [map after]. unfold do_store. cbn [pst ps_addr ps_f3 ps_data]. apply store_out.
        intros Y. apply CK. exists x. tauto. }
      destruct (stlf_scan la lf t); [now rewrite EQ|exact I|]. destruct IH as [IH1 IH2]. split; [now rewrite EQ|]. constructor; [tauto|exact IH2].
    + destruct (fs_data_valid s); cbn [negb]; [|exact I]. cbn [map after]. unfold do_store. cbn [pst ps_addr ps_f3 ps_data].
      destruct NW, SW. pose proof (size_cases lf). pose proof (size_cases (fs_func3 s)).
      apply forward_spec; try assumption; unfold is_w; lia.
Qed.

(** CheckAddr on naturally aligned accesses is byte sharing. *)
Lemma land_fffc a : is_w 32 a -> Z.land a 4294967292 = a - a mod 4.
Proof.
  intros A. replace (a - a mod 4) with ((a / 4) * 2 ^ 2) by lia. apply Z.bits_inj'. intros i I. rewrite Z.land_spec.
  destruct (Z.ltb_spec i 2) as [L|L].
  - rewrite Z.mul_pow2_bits_low by lia. assert (C : i = 0 \/ i = 1) by lia. destruct C as [-> | ->]; apply andb_false_r.
  - rewrite Z.mul_pow2_bits_add || rewrite Z.mul_pow2_bits by lia. change 4 with (2 ^ 2). rewrite Z.div_pow2_bits by lia. replace (i - 2 + 2) with i by lia.
    destruct (Z.ltb_spec i 32) as [L'|L'].
    + change 4294967292 with (1073741823 * 2 ^ 2). rewrite Z.mul_pow2_bits by lia. change 1073741823 with (2 ^ 30 - 1). rewrite testbit_ones_pred by lia.
      replace (i - 2 <? 30) with true by lia. apply andb_true_r.
    + rewrite (is_w_testbit 32 a i) by (try assumption; lia). reflexivity.
Qed.

Lemma strb_all a f3 k : store_f3 f3 -> aligned a f3 -> 0 <= k ->
  Z.testbit (get_store_strb a f3) k = (a mod 4 <=? k) && (k <? a mod 4 + size f3).
Proof.
  intros H A K. destruct (Z.ltb_spec k 4) as [L|L]; [apply strb_spec; try assumption; lia|].
  pose proof (aligned_off a f3 (store_is_load _ H) A). replace ((a mod 4 <=? k) && (k <? a mod 4 + size f3)) with false by lia.
  assert (W : is_w 4 (get_store_strb a f3)).
  { unfold aligned in A. unfold get_store_strb. rewrite (land3 a). cases H; cbv zeta.
    - change (Z.land 0 3 =? 0) with true. cbv iota. assert (C : a mod 4 = 0 \/ a mod 4 = 1 \/ a mod 4 = 2 \/ a mod 4 = 3) by lia.
      destruct C as [-> | [-> | [-> | ->]]]; split; reflexivity || discriminate.
    - change (Z.land 1 3 =? 0) with false. change (Z.land 1 3 =? 1) with true. change (size 1) with 2 in *. cbv iota.
      assert (C : a mod 4 = 0 \/ a mod 4 = 2) by lia. destruct C as [-> | ->]; split; reflexivity || discriminate.
    - split; reflexivity || discriminate. }
  apply (is_w_testbit 4); [lia|exact W|exact L].
Qed.
Lemma nz_exists x : 0 <= x -> nz x = true <-> exists k, 0 <= k /\ Z.testbit x k = true.
Proof.
  intros P. unfold nz. destruct (Z.eqb_spec x 0) as [->|N].
  - split; [discriminate|]. intros (k & _ & K). now rewrite Z.testbit_0_l in K.
  - split; [|reflexivity]. intros _. exists (Z.log2 x). split; [apply Z.log2_nonneg|]. apply Z.bit_log2. lia.
Qed.
Lemma strb_nonneg a f3 : 0 <= get_store_strb a f3.
Proof.
  unfold get_store_strb. destruct (Z.land f3 3 =? 0), (Z.land f3 3 =? 1), (Z.land f3 3 =? 2); unfold wrap; lia.
Qed.
Lemma check_addr_spec a fa b fb : store_f3 fa -> store_f3 fb -> is_w 32 a -> is_w 32 b -> aligned a fa -> aligned b fb ->
  CheckAddr a (get_store_strb a fa) b (get_store_strb b fb) = true <-> shares a (size fa) b (size fb).
Proof.
  intros HA HB WA WB AA AB. unfold CheckAddr. rewrite !land_fffc by assumption. cbv zeta.
  pose proof (aligned_off a fa (store_is_load _ HA) AA) as LA. pose proof (aligned_off b fb (store_is_load _ HB) AB) as LB.
  pose proof (size_cases fa) as ZA. pose proof (size_cases fb) as ZB.
  set (mb := if a - a mod 4 <? b - b mod 4 then a - a mod 4 else b - b mod 4).
  assert (MB : mb = Z.min (a - a mod 4) (b - b mod 4)) by (unfold mb; destruct (Z.ltb_spec (a - a mod 4) (b - b mod 4)); lia).
  clearbody mb. set (d1 := a - a mod 4 - mb). set (d2 := b - b mod 4 - mb).
  assert (D1 : 0 <= d1) by lia. assert (D2 : 0 <= d2) by lia.
  destruct ((8 <=? d1) || (8 <=? d2)) eqn:FAR.
  - split; [discriminate|]. intros (x & X1 & X2). exfalso. lia.
  - assert (NN : 0 <= Z.land (Z.shiftl (get_store_strb a fa) d1) (Z.shiftl (get_store_strb b fb) d2)).
    { apply Z.land_nonneg. left. apply Z.shiftl_nonneg. apply strb_nonneg. }
    rewrite (nz_exists _ NN). split.
    + intros (k & K & T). rewrite Z.land_spec, !Z.shiftl_spec in T by exact K. apply andb_prop in T as [T1 T2].
      destruct (Z.ltb_spec k d1); [rewrite Z.testbit_neg_r in T1 by lia; discriminate|].
      destruct (Z.ltb_spec k d2); [rewrite Z.testbit_neg_r in T2 by lia; discriminate|].
      rewrite strb_all in T1, T2 by (try assumption; lia). exists (mb + k). unfold d1, d2 in *. lia.
    + intros (x & X1 & X2). exists (x - mb). unfold d1, d2 in *. split; [lia|].
      rewrite Z.land_spec, !Z.shiftl_spec by lia. rewrite !strb_all by (try assumption; lia). lia.
Qed.

Lemma req_id_mod i g : 0 <= i -> make_lsu_load_req_id i g = (g mod 2 ^ 27) * 2 ^ 4 + i mod 2 ^ 4.
Proof.
  intros I. unfold make_lsu_load_req_id, normalize_lsu_req_gen, kLsuReqIdGenBits, LDQ_IDX_WIDTH. change (31 - 4) with 27.
  rewrite !land_lo by lia. rewrite Z.shiftl_mul_pow2 by lia. rewrite w32_id.
  - rewrite Z.lor_comm, lor_hi by lia. lia.
  - unfold is_w. change (2 ^ 4) with 16. change (2 ^ 27) with 134217728. change (2 ^ 32) with 4294967296. lia.
Qed.

Local Open Scope nat_scope.
Lemma distance_spec head hf count k : head < STQ_SIZE -> count <= STQ_SIZE -> k <= STQ_SIZE ->
  stq_distance head hf count (stq_idx_after head k) (stq_tail_flag head k hf) = if k <=? count then Some k else None.
Proof.
  intros H C K. unfold stq_distance, stq_idx_after, stq_tail_flag, stq_tag_value, STQ_SIZE in *. cbv zeta.
  assert (E : ((if (if 16 <=? head + k then negb hf else hf) then 16 else 0) + (head + k) mod 16 + 16 * 2 - ((if hf then 16 else 0) + head)) mod (16 * 2) = k).
  { destruct (Nat.leb_spec 16 (head + k)); destruct hf; cbn [negb]; change (16 * 2) with 32; lia. }
  rewrite E. reflexivity.
Qed.
