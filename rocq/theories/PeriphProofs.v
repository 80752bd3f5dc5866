From Verif Require Import Base BaseLemmas MemModel MemSpec MemProofs PeriphModel PeriphSpec.
Ltac Zify.zify_post_hook ::= Z.div_mod_to_equations.
Opaque Z.pow.

(** ** Words of the physical memory *)
Lemma word_addr_spec a : is_w 32 a -> word_addr a = a - a mod 4.
Proof. apply land_fffc. Qed.
Lemma is_ram_spec a n : is_w 32 a -> is_w 32 n -> pmem_is_ram_addr a n = in_ram_b a n.
Proof.
  intros A N. unfold pmem_is_ram_addr, in_ram_b, PMEM_RAM_BASE, RAM_SIZE, wrap, is_w in *. change (2 ^ 32) with 4294967296 in *.
  change (2 ^ 64) with 18446744073709551616. rewrite (Z.mod_small (a + n)) by lia.
  destruct (Z.eqb_spec n 0); [cbn [orb]; lia|]. destruct (Z.ltb_spec a 2147483648); [cbn [orb]; lia|]. cbn [orb].
  rewrite Z.mod_small by lia. lia.
Qed.
Definition wfm (m : pmem) : Prop :=
  (forall i, is_w 32 (ram m i)) /\
  (forall a v, io m a = Some v -> is_w 32 v /\ v <> 0 /\ is_w 32 a /\ a mod 4 = 0 /\ ~ in_ram a 4).
Lemma in_ram_bP a n : in_ram_b a n = true <-> in_ram a n.
Proof. unfold in_ram_b, in_ram. lia. Qed.
Lemma wfm_init : wfm pmem_init.
Proof. split; [intros i; change (0 <= 0 < 2 ^ 32); change (2 ^ 32) with 4294967296; lia|]. intros a v H; discriminate H. Qed.
Lemma word_addr_w a : is_w 32 a -> is_w 32 (word_addr a).
Proof. intros A. rewrite word_addr_spec by exact A. unfold is_w in *. lia. Qed.
Lemma w4 : is_w 32 4. Proof. unfold is_w. change (2 ^ 32) with 4294967296. lia. Qed.
Lemma ram_idx_spec a : in_ram a 4 -> ram_idx a = (a - 2147483648) / 4.
Proof.
  unfold in_ram, ram_idx, PMEM_RAM_BASE, w32. intros H. change (2 ^ 32) with 4294967296. rewrite Z.mod_small by lia.
  rewrite Z.shiftr_div_pow2 by lia. reflexivity.
Qed.
Lemma write_wfm m a v : wfm m -> is_w 32 a -> is_w 32 v -> wfm (pmem_write m a v).
Proof.
  intros [W1 W2] A V. unfold pmem_write. rewrite is_ram_spec by (auto using word_addr_w, w4).
  destruct (in_ram_b (word_addr a) 4) eqn:R.
  - split; [|exact W2]. intros i. cbn [ram]. destruct (i =? ram_idx (word_addr a)); auto.
  - assert (NR : ~ in_ram (word_addr a) 4) by (rewrite <- in_ram_bP, R; discriminate).
    destruct (Z.eqb_spec v 0) as [E|NE].
    + split; [exact W1|]. cbn [io]. intros b u. destruct (b =? word_addr a); [discriminate|apply W2].
    + split; [exact W1|]. cbn [io]. intros b u. destruct (Z.eqb_spec b (word_addr a)) as [->|]; [|apply W2].
      intros E; injection E as <-. split; [exact V|]. split; [exact NE|]. split; [now apply word_addr_w|]. split; [|exact NR].
      rewrite word_addr_spec by exact A. unfold is_w in A. lia.
Qed.
Lemma read_word m a : wfm m -> is_w 32 a -> is_w 32 (pmem_read m a).
Proof.
  intros [W1 W2] A. unfold pmem_read. destruct (pmem_is_ram_addr (word_addr a) 4); [apply W1|].
  destruct (io m (word_addr a)) eqn:E; [now apply W2 in E|]. unfold is_w. change (2 ^ 32) with 4294967296. lia.
Qed.
Lemma read_write m a v b : is_w 32 a -> is_w 32 b -> is_w 32 v ->
  pmem_read (pmem_write m a v) b = if b / 4 =? a / 4 then v else pmem_read m b.
Proof.
  intros A B V. unfold pmem_read, pmem_write.
  assert (EQ : (b / 4 =? a / 4) = (word_addr b =? word_addr a)).
  { rewrite !word_addr_spec by assumption. unfold is_w in *. destruct (Z.eqb_spec (b / 4) (a / 4)), (Z.eqb_spec (b - b mod 4) (a - a mod 4)); lia. }
  rewrite EQ. rewrite !is_ram_spec by (auto using word_addr_w, w4).
  destruct (in_ram_b (word_addr a) 4) eqn:RA.
  - cbn [ram io]. destruct (in_ram_b (word_addr b) 4) eqn:RB.
    + apply in_ram_bP in RA, RB. rewrite !ram_idx_spec by assumption.
      rewrite !word_addr_spec in * by assumption. unfold is_w, in_ram in *.
      destruct (Z.eqb_spec ((b - b mod 4 - 2147483648) / 4) ((a - a mod 4 - 2147483648) / 4)), (Z.eqb_spec (b - b mod 4) (a - a mod 4)); try reflexivity; lia.
    + destruct (Z.eqb_spec (word_addr b) (word_addr a)) as [E|]; [rewrite E in RB; congruence|reflexivity].
  - destruct (Z.eqb_spec v 0) as [->|NV]; cbn [ram io].
    + destruct (in_ram_b (word_addr b) 4) eqn:RB.
      * destruct (Z.eqb_spec (word_addr b) (word_addr a)) as [E|]; [rewrite E in RB; congruence|reflexivity].
      * destruct (word_addr b =? word_addr a); reflexivity.
    + destruct (in_ram_b (word_addr b) 4) eqn:RB.
      * destruct (Z.eqb_spec (word_addr b) (word_addr a)) as [E|]; [rewrite E in RB; congruence|reflexivity].
      * destruct (word_addr b =? word_addr a); reflexivity.
Qed.
Lemma read_aligned m a b : is_w 32 a -> is_w 32 b -> a / 4 = b / 4 -> pmem_read m a = pmem_read m b.
Proof.
  intros A B E. unfold pmem_read. assert (word_addr a = word_addr b) as ->; [|reflexivity].
  rewrite !word_addr_spec by assumption. unfold is_w in *. lia.
Qed.

(** ** Byte view *)
Definition pb (m : pmem) (x : Z) : Z := (pmem_read m x / 256 ^ (x mod 4)) mod 256.
Definition pw (m : pmem) (i : Z) : Z := pmem_read m (4 * i).
Lemma pb_bytes m x : 0 <= x < 2 ^ 32 -> pb m x = bytes_of (pw m) x.
Proof.
  intros X. unfold pb, bytes_of, pw. rewrite (read_aligned m x (4 * (x / 4))); [reflexivity| | |];
    unfold is_w; change (2 ^ 32) with 4294967296 in *; lia.
Qed.
Lemma bytes_of_ext W W' x : W (x / 4) = W' (x / 4) -> bytes_of W x = bytes_of W' x.
Proof. intros E. unfold bytes_of. now rewrite E. Qed.
(** A whole-word write. *)
Lemma pb_write m a v x : is_w 32 a -> is_w 32 v -> 0 <= x < 2 ^ 32 ->
  pb (pmem_write m a v) x = if x / 4 =? a / 4 then (v / 256 ^ (x mod 4)) mod 256 else pb m x.
Proof. intros A V X. unfold pb. rewrite read_write by assumption. destruct (x / 4 =? a / 4); reflexivity. Qed.
Lemma pb_write4 m a v x : is_w 32 a -> is_w 32 v -> a mod 4 = 0 -> 0 <= x < 2 ^ 32 ->
  pb (pmem_write m a v) x = store_bytes (pb m) a 4 v x.
Proof.
  intros A V AL X. rewrite pb_write by assumption. unfold store_bytes.
  destruct (Z.eqb_spec (x / 4) (a / 4)); destruct (Z.leb_spec a x), (Z.ltb_spec x (a + 4)); cbn [andb]; try (exfalso; lia); try reflexivity.
  do 3 f_equal. lia.
Qed.

(** The masked read-modify-write of a sub-word store is a byte store. *)
Lemma lnot_w m i : 0 <= i < 32 -> Z.testbit (w32 (Z.lnot m)) i = negb (Z.testbit m i).
Proof. intros I. rewrite testbit_w32, Z.lnot_spec by lia. replace (i <? 32) with true by lia. reflexivity. Qed.
Lemma rmw_bits old d a f i : store_f3 f -> aligned a f -> 0 <= i < 32 ->
  let shift := Z.land a 3 * 8 in
  let mask := w32 (Z.shiftl (mask_store_mask f) shift) in
  let wdata := w32 (Z.shiftl (mask_store_data d f) shift) in
  Z.testbit (Z.lor (Z.land old (w32 (Z.lnot mask))) (Z.land wdata mask)) i =
  Z.testbit (apply_strobe old (align_store_data d a f) (get_store_strb a f)) i.
Proof.
  intros F AL I. cbv zeta. rewrite strobe_bits by exact I.
  rewrite Z.lor_spec, !Z.land_spec, lnot_w by exact I.
  assert (M : Z.testbit (w32 (Z.shiftl (mask_store_mask f) (Z.land a 3 * 8))) i = Z.testbit (get_store_strb a f) (i / 8)).
  { rewrite strb_spec by (try assumption; lia). rewrite land3, testbit_w32, Z.shiftl_spec by lia. replace (i <? 32) with true by lia. cbn [andb].
    unfold aligned in AL. cases F; cbn [mask_store_mask]; unfold mask_store_mask.
    - change (Z.land 0 3 =? 0) with true. cbv iota. change 255 with (2 ^ 8 - 1). change (size 0) with 1 in *.
      destruct (Z.leb_spec (a mod 4 * 8) i).
      + rewrite testbit_ones_pred by lia. lia.
      + rewrite Z.testbit_neg_r by lia. lia.
    - change (Z.land 1 3 =? 0) with false. change (Z.land 1 3 =? 1) with true. cbv iota. change 65535 with (2 ^ 16 - 1). change (size 1) with 2 in *.
      destruct (Z.leb_spec (a mod 4 * 8) i).
      + rewrite testbit_ones_pred by lia. lia.
      + rewrite Z.testbit_neg_r by lia. lia.
    - change (Z.land 2 3 =? 0) with false. change (Z.land 2 3 =? 1) with false. cbv iota. change 4294967295 with (2 ^ 32 - 1). change (size 2) with 4 in *.
      destruct (Z.leb_spec (a mod 4 * 8) i).
      + rewrite testbit_ones_pred by lia. lia.
      + rewrite Z.testbit_neg_r by lia. lia. }
  rewrite M.
  destruct (Z.testbit (get_store_strb a f) (i / 8)) eqn:SB; [|rewrite andb_true_r, andb_false_r, orb_false_r; reflexivity].
  cbn [negb]. rewrite andb_false_r, andb_true_r. cbn [orb].
  assert (RG : (a mod 4) * 8 <= i < (a mod 4) * 8 + 8 * size f).
  { rewrite strb_spec in SB by (try assumption; lia). lia. }
  rewrite align_bits by assumption.
  rewrite land3, testbit_w32, Z.shiftl_spec by lia. replace (i <? 32) with true by lia. cbn [andb].
  unfold mask_store_data. unfold aligned in AL. cases F.
  - change (Z.land 0 3 =? 0) with true. cbv iota. change (size 0) with 1 in *. change 255 with (2 ^ 8 - 1).
    rewrite Z.land_spec, testbit_ones_pred by lia. replace (i - a mod 4 * 8 <? 8) with true by lia. apply andb_true_r.
  - change (Z.land 1 3 =? 0) with false. change (Z.land 1 3 =? 1) with true. cbv iota. change (size 1) with 2 in *. change 65535 with (2 ^ 16 - 1).
    rewrite Z.land_spec, testbit_ones_pred by lia. replace (i - a mod 4 * 8 <? 16) with true by lia. apply andb_true_r.
  - reflexivity.
Qed.
Definition rmw (old d a f : Z) : Z :=
  let shift := Z.land a 3 * 8 in
  let mask := w32 (Z.shiftl (mask_store_mask f) shift) in
  let wdata := w32 (Z.shiftl (mask_store_data d f) shift) in
  Z.lor (Z.land old (w32 (Z.lnot mask))) (Z.land wdata mask).
Lemma rmw_w old d a f : is_w 32 old -> is_w 32 (rmw old d a f).
Proof.
  intros O. unfold rmw. cbv zeta. apply is_w_lor; [lia| |].
  - apply is_w_land; [lia|exact O|]. apply (w32_range (Z.lnot _)).
  - apply is_w_land; [lia|apply w32_range|]. apply (w32_range (Z.shiftl _ _)).
Qed.
Lemma pb_store m a d f x : wfm m -> is_w 32 a -> store_f3 f -> aligned a f -> 0 <= x < 2 ^ 32 ->
  pb (pmem_write m a (rmw (pmem_read m a) d a f)) x = store_bytes (pb m) a (size f) d x.
Proof.
  intros W A F AL X.
  transitivity (bytes_of (word_store (pw m) a f d) x).
  - rewrite pb_bytes by exact X. unfold bytes_of, word_store. unfold pw at 1.
    assert (XI : is_w 32 (4 * (x / 4))) by (unfold is_w; change (2 ^ 32) with 4294967296 in *; lia).
    rewrite read_write; [|exact A|exact XI|apply rmw_w, read_word; assumption].
    replace (4 * (x / 4) / 4) with (x / 4) by lia. destruct (Z.eqb_spec (x / 4) (a / 4)) as [E|]; [|reflexivity].
    apply byte_ext; [lia|lia|]. intros j J. unfold rmw. rewrite rmw_bits by (try assumption; lia).
    unfold pw. rewrite (read_aligned m (4 * (x / 4)) a) by (try assumption; lia). reflexivity.
  - rewrite word_store_spec by assumption. unfold store_bytes. destruct ((a <=? x) && (x <? a + size f)); [reflexivity|]. now rewrite pb_bytes.
Qed.

(** ** memcpy *)
Lemma ram_byte_spec r o : ram_byte r o = (r (o / 4) / 256 ^ (o mod 4)) mod 256.
Proof.
  unfold ram_byte. rewrite land255, Z.shiftr_div_pow2 by lia. do 2 f_equal. change 256 with (2 ^ 8). rewrite <- Z.pow_mul_r by lia. reflexivity.
Qed.
Lemma set_byte_get r o b x : (forall i, is_w 32 (r i)) -> 
  ram_byte (ram_set_byte r o b) x = if x =? o then b mod 256 else ram_byte r x.
Proof.
  intros W. rewrite !ram_byte_spec. unfold ram_set_byte.
  destruct (Z.eqb_spec (x / 4) (o / 4)) as [E|NE]; [|destruct (Z.eqb_spec x o); [exfalso; apply NE; congruence|reflexivity]].
  destruct (Z.eqb_spec x o) as [->|NX].
  - transitivity ((b / 256 ^ 0) mod 256); [|f_equal; rewrite Z.pow_0_r; apply Z.div_1_r].
    apply byte_ext; [lia|lia|]. intros j J. rewrite Z.mul_0_r, Z.add_0_r, Z.lor_spec, Z.land_spec, Z.lnot_spec by lia.
    rewrite !Z.shiftl_spec by lia. replace (j + 8 * (o mod 4) - 8 * (o mod 4)) with j by lia.
    change 255 with (2 ^ 8 - 1). rewrite Z.land_spec, !testbit_ones_pred by lia. replace (j <? 8) with true by lia. cbn [negb].
    rewrite andb_false_r, andb_true_r. reflexivity.
  - apply byte_ext; [lia|lia|]. intros j J. rewrite Z.lor_spec, Z.land_spec, Z.lnot_spec by lia.
    rewrite !Z.shiftl_spec by lia. rewrite E in *.
    assert (D : j + 8 * (x mod 4) - 8 * (o mod 4) < 0 \/ 8 <= j + 8 * (x mod 4) - 8 * (o mod 4)) by lia.
    change 255 with (2 ^ 8 - 1). destruct D as [D|D].
    + rewrite !(Z.testbit_neg_r _ (j + 8 * (x mod 4) - 8 * (o mod 4))) by lia. rewrite orb_false_r. cbn [negb]. apply andb_true_r.
    + rewrite Z.land_spec, !testbit_ones_pred by lia. replace (j + 8 * (x mod 4) - 8 * (o mod 4) <? 8) with false by lia.
      rewrite andb_false_r, orb_false_r. cbn [negb]. apply andb_true_r.
Qed.
Lemma set_byte_w r o b : (forall i, is_w 32 (r i)) -> forall i, is_w 32 (ram_set_byte r o b i).
Proof.
  intros W i. unfold ram_set_byte. destruct (i =? o / 4); [|apply W].
  assert (NN : 0 <= Z.lor (Z.land (r i) (Z.lnot (Z.shiftl 255 (8 * (o mod 4))))) (Z.shiftl (Z.land b 255) (8 * (o mod 4)))).
  { apply Z.lor_nonneg. split; [apply Z.land_nonneg; left; apply W|]. apply Z.shiftl_nonneg, Z.land_nonneg. right; lia. }
  apply is_w_bound_bits; [lia|exact NN|]. intros j J. rewrite Z.lor_spec, Z.land_spec, Z.shiftl_spec by lia.
  rewrite (is_w_testbit 32 (r i) j) by (auto; lia). cbn [andb orb]. change 255 with (2 ^ 8 - 1). rewrite Z.land_spec, testbit_ones_pred by lia.
  replace (j - 8 * (o mod 4) <? 8) with false by lia. apply andb_false_r.
Qed.
Lemma cpy_to_spec src : forall r off, (forall i, is_w 32 (r i)) ->
  (forall i, is_w 32 (cpy_to r off src i)) /\
  forall x, ram_byte (cpy_to r off src) x =
    if (off <=? x) && (x <? off + Z.of_nat (length src)) then (nth (Z.to_nat (x - off)) src 0) mod 256 else ram_byte r x.
Proof.
  induction src as [|b t IH]; intros r off W.
  - split; [exact W|]. intros x. cbn [cpy_to length]. replace ((off <=? x) && (x <? off + Z.of_nat 0)) with false by lia. reflexivity.
  - cbn [cpy_to]. destruct (IH (ram_set_byte r off b) (off + 1) (set_byte_w r off b W)) as [I1 I2]. split; [exact I1|].
    intros x. rewrite I2, set_byte_get by exact W. cbn [length].
    destruct (Z.eqb_spec x off) as [->|NE].
    + replace ((off + 1 <=? off) && (off <? off + 1 + Z.of_nat (length t))) with false by lia.
      replace ((off <=? off) && (off <? off + Z.of_nat (S (length t)))) with true by lia.
      replace (off - off) with 0 by lia. reflexivity.
    + replace ((off <=? x) && (x <? off + Z.of_nat (S (length t)))) with ((off + 1 <=? x) && (x <? off + 1 + Z.of_nat (length t))) by lia.
      destruct ((off + 1 <=? x) && (x <? off + 1 + Z.of_nat (length t))) eqn:C; [|reflexivity].
      replace (Z.to_nat (x - off)) with (S (Z.to_nat (x - (off + 1)))) by lia. reflexivity.
Qed.
Lemma cpy_from_len r n : forall off, length (cpy_from r off n) = n.
Proof. induction n as [|n IH]; intros off; cbn [cpy_from length]; [reflexivity|now rewrite IH]. Qed.
Lemma cpy_from_nth r n : forall off k, (k < n)%nat -> nth k (cpy_from r off n) 0 = ram_byte r (off + Z.of_nat k).
Proof.
  induction n as [|n IH]; intros off k K; [lia|]. cbn [cpy_from]. destruct k as [|k]; cbn [nth]; [f_equal; lia|].
  rewrite IH by lia. f_equal. lia.
Qed.
Lemma ram_byte_pb m x : 0 <= x < 2 ^ 32 -> in_ram (x - x mod 4) 4 -> pb m x = ram_byte (ram m) (x - 2147483648).
Proof.
  intros X R. unfold pb, pmem_read. change (2 ^ 32) with 4294967296 in *.
  rewrite word_addr_spec by (unfold is_w; change (2 ^ 32) with 4294967296; lia).
  rewrite is_ram_spec by (unfold is_w; change (2 ^ 32) with 4294967296; lia).
  apply in_ram_bP in R. rewrite R. apply in_ram_bP in R. rewrite ram_idx_spec by exact R. rewrite ram_byte_spec.
  unfold in_ram in R. replace ((x - 2147483648) mod 4) with (x mod 4) by lia. do 3 f_equal. lia.
Qed.
Lemma in_ram_word x a n : in_ram a n -> a <= x < a + n -> in_ram (x - x mod 4) 4.
Proof. unfold in_ram. lia. Qed.
Lemma nib_byte x : 0 <= x < 256 -> x mod 256 = x. Proof. lia. Qed.
Lemma copy_spec m src dst n : wfm m -> is_w 32 src -> is_w 32 dst -> is_w 32 n -> in_ram src n -> in_ram dst n ->
  exists tmp m', pmem_memcpy_from_ram m src n = Some tmp /\ pmem_memcpy_to_ram m dst tmp = Some m' /\ wfm m' /\ io m' = io m /\
    forall x, 0 <= x < 2 ^ 32 -> pb m' x = moved (pb m) src dst n x.
Proof.
  intros W SW DW NW SR DR. assert (NN : 0 < n) by apply SR. unfold pmem_memcpy_from_ram.
  assert (NB : n <= RAM_SIZE) by (unfold RAM_SIZE; unfold in_ram in SR; lia).
  replace (n =? 0) with false by lia. replace (RAM_SIZE <? n) with false by lia. rewrite (w32_id n) by exact NW.
  rewrite is_ram_spec by assumption. rewrite (proj2 (in_ram_bP src n) SR). cbn [negb].
  set (tmp := cpy_from _ _ _). exists tmp.
  assert (LT : length tmp = Z.to_nat n) by apply cpy_from_len.
  unfold pmem_memcpy_to_ram. rewrite LT, Z2Nat.id by lia.
  replace (n =? 0) with false by lia. replace (RAM_SIZE <? n) with false by lia. rewrite (w32_id n) by exact NW.
  rewrite is_ram_spec by assumption. rewrite (proj2 (in_ram_bP dst n) DR). cbn [negb].
  eexists. split; [reflexivity|]. split; [reflexivity|].
  assert (DO : w32 (dst - PMEM_RAM_BASE) = dst - 2147483648).
  { unfold PMEM_RAM_BASE. apply w32_id. unfold is_w, in_ram in *. change (2 ^ 32) with 4294967296 in *. lia. }
  assert (SO : w32 (src - PMEM_RAM_BASE) = src - 2147483648).
  { unfold PMEM_RAM_BASE. apply w32_id. unfold is_w, in_ram in *. change (2 ^ 32) with 4294967296 in *. lia. }
  rewrite DO. destruct (cpy_to_spec tmp (ram m) (dst - 2147483648) (proj1 W)) as [C1 C2].
  split; [split; [exact C1|exact (proj2 W)]|]. split; [reflexivity|].
  intros x X. unfold moved.
  destruct (in_ram_b (x - x mod 4) 4) eqn:RX.
  - apply in_ram_bP in RX. rewrite ram_byte_pb by assumption. cbn [ram]. rewrite C2, LT, Z2Nat.id by lia.
    replace ((dst - 2147483648 <=? x - 2147483648) && (x - 2147483648 <? dst - 2147483648 + n)) with ((dst <=? x) && (x <? dst + n)) by lia.
    destruct ((dst <=? x) && (x <? dst + n)) eqn:C; [|now rewrite ram_byte_pb].
    unfold tmp. rewrite cpy_from_nth by lia. rewrite SO.
    assert (B : 0 <= x - dst + src < 2 ^ 32) by (unfold in_ram in *; change (2 ^ 32) with 4294967296; lia).
    assert (SR' : in_ram (x - dst + src - (x - dst + src) mod 4) 4) by (apply (in_ram_word _ src n SR); lia).
    rewrite (ram_byte_pb m) by assumption.
    rewrite nib_byte by (rewrite ram_byte_spec; apply Z.mod_pos_bound; lia). f_equal. lia.
  - replace ((dst <=? x) && (x <? dst + n)) with false.
    2:{ symmetry. destruct ((dst <=? x) && (x <? dst + n)) eqn:C; [|reflexivity]. assert (in_ram (x - x mod 4) 4) by (apply (in_ram_word _ dst n DR); lia).
        apply in_ram_bP in H. congruence. }
    unfold pb, pmem_read. rewrite word_addr_spec by (unfold is_w; lia).
    rewrite is_ram_spec, RX; [reflexivity| |apply w4]. unfold is_w. change (2 ^ 32) with 4294967296 in *. lia.
Qed.

(** ** Refinement *)
Ltac sp := repeat match goal with |- _ /\ _ => split end.
Ltac cb := cbn [p_mem p_off p_cmp p_src p_dst p_len p_ctrl p_stat p_uart p_dma p_tv p_tirq p_ev p_eirq p_out p_sync p_dead
  set_mem set_timer set_dma set_pend set_inj set_log set_stat update_timer_irq periph_init
  d_mem d_now d_cmp d_src d_dst d_len d_ien d_stat d_uart d_dma d_out d_sync with_mem with_timer with_regs with_pend with_out post_claim].

Definition R (p : periph) (t : Z) (d : dev) : Prop :=
  wfm (p_mem p) /\ 0 <= t < 2 ^ 63 /\ is_w 64 (p_cmp p) /\ is_w 32 (p_src p) /\ is_w 32 (p_dst p) /\ is_w 32 (p_len p) /\ is_w 32 (p_stat p) /\
  agrees p t d.
Lemma dev_range a : is_w 32 a -> is_modeled_mmio a = in_dev a.
Proof.
  intros A. unfold is_modeled_mmio, in_dev, in_range, UART_ADDR_BASE, UART_MMIO_SIZE, PLIC_ADDR_BASE, PLIC_MMIO_SIZE, DMA_ADDR_BASE, DMA_MMIO_SIZE, TIMER_BASE, TIMER_MMIO_SIZE.
  unfold is_w, w32 in *. change (2 ^ 32) with 4294967296 in *.
  assert (G : forall b s, 0 <= b -> 0 <= s -> (if a <? b then false else (a - b) mod 4294967296 <? s) = (b <=? a) && (a <? b + s)).
  { intros b s B SS. destruct (Z.ltb_spec a b); [lia|]. rewrite Z.mod_small by lia. lia. }
  rewrite !G by lia. reflexivity.
Qed.
Lemma sim_time_id t : 0 <= t -> current_sim_time_u64 t = t.
Proof. intros T. unfold current_sim_time_u64. replace (0 <=? t) with true by lia. reflexivity. Qed.
Lemma lo_half x v : is_w 64 x -> is_w 32 v -> Z.lor (Z.land x 18446744069414584320) v = set_lo x v.
Proof.
  intros X V. unfold set_lo. rewrite <- (Z.mul_comm (2 ^ 32)), (Z.mul_comm (2 ^ 32)). rewrite Z.add_comm, <- lor_hi by (try exact V; lia).
  rewrite Z.lor_comm. f_equal. apply Z.bits_inj'. intros i I. rewrite Z.land_spec.
  change 18446744069414584320 with ((2 ^ 32 - 1) * 2 ^ 32).
  destruct (Z.ltb_spec i 32).
  - rewrite !Z.mul_pow2_bits_low by lia. apply andb_false_r.
  - rewrite !Z.mul_pow2_bits by lia. rewrite Z.div_pow2_bits by lia. replace (i - 32 + 32) with i by lia.
    destruct (Z.ltb_spec i 64).
    + rewrite testbit_ones_pred by lia. replace (i - 32 <? 32) with true by lia. apply andb_true_r.
    + rewrite (is_w_testbit 64 x i) by (try assumption; lia). reflexivity.
Qed.
Lemma hi_half x v : is_w 32 v -> Z.lor (wrap 64 (Z.shiftl v 32)) (Z.land x 4294967295) = set_hi x v.
Proof.
  intros V. unfold set_hi. change 4294967295 with (2 ^ 32 - 1). rewrite land_lo by lia. rewrite Z.shiftl_mul_pow2 by lia.
  rewrite wrap_id by (unfold is_w in *; change (2 ^ 32) with 4294967296 in *; change (2 ^ 64) with 18446744073709551616; lia).
  rewrite Z.lor_comm, lor_hi by (try apply Z.mod_pos_bound; lia). lia.
Qed.
Lemma set_lo_w x v : is_w 64 x -> is_w 32 v -> is_w 64 (set_lo x v).
Proof. unfold set_lo, is_w. change (2 ^ 32) with 4294967296. change (2 ^ 64) with 18446744073709551616. lia. Qed.
Lemma set_hi_w x v : is_w 32 v -> is_w 64 (set_hi x v).
Proof. unfold set_hi, is_w. change (2 ^ 32) with 4294967296. change (2 ^ 64) with 18446744073709551616. lia. Qed.
Lemma eff_w p t : is_w 64 (effective_timer_value p t).
Proof. apply wrap_range. lia. Qed.
Lemma eff_set p t v c : 0 <= t -> is_w 64 v -> effective_timer_value (set_timer p (wrap 64 (v - current_sim_time_u64 t)) c) t = v.
Proof.
  intros T V. unfold effective_timer_value. cbn [p_off set_timer]. rewrite sim_time_id by exact T. unfold wrap.
  rewrite Zplus_mod_idemp_r. replace (t + (v - t)) with v by lia. apply Z.mod_small. exact V.
Qed.

Ltac ag := match goal with H : R ?p ?t ?d |- _ =>
  let WM := fresh "WM" in let TT := fresh "TT" in
  destruct H as (WM & TT & WC & WS & WD & WL & WT & AM & AN & AC & AS & AD & AL & AI & AT & AU & AX & AO & AY & AZ) end.
Lemma claim_w d : is_w 32 (claim d).
Proof. unfold claim, is_w. change (2 ^ 32) with 4294967296. destruct (d_dma d), (d_uart d); lia. Qed.
Lemma plic_w : is_w 32 PLIC_CLAIM_ADDR. Proof. unfold PLIC_CLAIM_ADDR, is_w. change (2 ^ 32) with 4294967296. lia. Qed.
Lemma R_ext p t d : R p t d -> R (update_external_irq p) t (post_claim d).
Proof.
  intros H. ag. unfold update_external_irq. cbv zeta.
  assert (CL : (if p_dma p then DMA_PLIC_IRQ_ID else if p_uart p then UART_PLIC_IRQ_ID else 0) = claim d) by (unfold claim; rewrite AU, AX; reflexivity).
  rewrite CL. unfold R, agrees. cb.
  sp; try assumption; try reflexivity; try lia.
  - apply write_wfm; [assumption|apply plic_w|apply claim_w].
  - intros x X. change (pb (pmem_write (p_mem p) PLIC_CLAIM_ADDR (claim d)) x = store_bytes (d_mem d) 203427844 4 (claim d) x).
    rewrite pb_write4; [|apply plic_w|apply claim_w|reflexivity|exact X]. unfold store_bytes.
    change PLIC_CLAIM_ADDR with 203427844. destruct ((203427844 <=? x) && (x <? 203427844 + 4)); [reflexivity|]. apply AM, X.
Qed.
Lemma R_tim p t d : R p t d -> R (update_timer_irq p t) t d.
Proof. intros H. exact H. Qed.
Lemma R_mem p t d m b : R p t d -> wfm m -> (forall x, 0 <= x < 2 ^ 32 -> pb m x = b x) -> R (set_mem p m) t (with_mem d b).
Proof. intros H W B. ag. unfold R, agrees. cb. sp; first [assumption | reflexivity | lia]. Qed.
Lemma R_dmaregs p t d s e l c st ien : R p t d -> is_w 32 s -> is_w 32 e -> is_w 32 l -> is_w 32 st -> Z.testbit c 1 = ien ->
  R (set_dma p s e l c st) t (with_regs d s e l ien st).
Proof. intros H ? ? ? ? ?. ag. unfold R, agrees. cb. sp; first [assumption | reflexivity | lia]. Qed.
Lemma R_pend p t d u v : R p t d -> R (set_pend p u v) t (with_pend d u v).
Proof. intros H. ag. unfold R, agrees. cb. sp; first [assumption | reflexivity | lia]. Qed.
Lemma R_log p t d o s : R p t d -> R (set_log p o s (p_dead p)) t (with_out d o s).
Proof. intros H. ag. unfold R, agrees. cb. sp; first [assumption | reflexivity | lia]. Qed.
Lemma R_time p t d off cmp : R p t d -> is_w 64 cmp ->
  R (set_timer p off cmp) t (with_timer d (effective_timer_value (set_timer p off cmp) t) cmp).
Proof. intros H ?. ag. unfold R, agrees. cb. sp; first [assumption | reflexivity | lia]. Qed.
Lemma eff_same p t c : effective_timer_value (set_timer p (p_off p) c) t = effective_timer_value p t.
Proof. reflexivity. Qed.
Lemma w_small k : 0 <= k < 256 -> is_w 32 k.
Proof. unfold is_w. change (2 ^ 32) with 4294967296. lia. Qed.

Lemma R_dma p t d : R p t d -> R (start_dma_transfer p) t (spec_dma d).
Proof.
  intros H. unfold start_dma_transfer, spec_dma.
  assert (H1 : R (set_stat p 1) t (with_regs d (d_src d) (d_dst d) (d_len d) (d_ien d) 1)).
  { pose proof H as H0. ag. rewrite <- AS, <- AD, <- AL. apply R_dmaregs; try assumption. apply w_small; lia. }
  pose proof H as H0. ag. cbv zeta.
  change (p_len (set_stat p 1)) with (p_len p). change (p_src (set_stat p 1)) with (p_src p). change (p_dst (set_stat p 1)) with (p_dst p).
  rewrite !is_ram_spec by assumption.
  replace ((0 <? p_len p) && in_ram_b (p_src p) (p_len p) && in_ram_b (p_dst p) (p_len p))
    with (in_ram_b (d_src d) (d_len d) && in_ram_b (d_dst d) (d_len d)).
  2:{ rewrite <- AS, <- AD, <- AL. unfold in_ram_b. lia. }
  destruct (in_ram_b (d_src d) (d_len d) && in_ram_b (d_dst d) (d_len d)) eqn:V; cbn [negb].
  - apply andb_true_iff in V. destruct V as [V1 V2]. apply in_ram_bP in V1, V2. rewrite <- AS, <- AL in V1. rewrite <- AD, <- AL in V2.
    destruct (copy_spec (p_mem p) (p_src p) (p_dst p) (p_len p) WM WS WD WL V1 V2) as (tmp & m' & E1 & E2 & W' & _ & B).
    change (p_mem (set_stat p 1)) with (p_mem p). rewrite E1, E2. cbn zeta.
    set (q := set_stat (set_log (set_mem (set_stat p 1) m') (p_out (set_mem (set_stat p 1) m'))
       ((p_dst (set_mem (set_stat p 1) m'), p_len (set_mem (set_stat p 1) m')) :: p_sync (set_mem (set_stat p 1) m')) (p_dead (set_mem (set_stat p 1) m'))) 2).
    set (e := with_regs _ _ _ _ _ 2).
    assert (Q : R q t e).
    { unfold R, agrees, q, e. cb. sp; try assumption; try reflexivity; try lia; try apply W'; try congruence; try (apply w_small; lia).
      intros x X. change (pb m' x = moved (d_mem d) (d_src d) (d_dst d) (d_len d) x). rewrite B by exact X. unfold moved. rewrite AD, AL, AS.
      destruct ((d_dst d <=? x) && (x <? d_dst d + d_len d)) eqn:C; [|apply AM, X]. apply AM.
      unfold in_ram in V1. rewrite AS, AL in V1. change (2 ^ 32) with 4294967296. lia. }
    change (p_ctrl q) with (p_ctrl p). change (d_ien e) with (d_ien d). change (nz (Z.land (p_ctrl p) 2)) with (nz (Z.land (p_ctrl p) (2 ^ 1))). rewrite (nz_bit (p_ctrl p) 1) by lia. rewrite AI.
    destruct (d_ien d) eqn:IE; [|exact Q].
    apply R_ext. replace (p_uart q) with (d_uart e) by (rewrite <- AU; reflexivity). apply R_pend, Q.
  - assert (F := R_dmaregs _ _ _ (p_src p) (p_dst p) (p_len p) (p_ctrl p) 4 (d_ien d) H1 WS WD WL (w_small 4 ltac:(lia)) AI).
    rewrite AS, AD, AL in F. unfold R, agrees in F |- *. cbn [p_mem p_off p_cmp p_src p_dst p_len p_ctrl p_stat p_uart p_dma p_out p_sync p_dead set_stat set_dma d_mem d_now d_cmp d_src d_dst d_len d_ien d_stat d_uart d_dma d_out d_sync with_regs] in F |- *. rewrite AS, AD, AL. exact F.
Qed.

Lemma step_store p t d a v f : R p t d -> is_w 32 a -> is_w 32 v -> store_f3 f -> aligned a f ->
  R (on_commit_store p t a v f) t (spec_store d a v f).
Proof.
  intros H A V F AL0. unfold on_commit_store, spec_store. rewrite dev_range by exact A.
  destruct (in_dev a) eqn:ID; cbn [negb]; [|exact H].
  unfold TIMER_LOW_ADDR, TIMER_HIGH_ADDR, TIMERCMP_LOW_ADDR, TIMERCMP_HIGH_ADDR, DMA_SRC_ADDR, DMA_DST_ADDR, DMA_LEN_ADDR, DMA_CTRL_ADDR, DMA_STATUS_ADDR.
  pose proof H as HH. ag.
  destruct (Z.eqb_spec a 533782528) as [->|N1].
  { cbn [orb]. cbv zeta. rewrite lo_half by (try assumption; apply eff_w). apply R_tim.
    assert (G := R_time p t d (wrap 64 (set_lo (effective_timer_value p t) v - current_sim_time_u64 t)) (p_cmp p) H WC).
    rewrite eff_set in G by (lia || (apply set_lo_w; [apply eff_w|assumption])). rewrite <- AN, <- AC. exact G. }
  destruct (Z.eqb_spec a 533782532) as [->|N2].
  { cbn [orb]. cbv zeta. rewrite hi_half by assumption. apply R_tim.
    assert (G := R_time p t d (wrap 64 (set_hi (effective_timer_value p t) v - current_sim_time_u64 t)) (p_cmp p) H WC).
    rewrite eff_set in G by (lia || (apply set_hi_w; assumption)). rewrite <- AN, <- AC. exact G. }
  cbn [orb].
  destruct (Z.eqb_spec a 533782536) as [->|N3].
  { apply R_tim. rewrite lo_half by assumption. assert (G := R_time p t d (p_off p) (set_lo (p_cmp p) v) H (set_lo_w _ _ WC V)).
    rewrite eff_same in G. rewrite <- AN, <- AC. exact G. }
  destruct (Z.eqb_spec a 533782540) as [->|N4].
  { apply R_tim. rewrite hi_half by assumption. assert (G := R_time p t d (p_off p) (set_hi (p_cmp p) v) H (set_hi_w _ _ V)).
    rewrite eff_same in G. rewrite <- AN, <- AC. exact G. }
  destruct (Z.eqb_spec a 533786624) as [->|N5].
  { rewrite <- AD, <- AL, <- AT. apply R_dmaregs; assumption. }
  destruct (Z.eqb_spec a 533786628) as [->|N6].
  { rewrite <- AS, <- AL, <- AT. apply R_dmaregs; assumption. }
  destruct (Z.eqb_spec a 533786632) as [->|N7].
  { rewrite <- AS, <- AD, <- AT. apply R_dmaregs; assumption. }
  destruct (Z.eqb_spec a 533786636) as [->|N8].
  { cbv zeta. change (nz (Z.land v 1)) with (nz (Z.land v (2 ^ 0))). rewrite (nz_bit v 0) by lia.
    assert (G : R (set_dma p (p_src p) (p_dst p) (p_len p) (Z.land v 2) (p_stat p)) t
                  (with_regs d (d_src d) (d_dst d) (d_len d) (Z.testbit v 1) (d_stat d))).
    { rewrite <- AS, <- AD, <- AL, <- AT. apply R_dmaregs; try assumption. rewrite Z.land_spec. apply andb_true_r. }
    destruct (Z.testbit v 0); [apply R_dma, G|exact G]. }
  destruct (Z.eqb_spec a 533786640) as [->|N9].
  { unfold set_stat. rewrite <- AS, <- AD, <- AL, <- AT.
    assert (E : Z.land (p_stat p) (w32 (Z.lnot v)) = Z.ldiff (p_stat p) v).
    { apply Z.bits_inj'. intros i I. rewrite Z.land_spec, Z.ldiff_spec. destruct (Z.ltb_spec i 32).
      - rewrite lnot_w by lia. reflexivity.
      - rewrite (is_w_testbit 32 (p_stat p) i) by (try assumption; lia). reflexivity. }
    rewrite <- E. apply R_dmaregs; try assumption. apply is_w_land; [lia|assumption|apply (w32_range (Z.lnot v))]. }
  cbv zeta. change (Z.lor (Z.land (pmem_read (p_mem p) a) (w32 (Z.lnot (w32 (Z.shiftl (mask_store_mask f) (Z.land a 3 * 8))))))
             (Z.land (w32 (Z.shiftl (mask_store_data v f) (Z.land a 3 * 8))) (w32 (Z.shiftl (mask_store_mask f) (Z.land a 3 * 8)))))
    with (rmw (pmem_read (p_mem p) a) v a f).
  set (m := pmem_write (p_mem p) a (rmw (pmem_read (p_mem p) a) v a f)).
  assert (WM1 : wfm m) by (apply write_wfm; try assumption; apply rmw_w, read_word; assumption).
  assert (PB : forall x, 0 <= x < 2 ^ 32 -> pb m x = store_bytes (d_mem d) a (size f) v x).
  { intros x X. unfold m. rewrite pb_store by assumption. unfold store_bytes. destruct ((a <=? x) && (x <? a + size f)); [reflexivity|]. apply AM, X. }
  assert (M1 := R_mem p t d m _ H WM1 PB).
  change UART_ADDR_BASE with 268435456. change (268435456 + 1) with 268435457. change PLIC_CLAIM_ADDR with 203427844.
  assert (UW : is_w 32 268435456) by (unfold is_w; change (2 ^ 32) with 4294967296; lia).
  destruct (Z.eqb_spec a 268435456) as [->|N10].
  { rewrite land255.
    set (m2 := pmem_write m 268435456 (Z.land (pmem_read m 268435456) 4294967040)).
    assert (RW : is_w 32 (pmem_read m 268435456)) by (apply read_word; assumption).
    assert (RL : is_w 32 (Z.land (pmem_read m 268435456) 4294967040)) by (apply is_w_land; [lia|assumption|lia]).
    assert (W2 : wfm m2) by (apply write_wfm; assumption).
    assert (B2 : forall x, 0 <= x < 2 ^ 32 -> pb m2 x = store_bytes (store_bytes (d_mem d) 268435456 (size f) v) 268435456 1 0 x).
    { intros x X. unfold m2. rewrite pb_write by assumption. unfold store_bytes at 1.
      destruct (Z.eqb_spec (x / 4) (268435456 / 4)) as [E|NE].
      - change (268435456 / 4) with 67108864 in E.
        destruct (Z.leb_spec 268435456 x), (Z.ltb_spec x (268435456 + 1)); cbn [andb]; try (exfalso; lia).
        + replace (x - 268435456) with 0 by lia. apply byte_ext; [lia|lia|]. intros j J. rewrite Z.land_spec, Z.testbit_0_l.
          replace (j + 8 * (x mod 4)) with j by lia. change 4294967040 with (16777215 * 2 ^ 8). rewrite Z.mul_pow2_bits_low by lia. apply andb_false_r.
        + rewrite <- PB by exact X. unfold pb. rewrite (read_aligned m x 268435456) by (try assumption; change (268435456 / 4) with 67108864; lia).
          apply byte_ext; [lia|lia|]. intros j J. rewrite Z.land_spec. change 4294967040 with ((2 ^ 24 - 1) * 2 ^ 8).
          rewrite Z.mul_pow2_bits by lia. rewrite testbit_ones_pred by lia. replace (j + 8 * (x mod 4) - 8 <? 24) with true by lia. apply andb_true_r.
      - change (268435456 / 4) with 67108864 in NE. replace ((268435456 <=? x) && (x <? 268435456 + 1)) with false by lia. apply PB, X. }
    assert (M2 := R_log _ _ _ (v mod 256 :: d_out d) (d_sync d) (R_mem p t d m2 _ H W2 B2)). rewrite AO, AY. exact M2. }
  assert (NB : forall k, 0 <= k < 16 -> f = 0 -> a = 268435457 ->
     let w := Z.lor (Z.land (pmem_read m 268435456) 4293984255) (k * 2 ^ 16) in
     is_w 32 w /\ forall x, 0 <= x < 2 ^ 32 -> pb (pmem_write m 268435456 w) x = set_nibble (store_bytes (d_mem d) a (size f) v) 268435458 k x).
  { intros k K F0 A1 w.
    assert (RW : is_w 32 (pmem_read m 268435456)) by (apply read_word; assumption).
    assert (WW : is_w 32 w).
    { apply is_w_lor; [lia|apply is_w_land; [lia|assumption|lia]|]. unfold is_w. change (2 ^ 32) with 4294967296. change (2 ^ 16) with 65536. lia. }
    split; [exact WW|]. intros x X. rewrite pb_write by assumption. unfold set_nibble. unfold store_bytes at 1.
    change (268435456 / 4) with 67108864.
    assert (WB : forall i, Z.testbit w i = (Z.testbit (pmem_read m 268435456) i && Z.testbit 4293984255 i) || Z.testbit (k * 2 ^ 16) i)
      by (intros i; unfold w; now rewrite Z.lor_spec, Z.land_spec). clearbody w.
    destruct (Z.eqb_spec (x / 4) 67108864) as [E|NE].
    - assert (RX : pb m x = (pmem_read m 268435456 / 256 ^ (x mod 4)) mod 256).
      { unfold pb. rewrite (read_aligned m x 268435456); [reflexivity|exact X|assumption|exact E]. }
      destruct (Z.leb_spec 268435458 x), (Z.ltb_spec x (268435458 + 1)); cbn [andb].
      + assert (x = 268435458) as -> by lia. replace (268435458 - 268435458) with 0 by lia. rewrite Z.pow_0_r, Z.div_1_r.
        rewrite <- PB by exact X. rewrite RX. change (268435458 mod 4) with 2.
        set (q := pmem_read m 268435456) in *.
        transitivity ((((q / 256 ^ 2) mod 256 / 16 * 16 + k) / 256 ^ 0) mod 256); [|now rewrite Z.pow_0_r, Z.div_1_r].
        apply byte_ext; [lia|lia|]. intros j J. rewrite WB. rewrite Z.mul_0_r, Z.add_0_r.
        replace ((q / 256 ^ 2) mod 256 / 16 * 16 + k) with (Z.lor k ((q / 256 ^ 2) mod 256 / 2 ^ 4 * 2 ^ 4))
          by (rewrite lor_hi by lia; change (2 ^ 4) with 16; lia).
        rewrite Z.lor_spec. change 4293984255 with (Z.lor (4095 * 2 ^ 20) (2 ^ 16 - 1)). rewrite Z.lor_spec, testbit_ones_pred by lia.
        replace (j + 8 * 2 <? 16) with false by lia. rewrite orb_false_r.
        rewrite (Z.mul_pow2_bits k) by lia. replace (j + 8 * 2 - 16) with j by lia.
        destruct (Z.ltb_spec j 4).
        * rewrite !Z.mul_pow2_bits_low by lia. rewrite andb_false_r, orb_false_r. reflexivity.
        * rewrite !Z.mul_pow2_bits by lia. rewrite (is_w_testbit 4 k j) by (unfold is_w; change (2 ^ 4) with 16; lia).
          rewrite orb_false_r. cbn [orb]. rewrite Z.div_pow2_bits by lia. replace (j - 4 + 4) with j by lia.
          rewrite byte_bits by lia. replace (j <? 8) with true by lia. cbn [andb].
          change 4095 with (2 ^ 12 - 1). rewrite testbit_ones_pred by lia. replace (j + 8 * 2 - 20 <? 12) with true by lia. apply andb_true_r.
      + rewrite <- PB by exact X. rewrite RX. apply byte_ext; [lia|lia|]. intros j J. rewrite WB.
        replace (Z.testbit (k * 2 ^ 16) (j + 8 * (x mod 4))) with false.
        2:{ symmetry. rewrite Z.mul_pow2_bits by lia. apply (is_w_testbit 4); [lia|unfold is_w; change (2 ^ 4) with 16; lia|lia]. }
        rewrite orb_false_r. change 4293984255 with (Z.lor ((2 ^ 12 - 1) * 2 ^ 20) (2 ^ 16 - 1)). rewrite Z.lor_spec, Z.mul_pow2_bits by lia.
        rewrite testbit_ones_pred by lia. replace (j + 8 * (x mod 4) - 20 <? 12) with true by lia. apply andb_true_r.
      + rewrite <- PB by exact X. rewrite RX. apply byte_ext; [lia|lia|]. intros j J. rewrite WB.
        rewrite Z.mul_pow2_bits_low by lia.
        rewrite orb_false_r. change 4293984255 with (Z.lor ((2 ^ 12 - 1) * 2 ^ 20) (2 ^ 16 - 1)). rewrite Z.lor_spec, Z.mul_pow2_bits_low by lia.
        rewrite testbit_ones_pred by lia. replace (j + 8 * (x mod 4) <? 16) with true by lia. apply andb_true_r.
      + exfalso; lia.
    - replace ((268435458 <=? x) && (x <? 268435458 + 1)) with false by lia. apply PB, X. }
  assert (BY : forall q, Z.land (mask_store_data v f) 255 = q -> v mod 256 = q).
  { intros q <-. rewrite land255. unfold mask_store_data. cases F.
    - change (Z.land 0 3 =? 0) with true. cbv iota. rewrite land255. lia.
    - change (Z.land 1 3 =? 0) with false. change (Z.land 1 3 =? 1) with true. cbv iota. rewrite land65535. lia.
    - reflexivity. }
  destruct (Z.eqb_spec a 268435457) as [AE|N11].
  { assert (F0 : f = 0).
    { subst a. unfold aligned in AL0. cases F; [reflexivity| |]; [change (size 1) with 2 in AL0|change (size 2) with 4 in AL0]; lia. }
    rewrite <- (BY _ eq_refl).
    destruct (Z.eqb_spec (v mod 256) 7) as [C7|N7'].
    - destruct (NB 0 ltac:(lia) F0 AE) as [WW BB]. cbv zeta in WW, BB. rewrite Z.mul_0_l, Z.lor_0_r in WW, BB.
      apply R_ext. rewrite AX. apply R_pend.
      assert (M2 := R_mem p t d _ _ H (write_wfm m _ _ WM1 UW WW) BB). exact M2.
    - destruct (Z.eqb_spec (v mod 256) 5) as [C5|N5']; [|exact M1].
      destruct (NB 3 ltac:(lia) F0 AE) as [WW BB]. cbv zeta in WW, BB. change (3 * 2 ^ 16) with 196608 in WW, BB.
      assert (M2 := R_mem p t d _ _ H (write_wfm m _ _ WM1 UW WW) BB). exact M2. }
  destruct (Z.eqb_spec a 203427844) as [AE|N12]; [|exact M1].
  rewrite <- (BY _ eq_refl). apply R_ext. unfold UART_PLIC_IRQ_ID, DMA_PLIC_IRQ_ID.
    change (p_uart (set_mem p m)) with (p_uart p). change (p_dma (set_mem p m)) with (p_dma p). rewrite AU, AX.
  destruct (Z.eqb_spec (v mod 256) 10) as [C|C].
  - rewrite C. change (10 =? 11) with false. cbv iota. apply R_pend. exact M1.
  - destruct (Z.eqb_spec (v mod 256) 11); [apply R_pend; exact M1|].
    assert (M2 := R_pend _ _ _ (p_uart p) (p_dma p) M1). rewrite AU, AX in M2 at 2. exact M2.
Qed.

Lemma step_R p t d e : R p t d -> event_ok e -> (forall k, e = Pass k -> t + k < 2 ^ 63) ->
  R (fst (dev_step (p, t) e)) (snd (dev_step (p, t) e)) (spec_step d e).
Proof.
  intros H E B. destruct e as [a v f| |k]; cbn [dev_step fst snd spec_step].
  - destruct E as (A & V & F & AL). apply step_store; assumption.
  - unfold tick. apply R_ext, R_tim, H.
  - specialize (B k eq_refl). cbn [event_ok] in E. ag. unfold R, agrees. cb.
    sp; try assumption; try reflexivity; try lia; try apply WM.
    rewrite <- AN. unfold effective_timer_value. rewrite !sim_time_id by lia. unfold wrap. rewrite Zplus_mod_idemp_l. f_equal. lia.
Qed.
Lemma run_R l : forall p t d, R p t d -> Forall event_ok l -> t + elapsed l < 2 ^ 63 ->
  R (fst (dev_run (p, t) l)) (snd (dev_run (p, t) l)) (spec_run d l) /\ snd (dev_run (p, t) l) = t + elapsed l.
Proof.
  induction l as [|e l IH]; intros p t d H F B; [split; [exact H|cbn; lia]|].
  inversion F as [|? ? E FL]; subst. cbn [elapsed fold_right] in B. fold (elapsed l) in B.
  assert (EL : 0 <= elapsed l).
  { clear - FL. induction FL as [|e l E F IH]; [cbn; lia|]. cbn [elapsed fold_right]. fold (elapsed l). destruct e; cbn [event_ok] in E; lia. }
  assert (S1 : R (fst (dev_step (p, t) e)) (snd (dev_step (p, t) e)) (spec_step d e)).
  { apply step_R; try assumption. intros k ->. lia. }
  unfold dev_run, spec_run. cbn [fold_left]. fold (dev_run (dev_step (p, t) e) l). fold (spec_run (spec_step d e) l).
  destruct (dev_step (p, t) e) as [p' t'] eqn:D. cbn [fst snd] in S1.
  assert (T : t' + elapsed l = t + elapsed (e :: l)).
  { cbn [elapsed fold_right]. fold (elapsed l). destruct e; cbn in D; injection D as <- <-; lia. }
  destruct (IH p' t' (spec_step d e) S1 FL) as [I1 I2].
  - rewrite T. cbn [elapsed fold_right]. fold (elapsed l). lia.
  - split; [exact I1|]. rewrite I2. exact T.
Qed.
Lemma R_init t : 0 <= t < 2 ^ 63 -> R (periph_init pmem_init) t (mkd (fun _ => 0) t 0 0 0 0 false 0 false false [] []).
Proof.
  intros T. unfold R, agrees, is_w. change (2 ^ 32) with 4294967296. change (2 ^ 64) with 18446744073709551616. cb.
  change (2 ^ 63) with 9223372036854775808 in *.
  sp; try lia; try reflexivity; try apply wfm_init.
  - intros x X. unfold pmem_read, pmem_init. cbn [ram io]. destruct (pmem_is_ram_addr (word_addr x) 4); now rewrite Z.div_0_l by lia.
  - unfold effective_timer_value, periph_init. cbn [p_off]. rewrite sim_time_id, Z.add_0_r by lia. apply wrap_id. unfold is_w. change (2 ^ 64) with 18446744073709551616. lia.
Qed.

(** ** Word map *)
Lemma writes_wfm l : forall m, wfm m -> Forall (fun w => is_w 32 (fst w) /\ is_w 32 (snd w)) l ->
  wfm (fold_left (fun m w => pmem_write m (fst w) (snd w)) l m).
Proof.
  induction l as [|[a v] l IH]; intros m W F; [exact W|]. inversion F as [|? ? [A V] FL]; subst. cbn [fold_left fst snd] in *.
  apply IH; [apply write_wfm; assumption|exact FL].
Qed.
Lemma writes_read l b : forall m, is_w 32 b -> Forall (fun w => is_w 32 (fst w) /\ is_w 32 (snd w)) l ->
  pmem_read (fold_left (fun m w => pmem_write m (fst w) (snd w)) l m) b =
  if existsb (fun w => fst w / 4 =? b / 4) l then last_write l b else pmem_read m b.
Proof.
  induction l as [|[a v] l IH]; intros m B F; [reflexivity|]. inversion F as [|? ? [A V] FL]; subst. cbn [fst snd] in *.
  cbn [fold_left fst snd existsb last_write]. rewrite IH by assumption.
  destruct (existsb (fun w => fst w / 4 =? b / 4) l); [rewrite orb_true_r; reflexivity|]. rewrite orb_false_r.
  rewrite read_write by assumption. rewrite (Z.eqb_sym (b / 4)). destruct (a / 4 =? b / 4); reflexivity.
Qed.
Lemma last_none l b : existsb (fun w => fst w / 4 =? b / 4) l = false -> last_write l b = 0.
Proof.
  induction l as [|[a v] l IH]; [reflexivity|]. cbn [existsb last_write fst]. intros H. apply orb_false_iff in H. destruct H as [H1 H2].
  rewrite H2, H1. reflexivity.
Qed.
Lemma init_read b : pmem_read pmem_init b = 0.
Proof. unfold pmem_read, pmem_init. cbn [ram io]. destruct (pmem_is_ram_addr (word_addr b) 4); reflexivity. Qed.

(** ** Loads from the byte-addressed part *)
Lemma read_load_generic m a f : wfm m -> is_w 32 a -> load_f3 f ->
  (let shift := Z.land a 3 * 8 in
    let data := Z.shiftr (pmem_read m a) shift in
    let size := Z.land f 3 in
    let sign := if size =? 0 then (if nz (Z.land data 128) then 4294967040 else 0)
                else if size =? 1 then (if nz (Z.land data 32768) then 4294901760 else 0) else 0 in
    let mask := if size =? 0 then 255 else if size =? 1 then 65535 else 4294967295 in
    let data := Z.land data mask in
    if Z.land f 4 =? 0 then Z.lor data sign else data) = extract_data (pmem_read m a) a f.
Proof.
  intros W A F. unfold extract_data. cbv zeta. set (q := Z.shiftr (pmem_read m a) (Z.land a 3 * 8)).
  assert (L : forall k n, 0 <= k < n -> nz (Z.land (Z.land q (2 ^ n - 1)) (2 ^ k)) = nz (Z.land q (2 ^ k))).
  { intros k n K. rewrite !nz_bit by lia. rewrite Z.land_spec, testbit_ones_pred by lia. replace (k <? n) with true by lia. apply andb_true_r. }
  cases F.
  - change (get_mem_width 0) with 1. change (mem_mask_for_width 1) with 255. change (1 * 8 - 1) with 7.
    change (Z.land 0 3 =? 0) with true. change (Z.land 0 4 =? 0) with true. change (1 <? 4) with true. cbn [andb]. cbv iota.
    assert (L1 := L 7 8 ltac:(lia)). change (2 ^ 8 - 1) with 255 in L1. rewrite L1. change (2 ^ 7) with 128.
    change (w32 (Z.lnot 255)) with 4294967040. destruct (nz (Z.land q 128)); [reflexivity|apply Z.lor_0_r].
  - change (get_mem_width 1) with 2. change (mem_mask_for_width 2) with 65535. change (2 * 8 - 1) with 15.
    change (Z.land 1 3 =? 0) with false. change (Z.land 1 3 =? 1) with true. change (Z.land 1 4 =? 0) with true. change (2 <? 4) with true. cbn [andb]. cbv iota.
    assert (L1 := L 15 16 ltac:(lia)). change (2 ^ 16 - 1) with 65535 in L1. rewrite L1. change (2 ^ 15) with 32768.
    change (w32 (Z.lnot 65535)) with 4294901760. destruct (nz (Z.land q 32768)); [reflexivity|apply Z.lor_0_r].
  - change (get_mem_width 2) with 4. change (mem_mask_for_width 4) with 4294967295.
    change (Z.land 2 3 =? 0) with false. change (Z.land 2 3 =? 1) with false. change (Z.land 2 4 =? 0) with true. change (4 <? 4) with false. cbn [andb]. cbv iota.
    apply Z.lor_0_r.
  - reflexivity.
  - reflexivity.
Qed.
Lemma generic_load m a f : wfm m -> is_w 32 a -> load_f3 f -> aligned a f -> extract_data (pmem_read m a) a f = isa_load (pb m) a f.
Proof.
  intros W A F AL. transitivity (word_load (pw m) a f).
  - unfold word_load, pw. rewrite (read_aligned m a (4 * (a / 4))); [reflexivity|exact A| |lia]. unfold is_w in *. lia.
  - rewrite word_load_spec by assumption. apply isa_load_ext. intros x X. symmetry. apply pb_bytes.
    unfold aligned in AL. unfold is_w in A. change (2 ^ 32) with 4294967296 in *. destruct (size_cases f) as [E|[E|E]]; rewrite E in *; lia.
Qed.
