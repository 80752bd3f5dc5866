From Verif Require Import Base BaseLemmas CsrModel ExecModel IsaSpec ExecProofs AluProofs ExecIsaProofs ExecProps MemModel MemSpec MemProofs RefModel RefSpec RefExecProofs.
Ltac Zify.zify_post_hook ::= Z.div_mod_to_equations.
#[local] Opaque Z.pow Z.land Z.lor Z.lxor Z.shiftl Z.shiftr.

(** ** Ranges of the specified values *)
Definition W (x : Z) : Prop := 0 <= x < 2 ^ 32.
Lemma W_mod x : W (x mod M32). Proof. unfold W, M32. apply Z.mod_pos_bound. reflexivity. Qed.
Lemma W_word f : W (word f). Proof. apply (word_range f). Qed.
Lemma W_bit (b : bool) : W (if b then 1 else 0). Proof. unfold W. change (2 ^ 32) with 4294967296. destruct b; lia. Qed.
Lemma W_small x : 0 <= x < 4294967296 -> W x. Proof. unfold W. change (2 ^ 32) with 4294967296. tauto. Qed.
Lemma W_div a k : W a -> 0 < k -> W (a / k).
Proof. unfold W. intros A K. split; [apply Z.div_pos; lia|]. apply Z.le_lt_trans with a; [|lia]. apply Z.div_le_upper_bound; nia. Qed.
Lemma lead0_range n a : 0 <= lead0 n a <= Z.of_nat n.
Proof. induction n as [|n IH]; cbn [lead0]; [lia|]. destruct (Z.testbit a (Z.of_nat n)); lia. Qed.
Lemma trail0_range n : forall i a, 0 <= trail0 n i a <= Z.of_nat n.
Proof. induction n as [|n IH]; intros i a; cbn [trail0]; [lia|]. specialize (IH (i + 1) a). destruct (Z.testbit a i); lia. Qed.
Lemma ones_range n a : 0 <= IsaSpec.ones n a <= Z.of_nat n.
Proof. induction n as [|n IH]; cbn [IsaSpec.ones]; [lia|]. destruct (Z.testbit a (Z.of_nat n)); lia. Qed.
Lemma rop_range o a b : W a -> W b -> W (sem_rop o a b).
Proof.
  intros A B. assert (P : 0 < 2 ^ sh b) by (apply Z.pow_pos_nonneg; [lia|unfold sh; lia]).
  destruct o; cbn [sem_rop]; auto using W_mod, W_word, W_bit, W_div.
  all: try (destruct (_ <=? _); assumption).
  - destruct (Z.min_spec a b) as [[_ ->]|[_ ->]]; assumption.
  - destruct (Z.max_spec a b) as [[_ ->]|[_ ->]]; assumption.
  - apply W_small. change (2 ^ 16) with 65536. lia.
  - apply W_small. change (2 ^ 8) with 256. lia.
Qed.
Lemma mop_range o a b : W a -> W b -> W (sem_mop o a b).
Proof.
  intros A B. assert (M : W (M32 - 1)) by (unfold W, M32; change (2 ^ 32) with 4294967296; lia).
  destruct o; cbn [sem_mop]; auto using W_mod.
  - unfold W, M32 in *. change (2 ^ 32) with 4294967296 in *. split; [apply Z.div_pos; nia|]. apply Z.div_lt_upper_bound; nia.
  - destruct (b =? 0); auto using W_mod.
  - destruct (Z.eqb_spec b 0); [assumption|]. apply W_div; [assumption|]. unfold W in B. lia.
  - destruct (b =? 0); auto using W_mod.
  - destruct (Z.eqb_spec b 0); [assumption|]. unfold W in *. pose proof (Z.mod_pos_bound a b ltac:(lia)). lia.
Qed.
Lemma iop_range o a i : W a -> W (sem_iop o a i).
Proof. intros A. unfold sem_iop. cbv zeta. pose proof (W_mod i). destruct o; auto using W_mod, W_bit, rop_range. Qed.
Lemma uop1_range o a : W a -> W (sem_uop1 o a).
Proof.
  intros A. destruct o; cbn [sem_uop1]; auto using W_word.
  - apply W_small. pose proof (lead0_range 32 a). lia.
  - apply W_small. pose proof (trail0_range 32 0 a). lia.
  - apply W_small. pose proof (ones_range 32 a). lia.
  - apply W_small. unfold byte_of. change (2 ^ 8) with 256. change (2 ^ 16) with 65536. change (2 ^ 24) with 16777216.
    pose proof (Z.mod_pos_bound (a / 2 ^ (8 * 3)) 256 ltac:(lia)). pose proof (Z.mod_pos_bound (a / 2 ^ (8 * 2)) 256 ltac:(lia)).
    pose proof (Z.mod_pos_bound (a / 2 ^ (8 * 1)) 256 ltac:(lia)). pose proof (Z.mod_pos_bound (a / 2 ^ (8 * 0)) 256 ltac:(lia)).
    repeat match goal with H : context [?x mod 256] |- _ => revert H; generalize (x mod 256) end. intros. lia.
  - apply W_small. change (2 ^ 16) with 65536. lia.
Qed.
Lemma amo_range o a b : W a -> W b -> W (sem_amo o a b).
Proof.
  intros A B. destruct o; cbn [sem_amo]; auto using W_mod, rop_range.
  - destruct (_ <=? _); assumption.
  - destruct (_ <=? _); assumption.
  - destruct (Z.min_spec a b) as [[_ ->]|[_ ->]]; assumption.
  - destruct (Z.max_spec a b) as [[_ ->]|[_ ->]]; assumption.
Qed.

(** ** Memory of the reference *)
Lemma lw s a : W a -> load_word s a = r_mem s (a / 4).
Proof. intros A. unfold load_word. rewrite land_fffc by exact A. f_equal. lia. Qed.
Lemma lane_bit t i : 0 <= i < 32 -> Z.testbit (lane_mask t) i = Z.testbit t (i / 8).
Proof.
  intros I. unfold lane_mask. change (Z.land t 1) with (Z.land t (2 ^ 0)). change (Z.land t 2) with (Z.land t (2 ^ 1)). change (Z.land t 4) with (Z.land t (2 ^ 2)).
  change (Z.land t 8) with (Z.land t (2 ^ 3)). rewrite !nz_bit by lia.
  assert (B : forall (b : bool) k, 0 <= k < 4 -> Z.testbit (if b then 255 * 2 ^ (k * 8) else 0) i = b && (i / 8 =? k)).
  { intros b k K. destruct b; [|apply Z.testbit_0_l]. cbn [andb]. rewrite Z.mul_pow2_bits by lia. change 255 with (2 ^ 8 - 1).
    destruct (Z.ltb_spec i (k * 8)); [rewrite Z.testbit_neg_r by lia; lia|]. rewrite testbit_ones_pred by lia. lia. }
  change 0xff000000 with (255 * 2 ^ (3 * 8)). change 0xff0000 with (255 * 2 ^ (2 * 8)). change 0xff00 with (255 * 2 ^ (1 * 8)). change 0xff with (255 * 2 ^ (0 * 8)) at 1.
  rewrite !Z.lor_spec, !B by lia.
  assert (C : i / 8 = 0 \/ i / 8 = 1 \/ i / 8 = 2 \/ i / 8 = 3) by lia.
  destruct C as [-> | [-> | [-> | ->]]]; eqbs; rewrite ?andb_false_r, ?andb_true_r, ?orb_false_r; reflexivity.
Qed.
Lemma lane_range t : W (lane_mask t).
Proof.
  unfold lane_mask. repeat apply (is_w_lor 32); try lia;
  match goal with |- is_w 32 (if ?b then _ else _) => destruct b; unfold is_w; change (2 ^ 32) with 4294967296; lia end.
Qed.
Lemma not32_bit m i : 0 <= i < 32 -> Z.testbit (not32 m) i = negb (Z.testbit m i).
Proof. intros I. unfold not32. rewrite Z.lxor_spec, testbit_ones_pred by lia. replace (i <? 32) with true by lia. now destruct (Z.testbit m i). Qed.
Lemma merge_bit m w old i : 0 <= i < 32 -> Z.testbit (merge m w old) i = if Z.testbit m i then Z.testbit w i else Z.testbit old i.
Proof. intros I. unfold merge. rewrite Z.lor_spec, !Z.land_spec, not32_bit by lia. destruct (Z.testbit m i); cbn [andb negb orb]; [apply orb_false_r|reflexivity]. Qed.
Lemma merge_range m w old : W m -> W w -> W old -> W (merge m w old).
Proof.
  intros M V O. unfold merge. apply (is_w_lor 32); [lia| |].
  - apply is_w_land; [lia|exact M|unfold W in V; lia].
  - rewrite Z.land_comm. apply is_w_land; [lia|exact O|].
    assert (N : is_w 32 (not32 m)) by (unfold not32; apply is_w_lxor; [lia|exact M|unfold is_w; lia]). unfold is_w in N. lia.
Qed.
Definition st_data (f3 b : Z) : Z := if f3 =? 0 then Z.land b 255 else if f3 =? 1 then Z.land b 0xffff else b.
Definition st_strb (f3 : Z) : Z := if f3 =? 0 then 1 else if f3 =? 1 then 3 else 15.
Definition merged (a f3 b old : Z) : Z :=
  merge (lane_mask (shl (st_strb f3) (Z.land a 3))) (shl (st_data f3 b) (Z.land a 3 * 8)) old.
Lemma strb_same a f3 : store_f3 f3 -> aligned a f3 -> shl (st_strb f3) (Z.land a 3) = get_store_strb a f3.
Proof.
  intros H A. unfold get_store_strb. cbv zeta. rewrite (land3 a). unfold aligned in A. unfold shl.
  assert (D : a mod 4 = 0 \/ a mod 4 = 1 \/ a mod 4 = 2 \/ a mod 4 = 3) by lia.
  cases H; cbv [size] in A; cbn - [Z.modulo] in A; destruct D as [D | [D | [D | D]]]; try (exfalso; lia); rewrite D; vm_compute; reflexivity.
Qed.
Lemma data_same a f3 b : store_f3 f3 -> aligned a f3 -> W b -> shl (st_data f3 b) (Z.land a 3 * 8) = align_store_data b a f3.
Proof.
  intros H A B. unfold align_store_data, st_data. cbv zeta. rewrite (land3 a). unfold aligned in A. cases H.
  - reflexivity.
  - reflexivity.
  - change (Z.land 2 3 =? 0) with false. change (Z.land 2 3 =? 1) with false. change (Z.land 2 3 =? 2) with true. eqbs.
    change (size 2) with 4 in A. rewrite A. unfold shl. change (0 * 8) with 0. rewrite Z.shiftl_0_r. apply w32_id. exact B.
Qed.
Lemma merged_bytes m a f3 b x : store_f3 f3 -> aligned a f3 -> W b ->
  bytes_of (RefModel.upd m (a / 4) (merged a f3 b (m (a / 4)))) x = store_bytes (bytes_of m) a (size f3) b x.
Proof.
  intros H A B. assert (O := aligned_off a f3 (store_is_load _ H) A). assert (Z := size_cases f3).
  unfold bytes_of, RefModel.upd, store_bytes. destruct (Z.eqb_spec (x / 4) (a / 4)) as [E|E].
  - unfold merged. rewrite strb_same, data_same by assumption.
    destruct ((a <=? x) && (x <? a + size f3)) eqn:IN.
    + apply byte_ext; [lia|lia|]. intros j J. rewrite merge_bit, lane_bit by lia. replace ((j + 8 * (x mod 4)) / 8) with (x mod 4) by lia.
      rewrite strb_spec by (assumption || lia). replace ((a mod 4 <=? x mod 4) && (x mod 4 <? a mod 4 + size f3)) with true by lia.
      rewrite align_bits by (assumption || lia). f_equal. lia.
    + rewrite <- E. apply byte_ext; [lia|lia|]. intros j J. rewrite merge_bit, lane_bit by lia. replace ((j + 8 * (x mod 4)) / 8) with (x mod 4) by lia.
      rewrite strb_spec by (assumption || lia). replace ((a mod 4 <=? x mod 4) && (x mod 4 <? a mod 4 + size f3)) with false by lia. reflexivity.
  - replace ((a <=? x) && (x <? a + size f3)) with false by lia. reflexivity.
Qed.
Lemma merged_range a f3 b old : W old -> W (merged a f3 b old).
Proof. intros O. unfold merged. apply merge_range; [apply lane_range|apply w32_range|exact O]. Qed.

(** A store outside the devices only changes memory. *)
Lemma plain_ne a k : plain a -> In (k / 4 * 4) devices -> (a =? k) = false.
Proof. intros P K. destruct (Z.eqb_spec a k) as [->|]; [|reflexivity]. exfalso. apply P. exact K. Qed.
Lemma plain_word e s a d : W a -> plain a -> store_word e s a d = set_mem s (RefModel.upd (r_mem s) (a / 4) d).
Proof.
  intros A P. unfold store_word. cbv zeta. rewrite land_fffc by exact A. replace (a - a mod 4) with (a / 4 * 4) by lia.
  assert (N : forall k, In k devices -> (a / 4 * 4 =? k) = false).
  { intros k K. destruct (Z.eqb_spec (a / 4 * 4) k) as [<-|]; [|reflexivity]. exfalso. apply P. exact K. }
  rewrite (N TIMER_LOW), (N TIMER_HIGH), (N CMP_LOW), (N CMP_HIGH) by (vm_compute; tauto). rewrite Z.div_mul by lia. reflexivity.
Qed.
Definition plain_eff (s s' : ref) (m : Z -> Z) : Prop :=
  r_gpr s' = r_gpr s /\ r_csr s' = r_csr s /\ r_priv s' = r_priv s /\ r_pc s' = r_pc s /\ r_dev s' = r_dev s /\ r_off s' = r_off s /\ r_cmp s' = r_cmp s /\
  r_end s' = r_end s /\ r_flags s' = r_flags s /\ r_inst s' = r_inst s /\ r_mem s' = m.
Lemma plain_store e s : W (r_saddr s) -> plain (r_saddr s) -> r_store s = true ->
  plain_eff s (store_data e s) (RefModel.upd (r_mem s) (r_saddr s / 4)
    (merge (lane_mask (shl (r_sstrb s) (Z.land (r_saddr s) 3))) (shl (r_sdata s) (Z.land (r_saddr s) 3 * 8)) (r_mem s (r_saddr s / 4)))).
Proof.
  intros A P T. unfold store_data. cbv zeta. rewrite T. cbn [andb].
  rewrite (plain_ne _ UART_BASE P), (plain_ne _ 0x10000001 P), (plain_ne _ PLIC_CLAIM P) by (vm_compute; tauto). cbn [andb]. cbv iota.
  set (s1 := if r_resv s && _ then _ else s).
  assert (E : r_gpr s1 = r_gpr s /\ r_csr s1 = r_csr s /\ r_priv s1 = r_priv s /\ r_pc s1 = r_pc s /\ r_dev s1 = r_dev s /\ r_off s1 = r_off s /\ r_cmp s1 = r_cmp s /\
    r_end s1 = r_end s /\ r_flags s1 = r_flags s /\ r_inst s1 = r_inst s /\ r_mem s1 = r_mem s /\ r_store s1 = true /\ r_saddr s1 = r_saddr s /\ r_sdata s1 = r_sdata s /\ r_sstrb s1 = r_sstrb s).
  { subst s1. destruct (r_resv s && _); cbn [set_resv r_gpr r_csr r_priv r_pc r_dev r_off r_cmp r_end r_flags r_inst r_mem r_store r_saddr r_sdata r_sstrb]; repeat split; assumption || reflexivity. }
  clearbody s1. destruct E as (E1 & E2 & E3 & E4 & E5 & E6 & E7 & E8 & E9 & E10 & E11 & E12 & E13 & E14 & E15).
  rewrite E12, E14, E15. cbv iota. rewrite plain_word by assumption. rewrite lw by assumption. rewrite E11.
  unfold plain_eff. cbn [set_st set_mem r_gpr r_csr r_priv r_pc r_dev r_off r_cmp r_end r_flags r_inst r_mem r_store r_saddr r_sdata r_sstrb].
  repeat split; assumption || reflexivity.
Qed.

(** Loads *)
Lemma window hi lo k n : 0 <= k -> 0 <= n -> k + n <= 32 ->
  Z.land (w32 (shr (Z.lor (Z.shiftl hi 32) lo) k)) (2 ^ n - 1) = Z.land (Z.shiftr lo k) (2 ^ n - 1).
Proof.
  intros K N L. apply Z.bits_inj'. intros i I. rewrite !Z.land_spec, testbit_ones_pred by lia. destruct (Z.ltb_spec i n); [|now rewrite !andb_false_r].
  rewrite !andb_true_r. unfold shr. rewrite testbit_w32, !Z.shiftr_spec by lia. rewrite Z.lor_spec, Z.shiftl_spec, (Z.testbit_neg_r hi) by lia.
  replace (i <? 32) with true by lia. reflexivity.
Qed.
Lemma window_bit hi lo k n : 0 <= k -> 0 <= n -> k + n < 32 ->
  nz (Z.land (w32 (shr (Z.lor (Z.shiftl hi 32) lo) k)) (2 ^ n)) = nz (Z.land (Z.shiftr lo k) (2 ^ n)).
Proof.
  intros K N L. rewrite !nz_bit by lia. unfold shr. rewrite testbit_w32, !Z.shiftr_spec by lia. rewrite Z.lor_spec, Z.shiftl_spec, (Z.testbit_neg_r hi) by lia.
  replace (n <? 32) with true by lia. reflexivity.
Qed.
Lemma plain_load e s f3 a : W a -> load_f3 f3 -> aligned a f3 -> plain a -> ref_load e s f3 a = isa_load (bytes_of (r_mem s)) a f3.
Proof.
  intros A F AL P. rewrite <- word_load_spec by assumption. unfold word_load. unfold ref_load. cbv zeta.
  rewrite (plain_ne _ TIMER_LOW P), (plain_ne _ TIMER_HIGH P), (plain_ne _ CMP_LOW P), (plain_ne _ CMP_HIGH P) by (vm_compute; tauto).
  assert (L : load_word s (Z.land a 0xfffffffc) = r_mem s (a / 4)).
  { rewrite land_fffc by exact A. rewrite lw by (unfold W in *; lia). f_equal. lia. }
  rewrite L. set (hi := load_word s _). set (lo := r_mem s (a / 4)). clearbody hi lo. clear L.
  assert (O := aligned_off a f3 F AL). rewrite (land3 a). unfold extract_data. cbv zeta. rewrite (land3 a).
  assert (SX : forall n k, 0 <= n -> 0 < k <= n -> nz (Z.land (Z.land (Z.shiftr lo (a mod 4 * 8)) (2 ^ n - 1)) (2 ^ (k - 1))) = nz (Z.land (Z.shiftr lo (a mod 4 * 8)) (2 ^ (k - 1)))).
  { intros n k N K. rewrite !nz_bit by lia. rewrite Z.land_spec, testbit_ones_pred by lia. replace (k - 1 <? n) with true by lia. apply andb_true_r. }
  assert (W8 := fun n => window hi lo (a mod 4 * 8) n ltac:(lia)). assert (B8 := fun n => window_bit hi lo (a mod 4 * 8) n ltac:(lia)).
  set (d := w32 (shr _ _)) in *. clearbody d. set (q := Z.shiftr lo (a mod 4 * 8)) in *. clearbody q. cases F.
  - change (size 0) with 1 in O. change (Z.land 0 3) with 0. change (Z.land 0 4) with 0. change (get_mem_width 0) with 1. change (mem_mask_for_width 1) with 255. eqbs.
    change (nz 0) with false. change (1 <? 4) with true. cbn [andb]. cbv iota. change (1 * 8 - 1) with 7. change (w32 (Z.lnot 255)) with 4294967040.
    specialize (W8 8 ltac:(lia) ltac:(lia)). specialize (B8 7 ltac:(lia) ltac:(lia)). specialize (SX 8 8 ltac:(lia) ltac:(lia)).
    change (2 ^ 8 - 1) with 255 in *. change (8 - 1) with 7 in *. change (2 ^ 7) with 128 in *. rewrite W8, B8, SX. destruct (nz (Z.land q 128)); [reflexivity|apply Z.lor_0_r].
  - change (size 1) with 2 in O. change (Z.land 1 3) with 1. change (Z.land 1 4) with 0. change (get_mem_width 1) with 2. change (mem_mask_for_width 2) with 65535. eqbs.
    change (nz 0) with false. change (2 <? 4) with true. cbn [andb]. cbv iota. change (2 * 8 - 1) with 15. change (w32 (Z.lnot 65535)) with 4294901760.
    specialize (W8 16 ltac:(lia) ltac:(lia)). specialize (B8 15 ltac:(lia) ltac:(lia)). specialize (SX 16 16 ltac:(lia) ltac:(lia)).
    change (2 ^ 16 - 1) with 65535 in *. change (16 - 1) with 15 in *. change (2 ^ 15) with 32768 in *. rewrite W8, B8, SX. destruct (nz (Z.land q 32768)); [reflexivity|apply Z.lor_0_r].
  - change (size 2) with 4 in O. change (Z.land 2 3) with 2. change (Z.land 2 4) with 0. change (get_mem_width 2) with 4. change (mem_mask_for_width 4) with 4294967295. eqbs.
    change (nz 0) with false. change (4 <? 4) with false. cbn [andb]. cbv iota. specialize (W8 32 ltac:(lia) ltac:(lia)). change (2 ^ 32 - 1) with 4294967295 in *. rewrite W8. apply Z.lor_0_r.
  - change (size 4) with 1 in O. change (Z.land 4 3) with 0. change (Z.land 4 4) with 4. change (get_mem_width 4) with 1. change (mem_mask_for_width 1) with 255. eqbs.
    change (nz 4) with true. cbn [andb]. cbv iota. exact (W8 8 ltac:(lia) ltac:(lia)).
  - change (size 5) with 2 in O. change (Z.land 5 3) with 1. change (Z.land 5 4) with 4. change (get_mem_width 5) with 2. change (mem_mask_for_width 2) with 65535. eqbs.
    change (nz 4) with true. cbn [andb]. cbv iota. exact (W8 16 ltac:(lia) ltac:(lia)).
Qed.
Lemma load_range m a f3 : (forall i, W (m i)) -> load_f3 f3 -> aligned a f3 -> W (isa_load (bytes_of m) a f3).
Proof.
  intros M F AL. rewrite <- word_load_spec by assumption. unfold word_load. rewrite extract_spec by exact F. specialize (M (a / 4)).
  assert (O := aligned_off a f3 F AL). unfold extend. cases F; change (size 0) with 1 in *; change (size 1) with 2 in *; change (size 2) with 4 in *; change (size 4) with 1 in *; change (size 5) with 2 in *; eqbs;
   change (256 ^ 1) with 256; change (256 ^ 2) with 65536; change (256 ^ 4) with 4294967296; change (2 ^ 32 - 256) with 4294967040; change (2 ^ 32 - 65536) with 4294901760;
   match goal with |- context [?x mod ?k] => assert (R := Z.mod_pos_bound x k ltac:(lia)); revert R; generalize (x mod k) end; intros z R; apply W_small.
  - destruct (Z.ltb_spec z 128); lia.
  - destruct (Z.ltb_spec z 32768); lia.
  - lia.
  - lia.
  - lia.
Qed.

(** ** One instruction *)
Definition inv (s : ref) : Prop :=
  (forall r, W (r_gpr s r)) /\ r_gpr s 0 = 0 /\ (forall i, W (r_mem s i)) /\ W (r_pc s) /\ r_csr s mie = 0 /\ nz (Z.land (r_csr s satp) 0x80000000) = false.
Definition R (s : ref) (a : ist) : Prop :=
  (forall r, x_gpr a r = r_gpr s r) /\ x_pc a = r_pc s /\ (forall y, x_mem a y = bytes_of (r_mem s) y).
Definition step_of (e : renv) (s : ref) (x : ins) : res := match x with IAmo _ _ _ _ _ => rv32a e s | _ => rv32im e s end.
Definition done (s : ref) (a : ist) (x : ins) (s' : ref) : Prop :=
  (forall r, r_gpr s' r = match dest x with Some d => if r =? d then value a x else r_gpr s r | None => r_gpr s r end) /\
  r_pc s' = next a x /\ (forall y, bytes_of (r_mem s') y = memory a x y) /\ (forall i, W (r_mem s' i)) /\
  r_csr s' = r_csr s /\ r_priv s' = r_priv s /\ r_dev s' = r_dev s.
Lemma bare s : nz (Z.land (r_csr s satp) 0x80000000) = false -> translated s = false.
Proof. intros H. unfold translated. now rewrite H. Qed.

(** The state after a register write and a jump. *)
Lemma done_wr s a x d v p : R s a -> inv s -> dest x = Some d -> value a x = v -> next a x = p -> memory a x = x_mem a ->
  done s a x (set_pc (wr s d v) p).
Proof.
  intros (RG & RP & RM) (IG & I0 & IM & _) D V P M. unfold done, wr. rewrite D, V, M.
  cbn [set_pc set_gpr r_gpr r_pc r_mem r_csr r_priv r_dev]. unfold RefModel.upd.
  split; [reflexivity|]. split; [now symmetry|]. split; [intros y; symmetry; apply RM|]. split; [exact IM|]. repeat split; reflexivity.
Qed.
Lemma pc4_next s a x : R s a -> (match x with IJal _ _ | IJalr _ _ _ | IB _ _ _ _ => False | _ => True end) -> next a x = pc4 s.
Proof. intros (_ & P & _) H. unfold next, pc4. rewrite P. destruct x; try contradiction; reflexivity. Qed.

Lemma do_ir e s a o rd rs1 rs2 : let x := IR o rd rs1 rs2 in
  R s a -> inv s -> r_inst s = enc x -> wf_ins x -> ~ rotate0 x (x_gpr a) -> exists s', rv32im e s = Done s' /\ done s a x s'.
Proof.
  intros x HR HI E (D & A & B) N. cbn [enc x] in E. pose proof HR as (RG & RP & RM). pose proof HI as (IG & _).
  assert (F : rfields (fst (rop_f o)) rs2 rs1 (snd (rop_f o)) rd 51) by (unfold rfields, reg_ix in *; pose proof (rf_fields o); lia).
  destruct (c12_register_ops o rd rs1 rs2 (r_gpr s) (r_pc s) D A B IG) as (X & _ & _).
  { intros Q. rewrite <- RG. intros Z. apply N. subst x. cbn [rotate0]. destruct Q as [-> | ->]; exact Z. }
  rewrite <- E in X. eexists. split.
  - apply (by_core_op e s); [|rewrite E; apply rop_legal; assumption|exact X]. rewrite E. unfold enc_rop. now fields F.
  - assert (RD : bits (r_inst s) 11 7 = rd) by (rewrite E; unfold enc_rop; now fields F). rewrite RD.
    apply done_wr; [assumption|assumption|reflexivity| |apply pc4_next; [assumption|exact I]|reflexivity].
    subst x. cbn [value]. now rewrite !RG.
Qed.
Lemma do_im e s a o rd rs1 rs2 : let x := IM o rd rs1 rs2 in
  R s a -> inv s -> r_inst s = enc x -> wf_ins x -> exists s', rv32im e s = Done s' /\ done s a x s'.
Proof.
  intros x HR HI E (D & A & B). cbn [enc x] in E. pose proof HR as (RG & RP & RM). pose proof HI as (IG & _).
  assert (F : rfields 1 rs2 rs1 (mop_f o) rd 51) by (unfold rfields, reg_ix in *; destruct o; cbn [mop_f]; lia).
  destruct (c13_mul_div o rd rs1 rs2 (r_gpr s) (r_pc s) D A B IG) as (X & _ & _).
  rewrite <- E in X. eexists. split.
  - apply (by_core_op e s); [|rewrite E; apply mop_legal; assumption|exact X]. rewrite E. unfold enc_mop. now fields F.
  - assert (RD : bits (r_inst s) 11 7 = rd) by (rewrite E; unfold enc_mop; now fields F). rewrite RD.
    apply done_wr; [assumption|assumption|reflexivity| |apply pc4_next; [assumption|exact I]|reflexivity].
    subst x. cbn [value]. now rewrite !RG.
Qed.
Lemma do_ii e s a o rd rs1 imm : let x := II o rd rs1 imm in
  R s a -> inv s -> r_inst s = enc x -> wf_ins x -> exists s', rv32im e s = Done s' /\ done s a x s'.
Proof.
  intros x HR HI E (D & A & B). cbn [enc x] in E. pose proof HR as (RG & RP & RM). pose proof HI as (IG & _).
  destruct (iop_fields o rd rs1 imm D A) as (E1 & _ & E3 & _).
  destruct (c12_immediate_ops o rd rs1 imm (r_gpr s) (r_pc s) D A B IG) as (X & _ & _).
  rewrite <- E in X. eexists. split.
  - apply (by_core_opimm e s); [|rewrite E; apply iop_legal; assumption|exact X]. now rewrite E.
  - rewrite E, E3. apply done_wr; [assumption|assumption|reflexivity| |apply pc4_next; [assumption|exact I]|reflexivity].
    subst x. cbn [value]. now rewrite !RG.
Qed.
Lemma do_is e s a o rd rs1 n : let x := IS o rd rs1 n in
  R s a -> inv s -> r_inst s = enc x -> wf_ins x -> ~ rotate0 x (x_gpr a) -> exists s', rv32im e s = Done s' /\ done s a x s'.
Proof.
  intros x HR HI E (D & A & B) N. cbn [enc x] in E. pose proof HR as (RG & RP & RM). pose proof HI as (IG & _).
  assert (F : rfields (fst (rop_f (shop_r o))) n rs1 (snd (rop_f (shop_r o))) rd 19) by (unfold rfields, reg_ix in *; pose proof (sh_fields o); lia).
  destruct (c12_shift_immediates o rd rs1 n (r_gpr s) (r_pc s) D A B IG) as (X & _ & _).
  { intros -> Z. apply N. exact Z. }
  rewrite <- E in X. eexists. split.
  - apply (by_core_opimm e s); [|rewrite E; apply shop_legal; assumption|exact X]. rewrite E. unfold enc_shop. now fields F.
  - assert (RD : bits (r_inst s) 11 7 = rd) by (rewrite E; unfold enc_shop; now fields F). rewrite RD.
    apply done_wr; [assumption|assumption|reflexivity| |apply pc4_next; [assumption|exact I]|reflexivity].
    subst x. cbn [value]. now rewrite !RG.
Qed.
Lemma do_iu e s a o rd rs1 : let x := IU o rd rs1 in
  R s a -> inv s -> r_inst s = enc x -> wf_ins x -> exists s', rv32im e s = Done s' /\ done s a x s'.
Proof.
  intros x HR HI E (D & A). cbn [enc x] in E. pose proof HR as (RG & RP & RM). pose proof HI as (IG & I0 & _).
  destruct (c12_unary_ops o rd rs1 (r_gpr s) (r_pc s) D A (conj IG I0)) as (X & _ & _).
  rewrite <- E in X. exists (set_pc (wr s rd (sem_uop1 o (r_gpr s rs1))) (pc4 s)). split.
  - rewrite <- (uop1_rd o rd rs1 D A), <- E.
    destruct (uop1_legal o rd rs1 (r_gpr s (bits (r_inst s) 19 15)) (r_gpr s (bits (r_inst s) 24 20)) D A) as [[H L]|[H L]]; rewrite <- E in H, L.
    + apply (by_core_opimm e s); assumption.
    + apply (by_core_op e s); assumption.
  - apply done_wr; [assumption|assumption|reflexivity| |apply pc4_next; [assumption|exact I]|reflexivity].
    subst x. cbn [value]. now rewrite !RG.
Qed.
Lemma do_up e s a x : match x with ILui _ _ | IAuipc _ _ => True | _ => False end ->
  R s a -> inv s -> r_inst s = enc x -> wf_ins x -> exists s', rv32im e s = Done s' /\ done s a x s'.
Proof.
  intros K HR HI E WF. pose proof HR as (RG & RP & RM). destruct x as [| | | | |rd i|rd i| | | | | |]; try contradiction; destruct WF as (D & B); cbn [enc] in E.
  - unfold enc_lui in E. destruct (u_fields i rd 55 B D ltac:(lia)) as (E1 & E2). rewrite <- E in E1, E2. eexists. split; [exact (im_lui e s E1)|]. rewrite E2.
    apply done_wr; [assumption|assumption|reflexivity| |apply pc4_next; [assumption|exact I]|reflexivity].
    cbn [value]. rewrite E. symmetry. apply immU_enc; [assumption|assumption|lia].
  - unfold enc_auipc in E. destruct (u_fields i rd 23 B D ltac:(lia)) as (E1 & E2). rewrite <- E in E1, E2. eexists. split; [exact (im_auipc e s E1)|]. rewrite E2.
    apply done_wr; [assumption|assumption|reflexivity| |apply pc4_next; [assumption|exact I]|reflexivity].
    cbn [value]. rewrite E, immU_enc by (assumption || lia). rewrite RP. unfold w32, M32. f_equal. lia.
Qed.
Lemma imm_mod v i : (v + i mod 2 ^ 32) mod 2 ^ 32 = (v + i) mod 2 ^ 32.
Proof. apply Z.add_mod_idemp_r. discriminate. Qed.
Lemma clear_bit0 v : W v -> Z.land v 0xFFFFFFFE = 2 * (v / 2).
Proof.
  intros V. apply Z.bits_inj'. intros i I. rewrite Z.land_spec. change 0xFFFFFFFE with (Z.lxor (2 ^ 32 - 1) (2 ^ 0)). rewrite Z.lxor_spec, testbit_ones_pred by lia.
  change 2 with (2 ^ 1) at 2. rewrite Z.mul_comm. change (v / 2 * 2) with (v / 2 * 2 ^ 1). destruct (Z.eqb_spec i 0) as [->|].
  - rewrite Z.mul_pow2_bits_low by lia. rewrite Z.pow2_bits_true by lia. apply andb_false_r.
  - rewrite Z.mul_pow2_bits by lia. change (v / 2) with (v / 2 ^ 1). rewrite Z.div_pow2_bits by lia. rewrite Z.pow2_bits_false by lia. rewrite xorb_false_r.
    replace (i - 1 + 1) with i by lia. destruct (Z.ltb_spec i 32); [now rewrite andb_true_r|]. rewrite andb_false_r. symmetry. apply (is_w_testbit 32); [lia|exact V|lia].
Qed.
Lemma do_jump e s a x : match x with IJal _ _ | IJalr _ _ _ => True | _ => False end ->
  R s a -> inv s -> r_inst s = enc x -> wf_ins x -> exists s', rv32im e s = Done s' /\ done s a x s'.
Proof.
  intros K HR HI E WF. pose proof HR as (RG & RP & RM). destruct x as [| | | | | | |rd off|rd rs1 imm| | | |]; try contradiction; cbn [enc] in E.
  - destruct WF as (D & B & C). unfold enc_jal in E. destruct (j_fields off rd 111 D ltac:(lia)) as (E1 & E2). rewrite <- E in E1, E2. eexists. split; [exact (im_jal e s E1)|]. rewrite E2.
    apply done_wr; [assumption|assumption|reflexivity| | |reflexivity].
    + cbn [value]. rewrite RP. reflexivity.
    + cbn [next]. unfold next_jal, M32. rewrite E, immJ_enc by (assumption || lia). unfold w32. rewrite imm_mod, RP. reflexivity.
  - destruct WF as (D & A & B). unfold enc_jalr in E. pose proof (fld_11_0 imm) as FB.
    assert (F : rfields (fld imm 11 0 / 32) (fld imm 11 0 mod 32) rs1 0 rd 103) by (unfold rfields, reg_ix in *; lia).
    assert (E' := E). rewrite enc_I_R in E'. fields F. rewrite <- E' in E1, E4, E5. eexists. split; [exact (im_jalr e s E1)|]. rewrite E4.
    apply done_wr; [assumption|assumption|reflexivity| | |reflexivity].
    + cbn [value]. rewrite RP. reflexivity.
    + cbn [next]. unfold next_jalr, M32. rewrite E5. rewrite E, immI_enc by (assumption || lia). rewrite clear_bit0 by apply w32_range. unfold w32. rewrite imm_mod, RG. reflexivity.
Qed.
Lemma s32_sgn x : s32 x = sgn x. Proof. reflexivity. Qed.
Lemma taken_bcond o a b : ref_taken (bop_f o) a b = bcond o a b.
Proof. destruct o; cbn [bop_f bcond]; unfold ref_taken; eqbs; rewrite ?s32_sgn; try reflexivity; apply Z.leb_antisym. Qed.
Lemma do_ib e s a o rs1 rs2 off : let x := IB o rs1 rs2 off in
  R s a -> inv s -> r_inst s = enc x -> wf_ins x -> exists s', rv32im e s = Done s' /\ done s a x s'.
Proof.
  intros x HR HI E (A & B & C & C2). cbn [enc x] in E. pose proof HR as (RG & RP & RM). pose proof HI as (_ & _ & IM & _).
  unfold enc_bop in E. assert (E' := E). unfold enc_B in E'.
  pose proof (fld_range off 12 12 ltac:(lia)) as F1. pose proof (fld_range off 10 5 ltac:(lia)) as F2. pose proof (fld_range off 4 1 ltac:(lia)) as F3. pose proof (fld_range off 11 11 ltac:(lia)) as F4.
  unfold is_w in *. change (2 ^ (12 - 12 + 1)) with 2 in *. change (2 ^ (10 - 5 + 1)) with 64 in *. change (2 ^ (4 - 1 + 1)) with 16 in *. change (2 ^ (11 - 11 + 1)) with 2 in *. change (2 ^ 6) with 64 in *.
  assert (F : rfields (fld off 12 12 * 64 + fld off 10 5) rs2 rs1 (bop_f o) (fld off 4 1 * 2 + fld off 11 11) 99).
  { unfold rfields, reg_ix in *. destruct o; cbn [bop_f]; lia. }
  fields F. rewrite <- E' in E1, E2, E5, E6. eexists. split; [exact (im_br e s E1)|]. rewrite E2, E5, E6, taken_bcond.
  rewrite E, immB_enc by (try assumption; destruct o; cbn [bop_f]; lia).
  unfold done. subst x. cbn [dest next memory set_pc r_gpr r_pc r_mem r_csr r_priv r_dev].
  split; [reflexivity|]. split; [|split; [intros y; symmetry; apply RM|split; [exact IM|repeat split; reflexivity]]].
  unfold next_bop, M32, w32, pc4. rewrite imm_mod, !RG, RP. reflexivity.
Qed.
Lemma misaligned_spec f3 a : load_f3 f3 -> aligned a f3 -> misaligned f3 a = false.
Proof.
  intros F A. unfold misaligned, aligned in *.
  cases F; change (size 0) with 1 in *; change (size 1) with 2 in *; change (size 2) with 4 in *; change (size 4) with 1 in *; change (size 5) with 2 in *;
    change (Z.land 0 3) with 0; change (Z.land 1 3) with 1; change (Z.land 2 3) with 2; change (Z.land 4 3) with 0; change (Z.land 5 3) with 1; eqbs.
  - now rewrite Z.land_0_r.
  - change (Z.land a 1) with (Z.land a (2 ^ 1 - 1)). rewrite (land_lo a 1) by lia. change (2 ^ 1) with 2. now rewrite A.
  - rewrite land3. now rewrite A.
  - now rewrite Z.land_0_r.
  - change (Z.land a 1) with (Z.land a (2 ^ 1 - 1)). rewrite (land_lo a 1) by lia. change (2 ^ 1) with 2. now rewrite A.
Qed.
Lemma load_f3_range f3 : load_f3 f3 -> 0 <= f3 < 8. Proof. intros F. cases F; lia. Qed.
Lemma do_load e s a f3 rd rs1 imm : let x := ILoad f3 rd rs1 imm in
  R s a -> inv s -> r_inst s = enc x -> wf_ins x -> access_ok a x -> exists s', rv32im e s = Done s' /\ done s a x s' /\ W (value a x).
Proof.
  intros x HR HI E (F3 & D & A & B) (AL & PL). cbn [enc x] in E. pose proof HR as (RG & RP & RM). pose proof HI as (_ & _ & IM & _ & _ & BR).
  assert (F3R := load_f3_range _ F3). unfold enc_load in E. pose proof (fld_11_0 imm) as FB.
  assert (F : rfields (fld imm 11 0 / 32) (fld imm 11 0 mod 32) rs1 f3 rd 3) by (unfold rfields, reg_ix in *; lia).
  assert (E' := E). rewrite enc_I_R in E'. fields F. rewrite <- E' in E1, E2, E4, E5.
  assert (AD : w32 (r_gpr s (bits (r_inst s) 19 15) + immI (r_inst s)) = addr (x_gpr a) x).
  { rewrite E5, E, immI_enc by (assumption || lia). unfold w32. rewrite imm_mod. subst x. cbn [addr]. rewrite RG. reflexivity. }
  assert (AW : W (addr (x_gpr a) x)) by apply W_mod.
  assert (V : value a x = ref_load e s f3 (addr (x_gpr a) x)).
  { rewrite plain_load by assumption. subst x. cbn [value]. apply isa_load_ext. intros y _. apply RM. }
  exists (set_pc (wr s rd (ref_load e s f3 (addr (x_gpr a) x))) (pc4 s)). split; [|split].
  - unfold rv32im. cbv zeta. rewrite E1. eqbs. rewrite (bare s BR). rewrite AD, E2, E4. rewrite misaligned_spec by assumption. reflexivity.
  - apply done_wr; [assumption|assumption|reflexivity|exact V|apply pc4_next; [assumption|exact I]|reflexivity].
  - rewrite V, plain_load by assumption. now apply load_range.
Qed.
Lemma upd_words m k v : (forall i, W (m i)) -> W v -> forall i, W (RefModel.upd m k v i).
Proof. intros M V i. unfold RefModel.upd. destruct (i =? k); auto. Qed.
Lemma store_ext m m' a n v y : (forall z, m z = m' z) -> store_bytes m a n v y = store_bytes m' a n v y.
Proof. intros H. unfold store_bytes. destruct (_ && _); auto. Qed.
Lemma do_store_i e s a f3 rs1 rs2 imm : let x := IStore f3 rs1 rs2 imm in
  R s a -> inv s -> r_inst s = enc x -> wf_ins x -> access_ok a x -> exists s', rv32im e s = Done s' /\ done s a x s'.
Proof.
  intros x HR HI E (F3 & A & B & C) (AL & PL). cbn [enc x] in E. pose proof HR as (RG & RP & RM). pose proof HI as (IG & _ & IM & _ & _ & BR).
  assert (F3R := load_f3_range _ (store_is_load _ F3)). unfold enc_store in E. assert (E' := E). unfold enc_S in E'.
  pose proof (fld_range imm 11 5 ltac:(lia)) as F1. pose proof (fld_range imm 4 0 ltac:(lia)) as F2. unfold is_w in *. change (2 ^ (11 - 5 + 1)) with 128 in *. change (2 ^ (4 - 0 + 1)) with 32 in *.
  assert (F : rfields (fld imm 11 5) rs2 rs1 f3 (fld imm 4 0) 35) by (unfold rfields, reg_ix in *; lia).
  fields F. rewrite <- E' in E1, E2, E5, E6.
  assert (AD : w32 (r_gpr s (bits (r_inst s) 19 15) + immS (r_inst s)) = addr (x_gpr a) x).
  { rewrite E5, E, immS_enc by (assumption || lia). unfold w32. rewrite imm_mod. subst x. cbn [addr]. rewrite RG. reflexivity. }
  set (pa := addr (x_gpr a) x) in *. assert (AW : W pa) by apply W_mod.
  set (s1 := set_st s true pa (st_data f3 (r_gpr s rs2)) (st_strb f3)).
  destruct (plain_store e s1 AW PL eq_refl) as (G & CS & PV & PC & DV & _ & _ & _ & _ & _ & M).
  exists (set_pc (store_data e s1) (pc4 s)). split.
  - unfold rv32im. cbv zeta. rewrite E1. eqbs. rewrite (bare s BR). rewrite AD, E2, E6. rewrite misaligned_spec by (assumption || now apply store_is_load). reflexivity.
  - unfold done. cbn [set_pc r_gpr r_pc r_mem r_csr r_priv r_dev]. rewrite G, CS, PV, DV, M.
    split; [intros r; reflexivity|]. split; [symmetry; apply pc4_next; [assumption|exact I]|].
    change (r_mem s1) with (r_mem s). change (r_saddr s1) with pa. change (r_sstrb s1) with (st_strb f3). change (r_sdata s1) with (st_data f3 (r_gpr s rs2)).
    fold (merged pa f3 (r_gpr s rs2) (r_mem s (pa / 4))). split; [|split; [|repeat split; reflexivity]].
    + intros y. rewrite merged_bytes by (assumption || apply IG). subst x. cbn [memory]. fold pa. rewrite RG. apply store_ext. intros z. symmetry. apply RM.
    + apply upd_words; [exact IM|]. apply merged_range, IM.
Qed.
Lemma ref_amo_sem o m b : ref_amo (amo_f o) m b = Some (sem_amo o m b) \/ (W m -> W b -> ref_amo (amo_f o) m b = Some (sem_amo o m b)).
Proof.
  destruct o; unfold ref_amo; cbn [amo_f sem_amo]; eqbs; try (left; reflexivity); right; intros M B; f_equal; change (s32 b) with (sgn b); change (s32 m) with (sgn m).
  - apply eq_word; [apply is_w_lxor; [lia|exact M|exact B]|]. intros i I. apply Z.lxor_spec.
  - apply eq_word; [apply is_w_land; [lia|exact M|unfold W in B; lia]|]. intros i I. apply Z.land_spec.
  - apply eq_word; [apply is_w_lor; [lia|exact M|exact B]|]. intros i I. apply Z.lor_spec.
  - destruct (Z.ltb_spec (sgn b) (sgn m)), (Z.leb_spec (sgn m) (sgn b)); try lia; reflexivity.
  - destruct (Z.ltb_spec (sgn b) (sgn m)), (Z.leb_spec (sgn b) (sgn m)); try lia; try reflexivity.
    unfold sgn, M32, W in *. change (2 ^ 32) with 4294967296 in *. change (2 ^ 31) with 2147483648 in *.
    destruct (Z.ltb_spec b 2147483648), (Z.ltb_spec m 2147483648); lia.
  - destruct (Z.ltb_spec m b); lia.
  - destruct (Z.ltb_spec b m); lia.
Qed.
Lemma isa_lw m a : (forall i, W (m i)) -> a mod 4 = 0 -> isa_load (bytes_of m) a 2 = m (a / 4).
Proof.
  intros M A. rewrite <- word_load_spec by (try exact A; cbn; tauto). unfold word_load. rewrite extract_spec by (cbn; tauto). rewrite A. unfold extend. eqbs.
  change (256 ^ 0) with 1. rewrite Z.div_1_r. change (256 ^ size 2) with (2 ^ 32). apply Z.mod_small. apply M.
Qed.
Lemma do_amo e s a o q rd rs1 rs2 : let x := IAmo o q rd rs1 rs2 in
  R s a -> inv s -> r_inst s = enc x -> wf_ins x -> access_ok a x -> exists s', rv32a e s = Done s' /\ done s a x s' /\ W (value a x).
Proof.
  intros x HR HI E (Q & D & A & B) (AL & PL). cbn [enc x] in E. pose proof HR as (RG & RP & RM). pose proof HI as (IG & _ & IM & _ & _ & BR).
  unfold enc_amo in E.
  assert (F : rfields (amo_f o * 4 + q) rs2 rs1 2 rd 47) by (unfold rfields, reg_ix in *; destruct o; cbn [amo_f]; lia).
  fields F. rewrite <- E in E3, E4, E5, E6.
  assert (F5 : bits (r_inst s) 31 27 = amo_f o).
  { rewrite E. rewrite bits_div by lia. unfold enc_R. change (2 ^ 27) with 134217728. change (2 ^ 25) with 33554432. change (2 ^ 20) with 1048576. change (2 ^ 15) with 32768. change (2 ^ 12) with 4096. change (2 ^ 7) with 128. change (2 ^ (31 - 27 + 1)) with 32.
    unfold rfields in F. destruct o; cbn [amo_f] in *; lia. }
  set (pa := addr (x_gpr a) x) in *. assert (PA : pa = r_gpr s rs1) by (subst pa x; cbn [addr]; apply RG).
  assert (AW : W pa) by (rewrite PA; apply IG).
  assert (V : value a x = r_mem s (pa / 4)).
  { subst x. cbn [value]. fold pa. rewrite <- (isa_lw (r_mem s) pa IM AL). apply isa_load_ext. intros y _. apply RM. }
  set (v := sem_amo o (r_mem s (pa / 4)) (r_gpr s rs2)). assert (VW : W v) by (apply amo_range; [apply IM|apply IG]).
  set (s1 := wr (set_st (set_st s true pa (r_sdata s) 15) true pa v 15) rd (r_mem s (pa / 4))).
  destruct (plain_store e s1 AW PL eq_refl) as (G & CS & PV & PC & DV & _ & _ & _ & _ & _ & M).
  exists (set_pc (store_data e s1) (pc4 s)). split; [|split].
  - unfold rv32a. cbv zeta. rewrite F5, E4, E5, E6, (bare s BR), <- PA. rewrite land3, AL. change (nz 0) with false. cbv iota.
    assert (N2 : (amo_f o =? 2) = false) by (destruct o; reflexivity). assert (N3 : (amo_f o =? 3) = false) by (destruct o; reflexivity). rewrite N2, N3. cbv iota.
    assert (L : load_word (set_st s true pa (r_sdata s) 15) pa = r_mem s (pa / 4)) by (rewrite lw by exact AW; reflexivity).
    rewrite L. assert (AO : ref_amo (amo_f o) (r_mem s (pa / 4)) (r_gpr s rs2) = Some v).
    { destruct (ref_amo_sem o (r_mem s (pa / 4)) (r_gpr s rs2)) as [H|H]; [exact H|]. apply H; [apply IM|apply IG]. }
    rewrite AO. reflexivity.
  - unfold done. cbn [set_pc r_gpr r_pc r_mem r_csr r_priv r_dev]. rewrite G, CS, PV, DV, M. subst s1. unfold wr.
    cbn [set_st set_gpr r_gpr r_pc r_mem r_csr r_priv r_dev r_saddr r_sdata r_sstrb].
    split; [intros r; subst x; cbn [dest]; unfold RefModel.upd; now rewrite V|]. split; [symmetry; apply pc4_next; [assumption|exact I]|].
    change (merge (lane_mask (shl 15 (Z.land pa 3))) (shl v (Z.land pa 3 * 8)) (r_mem s (pa / 4))) with (merged pa 2 v (r_mem s (pa / 4))).
    split; [|split; [|repeat split; reflexivity]].
    + intros y. rewrite merged_bytes by (try exact VW; try exact AL; cbn; tauto). subst x. cbn [memory]. fold pa. change (size 2) with 4.
      assert (V' : isa_load (x_mem a) pa 2 = r_mem s (pa / 4)) by exact V. rewrite V', RG. fold v. apply store_ext. intros z. symmetry. apply RM.
    + apply upd_words; [exact IM|]. apply merged_range, IM.
  - rewrite V. apply IM.
Qed.

(** ** A whole call of exec *)
Definition ops : list Z := [51; 19; 55; 23; 111; 103; 99; 3; 35].
Lemma enc_op x : wf_ins x -> match x with IAmo _ _ _ _ _ => bits (enc x) 6 0 = 47 | _ => In (bits (enc x) 6 0) ops end.
Proof.
  intros WF. unfold ops. cbn [In]. destruct x as [o rd rs1 rs2|o rd rs1 rs2|o rd rs1 imm|o rd rs1 n|o rd rs1|rd i|rd i|rd off|rd rs1 imm|o rs1 rs2 off|f3 rd rs1 imm|f3 rs1 rs2 imm|o q rd rs1 rs2]; cbn [enc wf_ins] in *.
  - destruct WF as (D & A & B). unfold enc_rop. assert (F : rfields (fst (rop_f o)) rs2 rs1 (snd (rop_f o)) rd 51) by (unfold rfields, reg_ix in *; pose proof (rf_fields o); lia). fields F. rewrite E1. tauto.
  - destruct WF as (D & A & B). unfold enc_mop. assert (F : rfields 1 rs2 rs1 (mop_f o) rd 51) by (unfold rfields, reg_ix in *; destruct o; cbn [mop_f]; lia). fields F. rewrite E1. tauto.
  - destruct WF as (D & A & B). destruct (iop_fields o rd rs1 imm D A) as (E & _). rewrite E. tauto.
  - destruct WF as (D & A & B). unfold enc_shop. assert (F : rfields (fst (rop_f (shop_r o))) n rs1 (snd (rop_f (shop_r o))) rd 19) by (unfold rfields, reg_ix in *; pose proof (sh_fields o); lia). fields F. rewrite E1. tauto.
  - destruct WF as (D & A). destruct (uop1_legal o rd rs1 0 0 D A) as [[E _]|[E _]]; rewrite E; tauto.
  - destruct WF as (D & B). destruct (u_fields i rd 55 B D ltac:(lia)) as (E & _). unfold enc_lui. rewrite E. tauto.
  - destruct WF as (D & B). destruct (u_fields i rd 23 B D ltac:(lia)) as (E & _). unfold enc_auipc. rewrite E. tauto.
  - destruct WF as (D & B). destruct (j_fields off rd 111 D ltac:(lia)) as (E & _). unfold enc_jal. rewrite E. tauto.
  - destruct WF as (D & A & B). unfold enc_jalr. rewrite enc_I_R. pose proof (fld_11_0 imm). assert (F : rfields (fld imm 11 0 / 32) (fld imm 11 0 mod 32) rs1 0 rd 103) by (unfold rfields, reg_ix in *; lia). fields F. rewrite E1. tauto.
  - destruct WF as (A & B & _). unfold enc_bop, enc_B.
    pose proof (fld_range off 12 12 ltac:(lia)) as F1. pose proof (fld_range off 10 5 ltac:(lia)) as F2. pose proof (fld_range off 4 1 ltac:(lia)) as F3. pose proof (fld_range off 11 11 ltac:(lia)) as F4.
    unfold is_w in *. change (2 ^ (12 - 12 + 1)) with 2 in *. change (2 ^ (10 - 5 + 1)) with 64 in *. change (2 ^ (4 - 1 + 1)) with 16 in *. change (2 ^ (11 - 11 + 1)) with 2 in *. change (2 ^ 6) with 64 in *.
    assert (F : rfields (fld off 12 12 * 64 + fld off 10 5) rs2 rs1 (bop_f o) (fld off 4 1 * 2 + fld off 11 11) 99) by (unfold rfields, reg_ix in *; destruct o; cbn [bop_f]; lia).
    fields F. rewrite E1. tauto.
  - destruct WF as (L & D & A & B). unfold enc_load. rewrite enc_I_R. pose proof (fld_11_0 imm). pose proof (load_f3_range _ L).
    assert (F : rfields (fld imm 11 0 / 32) (fld imm 11 0 mod 32) rs1 f3 rd 3) by (unfold rfields, reg_ix in *; lia). fields F. rewrite E1. tauto.
  - destruct WF as (L & D & A & B). unfold enc_store, enc_S. pose proof (load_f3_range _ (store_is_load _ L)).
    pose proof (fld_range imm 11 5 ltac:(lia)) as F1. pose proof (fld_range imm 4 0 ltac:(lia)) as F2. unfold is_w in *. change (2 ^ (11 - 5 + 1)) with 128 in *. change (2 ^ (4 - 0 + 1)) with 32 in *.
    assert (F : rfields (fld imm 11 5) rs2 rs1 f3 (fld imm 4 0) 35) by (unfold rfields, reg_ix in *; lia). fields F. rewrite E1. tauto.
  - destruct WF as (Q & D & A & B). unfold enc_amo. assert (F : rfields (amo_f o * 4 + q) rs2 rs1 2 rd 47) by (unfold rfields, reg_ix in *; destruct o; cbn [amo_f]; lia). fields F. rewrite E1. tauto.
Qed.
Definition no_irq : irq := Irq false false false false false false.
Lemma no_irq_mie ms ip dl pv : ref_irq ms 0 ip dl pv = no_irq.
Proof. unfold ref_irq. rewrite !Z.land_0_l. change (nz 0) with false. rewrite !andb_false_r. reflexivity. Qed.
Lemma sync_fields e s : r_gpr (sync_timer e s) = r_gpr s /\ r_pc (sync_timer e s) = r_pc s /\ r_priv (sync_timer e s) = r_priv s /\ r_mem (sync_timer e s) = r_mem s /\
  r_dev (sync_timer e s) = r_dev s /\ r_inst (sync_timer e s) = r_inst s /\ r_flags (sync_timer e s) = r_flags s /\
  (forall c, c <> mip -> c <> sip -> r_csr (sync_timer e s) c = r_csr s c).
Proof.
  unfold sync_timer, wc. cbn [set_csr r_gpr r_pc r_priv r_mem r_dev r_inst r_flags r_csr]. repeat split.
  intros c M S. unfold cset. destruct c; try reflexivity; congruence.
Qed.
Definition quiet (e : renv) (s : ref) : ref := set_irq (sync_timer e s) no_irq.
Lemma riscv_plain e s op : r_csr s mie = 0 -> r_flags s = mkfl false false false false -> bits (r_inst s) 6 0 = op -> In op (47 :: ops) ->
  riscv e s = zero_x0 (if op =? 47 then rv32a e (quiet e s) else rv32im e (quiet e s)).
Proof.
  intros M F O I. unfold riscv. cbv zeta. destruct (sync_fields e s) as (SG & SP & SV & SM & SD & SI & SF & SC).
  rewrite SI, (SC mie) by discriminate. rewrite M, no_irq_mie. fold (quiet e s).
  assert (QF : r_flags (quiet e s) = mkfl false false false false) by (unfold quiet; cbn [set_irq r_flags]; now rewrite SF). rewrite QF.
  assert (N : forall k, bits k 6 0 <> op -> (r_inst s =? k) = false).
  { intros k K. destruct (Z.eqb_spec (r_inst s) k) as [<-|]; [|reflexivity]. exfalso. now apply K. }
  assert (O5 : op <> 115) by (unfold ops in I; cbn [In] in I; lia).
  rewrite (N INST_ECALL), (N INST_MRET), (N INST_SRET), (N INST_WFI) by (intros H; apply O5; rewrite <- H; vm_compute; reflexivity).
  cbn [f_pfi f_pfl f_pfs f_ill negb andb orb]. rewrite !andb_false_r. unfold any_m, any_s, no_irq. cbn [m_soft m_timer m_ext s_soft s_timer s_ext orb]. cbv iota.
  rewrite O. clear - I. unfold ops in I. cbn [In] in I.
  destruct I as [I|[I|[I|[I|[I|[I|[I|[I|[I|[I|[]]]]]]]]]]]; subst op; eqbs; cbn [orb]; reflexivity.
Qed.
Lemma fetch s a w : inv s -> R s a -> x_pc a mod 4 = 0 -> load_bytes (x_mem a) (x_pc a) 4 = w -> load_word s (r_pc s) = w.
Proof.
  intros (_ & _ & IM & IP & _) (_ & RP & RM) AL L. rewrite lw by exact IP. rewrite RP in *.
  assert (X : isa_load (bytes_of (r_mem s)) (r_pc s) 2 = w).
  { rewrite <- L. unfold isa_load, extend. eqbs. change (Z.to_nat (size 2)) with 4%nat. apply load_bytes_ext. intros y _. symmetry. apply RM. }
  now rewrite (isa_lw _ _ IM AL) in X.
Qed.

Theorem exec_step e s a b : inv s -> R s a -> isa_step a b -> exists s', exec e s = Done s' /\ inv s' /\ R s' b /\ r_priv s' = r_priv s /\ r_dev s' = r_dev s.
Proof.
  intros HI HR (x & PC & FE & WF & NR & AO & BP & BG & BM).
  assert (FW := fetch s a (enc x) HI HR PC FE). destruct HI as (IG & I0 & IM & IP & IE & BR). destruct HR as (RG & RP & RM).
  unfold exec. cbv zeta.
  set (s0 := set_st (set_flags s (mkfl false false false false)) false (r_saddr s) (r_sdata s) (r_sstrb s)).
  change (r_csr s0) with (r_csr s). rewrite BR. cbn [andb]. cbv iota. change (r_pc s0) with (r_pc s). change (load_word s0 (r_pc s)) with (load_word s (r_pc s)). rewrite FW.
  set (s1 := set_inst s0 (enc x)). change (r_inst s1) with (enc x).
  assert (OPS : In (bits (enc x) 6 0) (47 :: ops)).
  { assert (X := enc_op x WF). destruct x; try (right; exact X). left. now symmetry. }
  assert (NB : (enc x =? INST_EBREAK) = false).
  { destruct (Z.eqb_spec (enc x) INST_EBREAK) as [X|]; [|reflexivity]. exfalso. rewrite X in OPS. vm_compute in OPS. repeat (destruct OPS as [OPS|OPS]; [discriminate OPS|]). exact OPS. }
  rewrite NB. cbv iota. rewrite (riscv_plain e s1 (bits (enc x) 6 0) IE eq_refl eq_refl OPS).
  set (s2 := quiet e s1). destruct (sync_fields e s1) as (SG & SP & SV & SM & SD & SI & SF & SC).
  assert (H2 : inv s2).
  { unfold inv, s2, quiet. cbn [set_irq r_gpr r_mem r_pc r_csr]. rewrite SG, SM, SP, !SC by discriminate. repeat split; assumption || apply IG || apply IM || apply IP. }
  assert (R2 : R s2 a).
  { unfold R, s2, quiet. cbn [set_irq r_gpr r_mem r_pc r_csr]. rewrite SG, SM, SP. repeat split; assumption. }
  assert (E2 : r_inst s2 = enc x) by (unfold s2, quiet; cbn [set_irq r_inst]; rewrite SI; reflexivity).
  assert (DO : exists s3, step_of e s2 x = Done s3 /\ done s2 a x s3 /\ (dest x <> None -> W (value a x))).
  { assert (RGs : forall r, x_gpr a r = r_gpr s2 r) by apply R2. assert (IGs : forall r, W (r_gpr s2 r)) by apply H2.
    destruct x as [o rd rs1 rs2|o rd rs1 rs2|o rd rs1 imm|o rd rs1 n|o rd rs1|rd i|rd i|rd off|rd rs1 imm|o rs1 rs2 off|f3 rd rs1 imm|f3 rs1 rs2 imm|o q rd rs1 rs2]; cbn [step_of].
    - destruct (do_ir e s2 a o rd rs1 rs2 R2 H2 E2 WF NR) as (s3 & X & Y). exists s3. split; [exact X|split; [exact Y|]]. intros _. cbn [value]. rewrite !RGs. apply rop_range; apply IGs.
    - destruct (do_im e s2 a o rd rs1 rs2 R2 H2 E2 WF) as (s3 & X & Y). exists s3. split; [exact X|split; [exact Y|]]. intros _. cbn [value]. rewrite !RGs. apply mop_range; apply IGs.
    - destruct (do_ii e s2 a o rd rs1 imm R2 H2 E2 WF) as (s3 & X & Y). exists s3. split; [exact X|split; [exact Y|]]. intros _. cbn [value]. rewrite !RGs. apply iop_range; apply IGs.
    - destruct (do_is e s2 a o rd rs1 n R2 H2 E2 WF NR) as (s3 & X & Y). exists s3. split; [exact X|split; [exact Y|]]. intros _. cbn [value]. rewrite !RGs. apply rop_range; [apply IGs|]. destruct WF as (_ & _ & N). unfold W. change (2 ^ 32) with 4294967296. lia.
    - destruct (do_iu e s2 a o rd rs1 R2 H2 E2 WF) as (s3 & X & Y). exists s3. split; [exact X|split; [exact Y|]]. intros _. cbn [value]. rewrite !RGs. apply uop1_range; apply IGs.
    - destruct (do_up e s2 a (ILui rd i) I R2 H2 E2 WF) as (s3 & X & Y). exists s3. split; [exact X|split; [exact Y|]]. intros _. cbn [value]. destruct WF as (_ & N). change (2 ^ 12) with 4096. change (2 ^ 20) with 1048576 in N. apply W_small. lia.
    - destruct (do_up e s2 a (IAuipc rd i) I R2 H2 E2 WF) as (s3 & X & Y). exists s3. split; [exact X|split; [exact Y|]]. intros _. apply W_mod.
    - destruct (do_jump e s2 a (IJal rd off) I R2 H2 E2 WF) as (s3 & X & Y). exists s3. split; [exact X|split; [exact Y|]]. intros _. apply W_mod.
    - destruct (do_jump e s2 a (IJalr rd rs1 imm) I R2 H2 E2 WF) as (s3 & X & Y). exists s3. split; [exact X|split; [exact Y|]]. intros _. apply W_mod.
    - destruct (do_ib e s2 a o rs1 rs2 off R2 H2 E2 WF) as (s3 & X & Y). exists s3. split; [exact X|split; [exact Y|]]. intros N. now contradiction N.
    - destruct (do_load e s2 a f3 rd rs1 imm R2 H2 E2 WF AO) as (s3 & X & Y & Z). exists s3. split; [exact X|split; [exact Y|]]. intros _. exact Z.
    - destruct (do_store_i e s2 a f3 rs1 rs2 imm R2 H2 E2 WF AO) as (s3 & X & Y). exists s3. split; [exact X|split; [exact Y|]]. intros N. now contradiction N.
    - destruct (do_amo e s2 a o q rd rs1 rs2 R2 H2 E2 WF AO) as (s3 & X & Y & Z). exists s3. split; [exact X|split; [exact Y|]]. intros _. exact Z. }
  destruct DO as (s3 & X & (DG & DP & DM & DW & DC & DV & DD) & VW).
  assert (SEL : (if bits (enc x) 6 0 =? 47 then rv32a e s2 else rv32im e s2) = Done s3).
  { rewrite <- X. assert (Y := enc_op x WF). unfold ops in Y. cbn [In] in Y. clear - Y.
    destruct x; cbn [step_of]; match goal with |- context [?t =? 47] => destruct (Z.eqb_spec t 47) end; try reflexivity; exfalso; lia. }
  rewrite SEL. cbn [zero_x0]. exists (wr s3 0 0). split; [reflexivity|]. unfold wr.
  assert (NW : W (next a x)).
  { assert (IGs : forall r, W (x_gpr a r)) by (intros r; rewrite RG; apply IG).
    destruct x; cbn [next]; try apply W_mod.
    - unfold next_jalr. match goal with |- W (2 * (?v / 2)) => assert (VV : W v) by apply W_mod; revert VV; generalize v end. intros v V. unfold W in *. lia.
    - unfold next_bop. destruct (bcond _ _ _); apply W_mod. }
  assert (G3 : forall r, W (r_gpr s3 r)).
  { intros r. rewrite DG. destruct H2 as (IG2 & _). destruct (dest x); [|apply IG2]. destruct (r =? z); [apply VW; discriminate|apply IG2]. }
  destruct H2 as (IG2 & _ & _ & _ & IE2 & BR2).
  split; [|split; [|split]].
  - unfold inv. cbn [set_gpr r_gpr r_mem r_pc r_csr]. unfold RefModel.upd. rewrite DC, DP. split; [|split; [reflexivity|split; [exact DW|split; [exact NW|split; assumption]]]].
    intros r. destruct (r =? 0); [apply W_small; lia|apply G3].
  - unfold R. cbn [set_gpr r_gpr r_mem r_pc]. rewrite DP. split; [|split; [exact BP|intros y; rewrite DM; apply BM]].
    intros r. rewrite BG. unfold RefModel.upd. rewrite DG. destruct (r =? 0); [reflexivity|]. destruct R2 as (RG2 & _). destruct (dest x); [|apply RG2]. destruct (r =? z); [reflexivity|apply RG2].
  - cbn [set_gpr r_priv]. rewrite DV. unfold s2, quiet. cbn [set_irq r_priv]. now rewrite SV.
  - cbn [set_gpr r_dev]. rewrite DD. unfold s2, quiet. cbn [set_irq r_dev]. now rewrite SD.
Qed.
