From Verif Require Import Base.

Ltac Zify.zify_post_hook ::= Z.div_mod_to_equations.

Lemma upd_length {A} i (v : A) l : length (upd i v l) = length l.
Proof. revert i; induction l as [|h t IH]; intros [|i]; cbn; auto. Qed.

Lemma nth_upd_eq {A} i (v d : A) l : (i < length l)%nat -> nth i (upd i v l) d = v.
Proof.
  revert i; induction l as [|h t IH]; intros [|i] H; cbn in *; try lia; auto.
  apply IH; lia.
Qed.

Lemma nth_upd_ne {A} i j (v d : A) l : i <> j -> nth j (upd i v l) d = nth j l d.
Proof.
  revert i j; induction l as [|h t IH]; intros [|i] [|j] H; cbn; auto; try lia.
Qed.

Lemma nth_upd {A} i j (v d : A) l :
  nth j (upd i v l) d =
  if (Nat.eqb i j && Nat.ltb i (length l))%bool then v else nth j l d.
Proof.
  destruct (Nat.eqb_spec i j) as [->|Hne]; cbn [andb].
  - destruct (Nat.ltb_spec j (length l)) as [H|H].
    + now apply nth_upd_eq.
    + rewrite !nth_overflow; auto; rewrite ?upd_length; lia.
  - now apply nth_upd_ne.
Qed.

Lemma upd_oob {A} i (v : A) l : (length l <= i)%nat -> upd i v l = l.
Proof.
  revert i; induction l as [|h t IH]; intros [|i] H; cbn in *; auto; try lia.
  f_equal; apply IH; lia.
Qed.

Lemma list_ext {A} (d : A) l1 l2 :
  length l1 = length l2 ->
  (forall i, (i < length l1)%nat -> nth i l1 d = nth i l2 d) -> l1 = l2.
Proof. intros. now apply (nth_ext _ _ d d). Qed.

Lemma fupd_eq {A} (f : nat -> A) i v : fupd f i v i = v.
Proof. unfold fupd; now rewrite Nat.eqb_refl. Qed.

Lemma fupd_ne {A} (f : nat -> A) i j v : j <> i -> fupd f i v j = f j.
Proof. unfold fupd; intros H; destruct (Nat.eqb_spec j i); congruence. Qed.

(** Words. *)
Lemma wrap_range n x : 0 <= n -> is_w n (wrap n x).
Proof. intros; unfold is_w, wrap; apply Z.mod_pos_bound; apply Z.pow_pos_nonneg; lia. Qed.

Lemma w32_range x : is_w 32 (w32 x).
Proof. apply (wrap_range 32); lia. Qed.

Lemma w32_id x : is_w 32 x -> w32 x = x.
Proof. unfold is_w, w32; intros; now apply Z.mod_small. Qed.

Lemma wrap_id n x : is_w n x -> wrap n x = x.
Proof. unfold is_w, wrap; intros; now apply Z.mod_small. Qed.

Lemma testbit_wrap n x i :
  0 <= n -> Z.testbit (wrap n x) i = (i <? n) && Z.testbit x i.
Proof.
  intros Hn; unfold wrap.
  destruct (Z.ltb_spec i n).
  - destruct (Z.ltb_spec i 0).
    + rewrite !Z.testbit_neg_r by lia; reflexivity.
    + rewrite Z.mod_pow2_bits_low by lia; reflexivity.
  - rewrite Z.mod_pow2_bits_high by lia; reflexivity.
Qed.

Lemma testbit_w32 x i : Z.testbit (w32 x) i = (i <? 32) && Z.testbit x i.
Proof. apply (testbit_wrap 32); lia. Qed.

Lemma is_w_testbit n x i : 0 <= n -> is_w n x -> n <= i -> Z.testbit x i = false.
Proof.
  intros Hn Hx Hi. rewrite <- (wrap_id n x Hx), testbit_wrap by lia.
  destruct (Z.ltb_spec i n); [lia | reflexivity].
Qed.

Lemma word_ext n x y :
  0 <= n -> is_w n x -> is_w n y ->
  (forall i, 0 <= i < n -> Z.testbit x i = Z.testbit y i) -> x = y.
Proof.
  intros Hn Hx Hy H; apply Z.bits_inj'; intros i Hi.
  destruct (Z.lt_ge_cases i n) as [Hlt|Hge].
  - apply H; lia.
  - rewrite (is_w_testbit n x i), (is_w_testbit n y i) by (auto; lia); reflexivity.
Qed.

Lemma testbit_ones_pred n i : 0 <= n -> 0 <= i -> Z.testbit (2 ^ n - 1) i = (i <? n).
Proof.
  intros. replace (2 ^ n - 1) with (Z.ones n) by (rewrite Z.ones_equiv; lia).
  destruct (Z.ltb_spec i n).
  - now apply Z.ones_spec_low.
  - now apply Z.ones_spec_high.
Qed.

Lemma testbit_bits x hi lo i :
  0 <= lo <= hi -> 0 <= i ->
  Z.testbit (bits x hi lo) i = (i <? hi - lo + 1) && Z.testbit x (i + lo).
Proof.
  intros. unfold bits. rewrite Z.land_spec, Z.shiftr_spec by lia.
  rewrite testbit_ones_pred by lia. apply andb_comm.
Qed.

Lemma bits_range x hi lo : 0 <= lo <= hi -> is_w (hi - lo + 1) (bits x hi lo).
Proof.
  intros. unfold bits, is_w.
  replace (2 ^ (hi - lo + 1) - 1) with (Z.ones (hi - lo + 1)) by (rewrite Z.ones_equiv; lia).
  rewrite Z.land_ones by lia. apply Z.mod_pos_bound, Z.pow_pos_nonneg; lia.
Qed.

Lemma bits_div x hi lo : 0 <= lo <= hi -> bits x hi lo = (x / 2 ^ lo) mod 2 ^ (hi - lo + 1).
Proof.
  intros. unfold bits.
  replace (2 ^ (hi - lo + 1) - 1) with (Z.ones (hi - lo + 1)) by (rewrite Z.ones_equiv; lia).
  rewrite Z.land_ones, Z.shiftr_div_pow2 by lia. reflexivity.
Qed.

Lemma s32_range x : is_w 32 x -> - 2 ^ 31 <= s32 x < 2 ^ 31.
Proof. unfold is_w, s32; intros; destruct (Z.ltb_spec x (2 ^ 31)); lia. Qed.

Lemma s32_mod x : is_w 32 x -> (s32 x) mod 2 ^ 32 = x.
Proof.
  unfold is_w, s32; intros; destruct (Z.ltb_spec x (2 ^ 31)).
  - apply Z.mod_small; lia.
  - replace (x - 2 ^ 32) with (x + (-1) * 2 ^ 32) by lia.
    rewrite Z.mod_add by lia. apply Z.mod_small; lia.
Qed.

Lemma is_w_land n x y : 0 <= n -> is_w n x -> 0 <= y -> is_w n (Z.land x y).
Proof.
  intros Hn Hx Hy. unfold is_w in *. split.
  - apply Z.land_nonneg; lia.
  - destruct (Z.eq_dec (Z.land x y) 0) as [->|Hz]; [lia|].
    assert (0 <= Z.land x y) by (apply Z.land_nonneg; lia).
    apply Z.log2_lt_pow2; [lia|].
    destruct (Z.lt_ge_cases (Z.log2 (Z.land x y)) n); auto.
    assert (Z.testbit (Z.land x y) (Z.log2 (Z.land x y)) = true) as Hb
      by (apply Z.bit_log2; lia).
    rewrite Z.land_spec in Hb. apply andb_true_iff in Hb as [Hb _].
    rewrite (is_w_testbit n x) in Hb; [discriminate|lia|exact Hx|lia].
Qed.

Lemma is_w_bound_bits n x :
  0 <= n -> 0 <= x -> (forall i, n <= i -> Z.testbit x i = false) -> is_w n x.
Proof.
  intros Hn Hx H. split; [lia|].
  destruct (Z.eq_dec x 0) as [->|Hz]; [lia|].
  apply Z.log2_lt_pow2; [lia|].
  destruct (Z.lt_ge_cases (Z.log2 x) n); auto.
  assert (Hb : Z.testbit x (Z.log2 x) = true) by (apply Z.bit_log2; lia).
  rewrite (H (Z.log2 x)) in Hb; [discriminate|lia].
Qed.

Lemma is_w_lor n x y : 0 <= n -> is_w n x -> is_w n y -> is_w n (Z.lor x y).
Proof.
  intros Hn Hx Hy. apply is_w_bound_bits; auto.
  - apply Z.lor_nonneg; unfold is_w in *; lia.
  - intros; rewrite Z.lor_spec, (is_w_testbit n x), (is_w_testbit n y); auto.
Qed.

Lemma is_w_lxor n x y : 0 <= n -> is_w n x -> is_w n y -> is_w n (Z.lxor x y).
Proof.
  intros Hn Hx Hy. apply is_w_bound_bits; auto.
  - apply Z.lxor_nonneg; unfold is_w in *; lia.
  - intros; rewrite Z.lxor_spec, (is_w_testbit n x), (is_w_testbit n y); auto.
Qed.

Lemma is_w_mono n m x : 0 <= n <= m -> is_w n x -> is_w m x.
Proof. unfold is_w; intros. split; [lia|]. apply Z.lt_le_trans with (2 ^ n); [lia|]. apply Z.pow_le_mono_r; lia. Qed.
