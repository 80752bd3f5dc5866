(** Arithmetic of the address split, byte lanes, searches and the miss-register
    and write-buffer primitives. *)
From Verif Require Import Base BaseLemmas MemSpec MemModel MemProofs DcModel DcSpec.
Ltac Zify.zify_post_hook ::= Z.div_mod_to_equations.
#[local] Opaque Z.pow Z.land Z.lor Z.shiftl Z.shiftr.

(** ** Address split *)
Lemma p14 : 2 ^ 14 = 16384. Proof. reflexivity. Qed.
Lemma p6 : 2 ^ 6 = 64. Proof. reflexivity. Qed.
Lemma p2 : 2 ^ 2 = 4. Proof. reflexivity. Qed.
Lemma p32 : 2 ^ 32 = 4294967296. Proof. reflexivity. Qed.
Lemma f_tag_eq a : f_tag (decode a) = a / 64 / 256.
Proof. unfold decode; cbn [f_tag]. rewrite Z.shiftr_div_pow2, p14 by lia. lia. Qed.
Lemma f_set_eq a : f_set (decode a) = (a / 64) mod 256.
Proof. unfold decode; cbn [f_set]. rewrite Z.shiftr_div_pow2, p6 by lia. change 255 with (2 ^ 8 - 1). rewrite land_lo by lia. reflexivity. Qed.
Lemma f_word_eq a : f_word (decode a) = (a / 4) mod 16.
Proof. unfold decode; cbn [f_word]. rewrite Z.shiftr_div_pow2, p2 by lia. change 15 with (2 ^ 4 - 1). rewrite land_lo by lia. reflexivity. Qed.
Lemma f_bank_eq a : f_bank (decode a) = (a / 64) mod 16.
Proof.
  unfold decode; cbn [f_bank]. rewrite Z.shiftr_div_pow2, p6 by lia. change 255 with (2 ^ 8 - 1). rewrite land_lo by lia.
  change 15 with (2 ^ 4 - 1). rewrite land_lo by lia. change (2 ^ 8) with 256. change (2 ^ 4) with 16. lia.
Qed.
Lemma line_id_eq a : line_id a = a / 64.
Proof. unfold line_id. rewrite Z.shiftr_div_pow2, p6 by lia. reflexivity. Qed.
Lemma line_match a b : cache_line_match a b = (a / 64 =? b / 64).
Proof. unfold cache_line_match. now rewrite !line_id_eq. Qed.

Lemma get_addr_eq s t w : 0 <= s < 256 -> 0 <= t < 2 ^ 18 -> 0 <= w < 16 -> get_addr s t w = (t * 256 + s) * 64 + w * 4.
Proof.
  intros S T W. change (2 ^ 18) with 262144 in T. unfold get_addr. rewrite !Z.shiftl_mul_pow2 by lia. unfold w32. rewrite !p32, p14, p6, p2.
  rewrite !Z.mod_small by lia.
  assert (E1 : Z.lor (t * 16384) (s * 64) = s * 64 + t * 16384).
  { rewrite Z.lor_comm. change 16384 with (2 ^ 14). apply lor_hi; change (2 ^ 14) with 16384; lia. }
  rewrite E1. assert (E2 : s * 64 + t * 16384 = (t * 256 + s) * 2 ^ 6) by (rewrite p6; lia). rewrite E2.
  rewrite Z.lor_comm, lor_hi by (rewrite ?p6; lia). rewrite p6. lia.
Qed.
Definition LN : Z := 2 ^ 26.
Lemma LN_eq : LN = 67108864. Proof. reflexivity. Qed.
Definition lineof (a : Z) : Z := a / 64.
Lemma line_range a : is_w 32 a -> 0 <= a / 64 < LN.
Proof. unfold is_w. rewrite p32, LN_eq. lia. Qed.
Lemma get_addr_line l : 0 <= l < LN -> get_addr (l mod 256) (l / 256) 0 = l * 64.
Proof. rewrite LN_eq. intros L. rewrite get_addr_eq; change (2 ^ 18) with 262144; lia. Qed.
Lemma get_addr_dec a : is_w 32 a -> get_addr (f_set (decode a)) (f_tag (decode a)) 0 = a / 64 * 64.
Proof. intros W. rewrite f_set_eq, f_tag_eq. apply get_addr_line. now apply line_range. Qed.
Lemma line_mask a : is_w 32 a -> Z.land a (2 ^ 32 - 64) = a / 64 * 64.
Proof.
  intros W. apply Z.bits_inj'. intros n N. rewrite Z.land_spec.
  replace (a / 64 * 64) with (Z.shiftl (Z.shiftr a 6) 6) by (rewrite Z.shiftl_mul_pow2, Z.shiftr_div_pow2, p6 by lia; reflexivity).
  rewrite Z.shiftl_spec by lia.
  assert (E : 2 ^ 32 - 64 = Z.shiftl (2 ^ 26 - 1) 6) by reflexivity. rewrite E, Z.shiftl_spec by lia.
  destruct (Z.ltb_spec n 6).
  - rewrite !(Z.testbit_neg_r _ (n - 6)) by lia. now rewrite andb_false_r.
  - rewrite testbit_ones_pred by lia. rewrite Z.shiftr_spec by lia. replace (n - 6 + 6) with n by lia.
    destruct (Z.ltb_spec (n - 6) 26); [now rewrite andb_true_r|]. rewrite andb_false_r. symmetry. apply (is_w_testbit 32); auto; lia.
Qed.

(** ** Byte lanes *)
Definition bsel (x k : Z) : Z := (x / 256 ^ k) mod 256.
Lemma bsel_strobe d s m k : 0 <= k < 4 -> bsel (apply_strobe d s m) k = if Z.testbit m k then bsel s k else bsel d k.
Proof.
  intros K. unfold bsel. destruct (Z.testbit m k) eqn:E; apply byte_ext; try lia; intros j J; rewrite strobe_bits by lia;
    replace ((j + 8 * k) / 8) with k by lia; now rewrite E.
Qed.
Definition upd1 (off d st : Z) (data : Z -> Z) : Z -> Z := zupd data off (apply_strobe (data off) d st).
Lemma bsel_upd1 off d st data w k : 0 <= k < 4 ->
  bsel (upd1 off d st data w) k = if (w =? off) && Z.testbit st k then bsel d k else bsel (data w) k.
Proof.
  intros K. unfold upd1, zupd. destruct (Z.eqb_spec w off) as [->|]; cbn [andb]; [|reflexivity]. now apply bsel_strobe.
Qed.
(** The overlay of merged stores on a line. *)
Definition ovl (e : mse) (d : Z -> Z) (w : Z) : Z := if nz (me_strb e w) then apply_strobe (d w) (me_data e w) (me_strb e w) else d w.
Lemma bsel_ovl e d w k : 0 <= k < 4 -> bsel (ovl e d w) k = if Z.testbit (me_strb e w) k then bsel (me_data e w) k else bsel (d w) k.
Proof.
  intros K. unfold ovl. destruct (nz (me_strb e w)) eqn:E.
  - now apply bsel_strobe.
  - unfold nz in E. destruct (Z.eqb_spec (me_strb e w) 0) as [->|]; [|discriminate]. now rewrite Z.bits_0.
Qed.

(** One store's effect on byte [k] of word [w] of line [l]. *)
Definition eff (s : dstore) (l w k : Z) (old : Z) : Z :=
  if (ds_addr s / 64 =? l) && (((ds_addr s / 4) mod 16 =? w) && Z.testbit (ds_strb s) k) then bsel (ds_data s) k else old.
Lemma dapply_eff m s l w k : 0 <= w < 16 -> 0 <= k < 4 ->
  dapply m s (l * 64 + w * 4 + k) = eff s l w k (m (l * 64 + w * 4 + k)).
Proof.
  intros W K. unfold dapply, eff, bsel. replace ((l * 64 + w * 4 + k) mod 4) with k by lia.
  replace ((l * 64 + w * 4 + k) / 4 =? ds_addr s / 4) with ((ds_addr s / 64 =? l) && ((ds_addr s / 4) mod 16 =? w)) by lia.
  rewrite <- andb_assoc. reflexivity.
Qed.
Definition effs (ss : list dstore) (l w k old : Z) : Z := fold_left (fun o s => eff s l w k o) ss old.
Lemma after_effs m ss l w k : 0 <= w < 16 -> 0 <= k < 4 ->
  after_stores m ss (l * 64 + w * 4 + k) = effs ss l w k (m (l * 64 + w * 4 + k)).
Proof.
  intros W K. unfold after_stores, effs. revert m. induction ss as [|s ss IH]; intros m; [reflexivity|]. cbn [fold_left].
  rewrite IH. now rewrite dapply_eff.
Qed.
Lemma effs_app a b l w k old : effs (a ++ b) l w k old = effs b l w k (effs a l w k old).
Proof. unfold effs. apply fold_left_app. Qed.
Lemma effs_off ss l w k old : (forall s, In s ss -> ds_addr s / 64 <> l) -> effs ss l w k old = old.
Proof.
  unfold effs. revert old. induction ss as [|s ss IH]; intros old H; [reflexivity|]. cbn [fold_left]. rewrite IH by (intros; apply H; now right).
  unfold eff. destruct (Z.eqb_spec (ds_addr s / 64) l) as [E|]; [exfalso; exact (H s (or_introl eq_refl) E)|reflexivity].
Qed.
Lemma bsel_upd1_eff a d st l data w k : 0 <= k < 4 -> a / 64 = l ->
  bsel (upd1 (f_word (decode a)) d st data w) k = eff (mkds a d st) l w k (bsel (data w) k).
Proof.
  intros K L. rewrite bsel_upd1 by lia. unfold eff; cbn [ds_addr ds_data ds_strb]. rewrite f_word_eq, L, Z.eqb_refl. cbn [andb].
  rewrite (Z.eqb_sym w). reflexivity.
Qed.
Lemma after_app m a b : after_stores m (a ++ b) = after_stores (after_stores m a) b.
Proof. apply fold_left_app. Qed.

(** ** Searches *)
Lemma find_some_in {A} (p : A -> bool) l x : find p l = Some x -> In x l /\ p x = true.
Proof. apply find_some. Qed.
Lemma find_seq_some p n x : find p (seq 0 n) = Some x -> (x < n)%nat /\ p x = true.
Proof. intros H. apply find_some in H. destruct H as [I P]. apply in_seq in I. split; [lia|auto]. Qed.
Lemma find_seq_none p n x : find p (seq 0 n) = None -> (x < n)%nat -> p x = false.
Proof. intros H I. eapply find_none in H; [exact H|]. apply in_seq. lia. Qed.
Lemma find_seq_unique p n x : (x < n)%nat -> p x = true -> (forall y, (y < n)%nat -> p y = true -> y = x) -> find p (seq 0 n) = Some x.
Proof.
  intros X P U. destruct (find p (seq 0 n)) eqn:E.
  - apply find_seq_some in E. destruct E as [N Q]. now rewrite (U _ N Q).
  - apply find_seq_none with (x := x) in E; auto. congruence.
Qed.
Lemma find_seq_not p n : (forall y, (y < n)%nat -> p y = false) -> find p (seq 0 n) = None.
Proof.
  intros U. destruct (find p (seq 0 n)) eqn:E; [|reflexivity]. apply find_seq_some in E. destruct E as [N Q]. rewrite U in Q; [discriminate|auto].
Qed.
