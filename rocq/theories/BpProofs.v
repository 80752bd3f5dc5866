(** Histories and return address stacks of the branch prediction unit. *)
From Verif Require Import Base BaseLemmas IsaSpec FrontModel FrontSpec FrontProofs BpModel BpSpec.
Local Open Scope nat_scope.
Ltac Zify.zify_post_hook ::= Z.div_mod_to_equations.

(* ------------------------------------------------------------------ *)
(** * Folded history *)

Fixpoint shf (len m : nat) (l : list (Z * bool)) (b : nat) : bool :=
  match m with
  | O => false
  | S k => xorb (shf len k l b) (nth k (map snd l) false && (S k mod len =? b))
  end.

Lemma fold_bit_cons len m x l b : fold_bit len (S m) (x :: l) b = xorb (snd x && (0 mod len =? b)) (shf len m l b).
Proof.
  induction m as [|m IH].
  - cbn [fold_bit shf map nth]. now rewrite xorb_false_l, xorb_false_r.
  - change (fold_bit len (S (S m)) (x :: l) b) with
      (xorb (fold_bit len (S m) (x :: l) b) (nth (S m) (map snd (x :: l)) false && (S m mod len =? b))).
    rewrite IH. cbn [shf map nth]. now rewrite xorb_assoc.
Qed.

Definition pm (len b : nat) : nat := match b with O => len - 1 | S c => c end.
Lemma pm_spec len j b : 0 < len -> b < len -> (S j mod len =? b) = (j mod len =? pm len b).
Proof.
  intros HL Hb. apply Bool.eq_iff_eq_true. rewrite !Nat.eqb_eq.
  assert (D: S j mod len = if j mod len =? len - 1 then 0 else S (j mod len)).
  { assert (E: S j = len * (j / len) + S (j mod len)) by (pose proof (Nat.div_mod j len ltac:(lia)); lia).
    pose proof (Nat.mod_upper_bound j len ltac:(lia)) as U.
    destruct (Nat.eqb_spec (j mod len) (len - 1)) as [Q|Q].
    - symmetry. apply Nat.mod_unique with (q := S (j / len)); [lia|].
      rewrite E at 1. rewrite Q. nia.
    - symmetry. apply Nat.mod_unique with (q := j / len); [lia|]. exact E. }
  rewrite D. pose proof (Nat.mod_upper_bound j len ltac:(lia)) as U.
  destruct b as [|c]; cbn [pm]; destruct (Nat.eqb_spec (j mod len) (len - 1)); lia.
Qed.
Lemma shf_fold len m l b : 0 < len -> b < len -> shf len m l b = fold_bit len m l (pm len b).
Proof.
  intros HL Hb. induction m as [|m IH]; [reflexivity|]. cbn [shf fold_bit]. rewrite IH, pm_spec by assumption. reflexivity.
Qed.

Lemma testbit_b2z b i : (0 <= i)%Z -> Z.testbit (b2z b) i = b && (i =? 0)%Z.
Proof.
  intros Hi. destruct b; cbn [b2z andb].
  - destruct (Z.eqb_spec i 0) as [->|N]; [reflexivity|].
    apply (is_w_testbit 1); [lia|split; cbn; lia|lia].
  - apply Z.bits_0.
Qed.
Lemma land1 x k : (0 <= k)%Z -> Z.land (Z.shiftr x k) 1 = b2z (Z.testbit x k).
Proof.
  intros Hk. apply Z.bits_inj'. intros i Hi. rewrite Z.land_spec, Z.shiftr_spec, testbit_b2z by lia.
  change 1%Z with (b2z true). rewrite testbit_b2z by lia. cbn [andb].
  destruct (Z.eqb_spec i 0) as [->|N]; [now rewrite Z.add_0_l|now rewrite !andb_false_r].
Qed.

Lemma fh_push_bit len n g d v i :
  0 < len <= 31 -> (0 <= v < 2 ^ Z.of_nat len)%Z -> (0 <= i)%Z ->
  Z.testbit (fh_push len n g d v) i =
  xorb ((i <? Z.of_nat len)%Z &&
          (if (i =? 0)%Z then xorb d (Z.testbit v (Z.of_nat len - 1)) else Z.testbit v (i - 1)))
       (g (n - 1) && (i =? Z.of_nat (n mod len))%Z).
Proof.
  intros HL Hv Hi. unfold fh_push. rewrite land1 by lia. rewrite Z.lxor_spec, Z.lor_spec, Z.land_spec, testbit_w32.
  rewrite Z.shiftl_spec by lia.
  replace (Z.lxor (b2z d) (b2z (Z.testbit v (Z.of_nat len - 1)))) with (b2z (xorb d (Z.testbit v (Z.of_nat len - 1))))
    by (destruct d, (Z.testbit v (Z.of_nat len - 1)); reflexivity).
  rewrite testbit_b2z by lia.
  rewrite Z.shiftl_1_l, testbit_ones_pred by lia. rewrite testbit_w32.
  assert (M: n mod len < len) by (apply Nat.mod_upper_bound; lia).
  assert (Q: ((i <? 32)%Z && Z.testbit (Z.shiftl (b2z (g (n - 1))) (Z.of_nat (n mod len))) i) = g (n - 1) && (i =? Z.of_nat (n mod len))%Z).
  { rewrite Z.shiftl_spec by lia. destruct (Z.ltb_spec i (Z.of_nat (n mod len))) as [L|L].
    - rewrite (Z.testbit_neg_r _ (i - _)) by lia. destruct (Z.eqb_spec i (Z.of_nat (n mod len))); [lia|]. now rewrite !andb_false_r.
    - rewrite testbit_b2z by lia. destruct (Z.eqb_spec (i - Z.of_nat (n mod len)) 0), (Z.eqb_spec i (Z.of_nat (n mod len))), (Z.ltb_spec i 32);
        try lia; now rewrite ?andb_true_r, ?andb_false_r. }
  rewrite Q. f_equal.
  destruct (Z.eqb_spec i 0) as [->|N].
  - rewrite Z.testbit_neg_r by lia. rewrite andb_false_r, andb_false_l, orb_false_l, andb_true_r.
    destruct (Z.ltb_spec 0 (Z.of_nat len)); [reflexivity|lia].
  - rewrite andb_false_r, orb_false_r. destruct (Z.ltb_spec i (Z.of_nat len)), (Z.ltb_spec i 32); try lia;
      now rewrite ?andb_true_r, ?andb_false_r.
Qed.

Lemma lxor_nonneg' a b : (0 <= a -> 0 <= b -> 0 <= Z.lxor a b)%Z.
Proof. intros. apply Z.lxor_nonneg. split; lia. Qed.
Lemma fh_push_nonneg len n g d v : (0 <= fh_push len n g d v)%Z.
Proof.
  unfold fh_push. apply lxor_nonneg'.
  - apply Z.lor_nonneg. split.
    + apply Z.land_nonneg. left. destruct (w32_range (Z.shiftl v 1)). lia.
    + apply lxor_nonneg'; [destruct d; cbn; lia|]. apply Z.land_nonneg. right. lia.
  - destruct (w32_range (Z.shiftl (b2z (g (n - 1))) (Z.of_nat (n mod len)))). lia.
Qed.

Lemma fh_push_fold len n l v pc d g :
  0 < len <= 31 -> 0 < n <= 512 -> holds_dirs g l -> is_fold len n l v ->
  is_fold len n ((pc, d) :: l) (fh_push len n g d v).
Proof.
  intros HL Hn Hg [Hv HB]. assert (M: n mod len < len) by (apply Nat.mod_upper_bound; lia). split.
  - apply (is_w_bound_bits (Z.of_nat len)); [lia|apply fh_push_nonneg|]. intros i Hi.
    rewrite fh_push_bit by (assumption || lia).
    destruct (Z.ltb_spec i (Z.of_nat len)); [lia|]. destruct (Z.eqb_spec i (Z.of_nat (n mod len))); [lia|].
    now rewrite andb_false_r.
  - intros b Hb. rewrite fh_push_bit by (assumption || lia).
    destruct n as [|m]; [lia|]. rewrite fold_bit_cons. cbn [snd].
    rewrite (Nat.mod_small 0) by lia.
    replace (S m - 1) with m by lia.
    rewrite Hg by lia.
    assert (E: fold_bit len (S m) l (pm len b) = xorb (shf len m l b) (nth m (map snd l) false && (S m mod len =? b))).
    { rewrite <- shf_fold by lia. reflexivity. }
    assert (PB: pm len b < len) by (destruct b; cbn; lia).
    assert (P: (if (Z.of_nat b =? 0)%Z then xorb d (Z.testbit v (Z.of_nat len - 1)) else Z.testbit v (Z.of_nat b - 1))
               = xorb (d && (0 =? b)) (fold_bit len (S m) l (pm len b))).
    { rewrite <- (HB _ PB). destruct b as [|c].
      - cbn [pm Z.of_nat Z.eqb Nat.eqb]. rewrite andb_true_r. do 2 f_equal. lia.
      - replace (Z.of_nat (S c) =? 0)%Z with false by lia. cbn [pm Nat.eqb]. rewrite andb_false_r, xorb_false_l. f_equal. lia. }
    replace (Z.of_nat b <? Z.of_nat len)%Z with true by lia. cbn [andb]. rewrite P, E.
    replace (Z.of_nat b =? Z.of_nat (S m mod len))%Z with (S m mod len =? b) by (apply Bool.eq_iff_eq_true; rewrite Nat.eqb_eq, Z.eqb_eq; lia).
    rewrite !xorb_assoc, xorb_nilpotent, xorb_false_r. reflexivity.
Qed.

Lemma fold_nil len n : is_fold len n [] 0%Z.
Proof.
  split; [lia|]. intros b Hb. rewrite Z.bits_0. induction n as [|n IH]; [reflexivity|].
  cbn [fold_bit]. rewrite <- IH. destruct n; reflexivity.
Qed.

Lemma ghr_push_holds g l pc d : holds_dirs g l -> holds_dirs (ghr_push g d) ((pc, d) :: l).
Proof.
  intros H i Hi. destruct i as [|j]; [reflexivity|]. unfold ghr_push, GHRL.
  destruct (Nat.ltb_spec (S j) 512); [|lia]. cbn [map nth snd]. apply H. lia.
Qed.

(* ------------------------------------------------------------------ *)
(** * Path *)

(** The path register as a function of the branches seen. *)
Definition path_fun (l : list (Z * bool)) : Z :=
  fold_right (fun b p => path_push p (fst b) (snd b)) 0%Z l.

Lemma path_range p pc d : (0 <= path_push p pc d < 2 ^ 16)%Z.
Proof.
  unfold path_push, PATHM. change (2 ^ 16 - 1)%Z with (Z.ones 16). rewrite Z.land_ones by lia.
  apply Z.mod_pos_bound. lia.
Qed.
(** Two registers that agree below bit [k] agree below bit [k+1] after the same push. *)
Lemma path_step p q pc d k :
  (forall i, 0 <= i < k -> Z.testbit p i = Z.testbit q i)%Z -> (0 <= k)%Z ->
  (forall i, 0 <= i < k + 1 -> Z.testbit (path_push p pc d) i = Z.testbit (path_push q pc d) i)%Z.
Proof.
  intros H Hk i Hi. unfold path_push. rewrite !Z.land_spec, !Z.lxor_spec, !testbit_w32. f_equal. f_equal. f_equal.
  rewrite !Z.shiftl_spec, !Z.land_spec by lia. destruct (Z.ltb_spec (i - 1) 0) as [L|L].
  - rewrite !(Z.testbit_neg_r _ (i - 1)) by lia. reflexivity.
  - rewrite H by lia. reflexivity.
Qed.
Lemma path_agree l p q : forall i, (0 <= i < Z.of_nat (length l))%Z ->
  Z.testbit (fold_right (fun b p => path_push p (fst b) (snd b)) p l) i =
  Z.testbit (fold_right (fun b p => path_push p (fst b) (snd b)) q l) i.
Proof.
  induction l as [|b l IH]; intros i Hi; [cbn in Hi; lia|].
  cbn [fold_right length] in *. apply (path_step _ _ _ _ (Z.of_nat (length l))); [exact IH|lia|lia].
Qed.
Lemma path_fun_16 l : path_fun l = path_fun (firstn 16 l).
Proof.
  destruct (Nat.le_gt_cases (length l) 16) as [L|L]; [now rewrite firstn_all2|].
  unfold path_fun at 1. rewrite <- (firstn_skipn 16 l) at 1. rewrite fold_right_app.
  fold (path_fun (skipn 16 l)). unfold path_fun at 2.
  assert (LEN: length (firstn 16 l) = 16) by (rewrite firstn_length; lia).
  assert (R: forall p, (0 <= fold_right (fun (b : Z * bool) p => path_push p (fst b) (snd b)) p (firstn 16 l) < 2 ^ 16)%Z).
  { intros p. destruct (firstn 16 l) as [|b fl]; [cbn in LEN; lia|]. cbn [fold_right]. apply path_range. }
  apply (word_ext 16); [lia|exact (R _)|exact (R _)|]. intros i Hi.
  apply path_agree. rewrite LEN. lia.
Qed.

(* ------------------------------------------------------------------ *)
(** * A history register *)

Definition is_hist (h : hist) (l : list (Z * bool)) : Prop :=
  holds_dirs (h_ghr h) l /\
  (forall k i n len, In (k, i, n, len) folds -> is_fold len n l (h_fh h k i)) /\
  h_path h = path_fun l.

Lemma is_hist0 : is_hist hist0 [].
Proof.
  split; [|split].
  - intros i _. cbn. now destruct i.
  - intros. apply fold_nil.
  - reflexivity.
Qed.
Lemma folds_in k i n len : In (k, i, n, len) folds -> n = ghr_len i /\ len = fh_len k i /\ 0 < len <= 31 /\ 0 < n <= 512.
Proof.
  unfold folds. cbn [In]. intros H.
  repeat (destruct H as [H|H]; [injection H as <- <- <- <-; cbn; lia|]). contradiction.
Qed.
Lemma hist_push_is h l pc d : is_hist h l -> is_hist (hist_push h pc d) ((pc, d) :: l).
Proof.
  intros (HG & HF & HP). split; [|split].
  - cbn [hist_push h_ghr]. now apply ghr_push_holds.
  - intros k i n len HI. pose proof (folds_in _ _ _ _ HI) as (-> & -> & A & B).
    cbn [hist_push h_fh]. apply fh_push_fold; auto.
  - cbn [hist_push h_path]. rewrite HP. reflexivity.
Qed.

(* ------------------------------------------------------------------ *)
(** * Stacks *)

Lemma shows0 : shows ras0 [].
Proof. split; [reflexivity|]. intros i Hi. cbn in Hi. lia. Qed.
Lemma shows_push r l v : shows r l -> length l <= 16 -> shows (ras_push r v) (sk_push v l).
Proof.
  intros [HC HS] HL. unfold ras_push, sk_push, RASD. destruct (Nat.ltb_spec (r_cnt r) 16) as [L|L].
  - rewrite firstn_all2 by (cbn; lia). split; cbn [r_cnt r_st length]; [lia|].
    intros i Hi. destruct i as [|j].
    + replace (S (r_cnt r) - 1 - 0) with (r_cnt r) by lia. rewrite fupd_eq. reflexivity.
    + rewrite fupd_ne by lia. cbn [nth]. rewrite <- HS by lia. f_equal. lia.
  - split; cbn [r_cnt r_st].
    + rewrite firstn_length. cbn [length]. lia.
    + intros i Hi. replace (r_cnt r) with 16 in * by lia.
      destruct i as [|j].
      * reflexivity.
      * destruct (Nat.eqb_spec (16 - 1 - S j) (16 - 1)); [lia|]. destruct (Nat.ltb_spec (16 - 1 - S j) (16 - 1)); [|lia].
        replace (S (16 - 1 - S j)) with (16 - 1 - j) by lia. rewrite HS by lia.
        change (firstn 16 (v :: l)) with (v :: firstn 15 l). cbn [nth].
        rewrite <- (firstn_skipn 15 l) at 1. rewrite app_nth1; [reflexivity|]. rewrite firstn_length. lia.
Qed.
Lemma sk_push_len v l : length (sk_push v l) <= 16.
Proof. unfold sk_push. rewrite firstn_length. lia. Qed.
Lemma shows_pop r l : shows r l -> shows (ras_pop r) (tl l).
Proof.
  intros [HC HS]. unfold ras_pop. destruct (Nat.ltb_spec 0 (r_cnt r)) as [L|L].
  - destruct l as [|a l]; [cbn in HC; lia|]. cbn [length tl] in *. split; cbn [r_cnt r_st]; [lia|].
    intros i Hi. specialize (HS (S i) ltac:(lia)). cbn [nth] in HS. rewrite <- HS. f_equal. lia.
  - destruct l; [|cbn in HC; lia]. split; [assumption|]. intros i Hi. lia.
Qed.
Lemma shows_top r l : shows r l -> ras_top r = hd_error l.
Proof.
  intros [HC HS]. unfold ras_top. destruct (Nat.ltb_spec 0 (r_cnt r)) as [L|L].
  - destruct l as [|a l]; [cbn in HC; lia|]. cbn [hd_error]. f_equal. specialize (HS 0 L). cbn [nth] in HS. rewrite <- HS. f_equal. lia.
  - destruct l; [reflexivity|cbn in HC; lia].
Qed.
Lemma w32_M32 x : w32 x = (x mod M32)%Z.
Proof. reflexivity. Qed.
Lemma tl_len {A} (l : list A) k : length l <= k -> length (tl l) <= k.
Proof. destruct l; cbn; lia. Qed.
Lemma sk_event_len ty pc l : length l <= 16 -> length (sk_event ty pc l) <= 16.
Proof.
  intros H. unfold sk_event. destruct (Z.eqb ty 1); [apply sk_push_len|].
  destruct (Z.eqb ty 2); [now apply tl_len|assumption].
Qed.
Lemma shows_event r l ty pc : shows r l -> length l <= 16 ->
  shows (if Z.eqb ty BR_CALL then ras_push r (w32 (pc + 4)) else if Z.eqb ty BR_RET then ras_pop r else r) (sk_event ty pc l).
Proof.
  intros H HL. unfold sk_event, BR_CALL, BR_RET. destruct (Z.eqb ty 1); [now apply shows_push|].
  destruct (Z.eqb ty 2); [now apply shows_pop|assumption].
Qed.
