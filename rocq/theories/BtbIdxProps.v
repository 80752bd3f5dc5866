(** C66, continued: which jumps and histories the target caches tell apart. *)
From Verif Require Import Base BaseLemmas BpModel BtbModel BtbSpec BtbProofs BtbProps.
From Coq Require Import Lia.
Local Open Scope Z_scope.

Lemma hash_xor x y m w k : 0 <= w -> hash (Z.lxor x y) m w k = Z.lxor (hash x m w 0) (hash y m w k).
Proof.
  intros W. unfold hash. apply Z.bits_inj'. intros i Hi. rewrite !Z.lxor_spec, !Z.land_spec, !Z.lxor_spec, !Z.shiftr_spec, !Z.lxor_spec by lia.
  rewrite Z.bits_0. destruct (Z.testbit m i); [|now rewrite !andb_false_r]. rewrite !andb_true_r.
  generalize (Z.testbit x i) (Z.testbit x (i + w)) (Z.testbit x (i + 2 * w)) (Z.testbit x (i + 3 * w))
             (Z.testbit y i) (Z.testbit y (i + w)) (Z.testbit y (i + 2 * w)) (Z.testbit y (i + 3 * w)) (Z.testbit k i).
  intros [] [] [] [] [] [] [] [] []; reflexivity.
Qed.
(** Jumps within 4 KiB (of one bank) have different tags. *)
Theorem c66_cache_told_apart p q : 0 <= p -> 0 <= q -> p / 2 ^ 12 = q / 2 ^ 12 -> tc_tag p = tc_tag q -> p / 4 = q / 4.
Proof.
  intros P Q H S. unfold tc_tag, hash in S. rewrite !(Z.shiftr_div_pow2 _ 2) in S by lia. change (2 ^ 2) with 4 in S. change (2 ^ 12) with 4096 in H.
  set (x := p / 4) in *. set (y := q / 4) in *.
  assert (W: x / 1024 = y / 1024) by (unfold x, y; rewrite !Z.div_div by lia; exact H).
  assert (SH: forall k, 10 <= k -> Z.shiftr x k = Z.shiftr y k).
  { intros k Hk. replace k with (10 + (k - 10)) by lia. rewrite <- !Z.shiftr_shiftr by lia. f_equal.
    rewrite !Z.shiftr_div_pow2 by lia. exact W. }
  rewrite (SH 10), (SH (2 * 10)), (SH (3 * 10)) in S by lia.
  assert (M: x mod 1024 = y mod 1024).
  { change 1024 with (2 ^ 10). rewrite <- !Z.land_ones by lia. apply Z.bits_inj'. intros i Hi.
    apply (f_equal (fun z => Z.testbit z i)) in S. change 1023 with (Z.ones 10) in S.
    rewrite !Z.land_spec, !Z.lxor_spec in S. rewrite !Z.land_spec. destruct (Z.testbit (Z.ones 10) i); [|now rewrite !andb_false_r].
    rewrite !andb_true_r in *. destruct (Z.testbit x i), (Z.testbit y i); try reflexivity; exfalso;
      destruct (Z.testbit (Z.shiftr y 10) i), (Z.testbit (Z.shiftr y (2 * 10)) i), (Z.testbit (Z.shiftr y (3 * 10)) i), (Z.testbit 1013904242 i); discriminate S. }
  rewrite (Z.div_mod x 1024), (Z.div_mod y 1024) by lia. now rewrite W, M.
Qed.

(** What the history contributes to the set number *)
Definition hist_part (b : Z) : Z := tc_idx 0 b.
Lemma idx_split p b : tc_idx p b = Z.lxor (hash (Z.shiftr p 2) 63 6 0) (hist_part b).
Proof.
  unfold hist_part, tc_idx. change (Z.shiftr 0 2) with 0. rewrite Z.lxor_0_l, Z.lxor_assoc. apply hash_xor. lia.
Qed.
Lemma lxor_inj a x y : Z.lxor a x = Z.lxor a y -> x = y.
Proof. intros H. apply (f_equal (Z.lxor a)) in H. now rewrite <- !Z.lxor_assoc, Z.lxor_nilpotent, !Z.lxor_0_l in H. Qed.
Definition bytes : list Z := map Z.of_nat (seq 0 256).
Lemma byte_in b : 0 <= b < 256 -> In b bytes.
Proof. intros H. apply in_map_iff. exists (Z.to_nat b). split; [lia|apply in_seq; lia]. Qed.
(** Two histories of a jump share a set exactly if these four parities agree. *)
Definition parities (b : Z) : list bool :=
  let t := Z.testbit b in
  [xorb (xorb (t 0) (t 3)) (t 6); xorb (xorb (t 1) (t 4)) (t 7); xorb (t 2) (t 5); t 7].
Fixpoint eqbl (l m : list bool) : bool :=
  match l, m with [], [] => true | x :: l, y :: m => if Bool.eqb x y then eqbl l m else false | _, _ => false end.
Lemma eqbl_ok l : forall m, eqbl l m = true <-> l = m.
Proof.
  induction l as [|x l IH]; intros [|y m]; cbn; split; intros H; try reflexivity; try discriminate.
  - destruct (Bool.eqb x y) eqn:E; [|discriminate]. apply Bool.eqb_prop in E. apply IH in H. congruence.
  - injection H as -> H. rewrite Bool.eqb_reflx. now apply IH.
Qed.
Theorem c66_history_told_apart p b b' : 0 <= b < 256 -> 0 <= b' < 256 ->
  (tc_idx p b = tc_idx p b' <-> parities b = parities b').
Proof.
  intros B B'.
  assert (F: forallb (fun x => forallb (fun y => Bool.eqb (hist_part x =? hist_part y) (eqbl (parities x) (parities y))) bytes) bytes = true)
    by (vm_compute; reflexivity).
  rewrite forallb_forall in F. specialize (F b (byte_in b B)). rewrite forallb_forall in F. specialize (F b' (byte_in b' B')).
  apply Bool.eqb_prop in F. rewrite <- eqbl_ok, <- F, Z.eqb_eq, !idx_split. split; [apply lxor_inj|congruence].
Qed.
(** So a jump uses at most 16 of the 64 sets, whatever its history. *)
Theorem c66_sets_used_refuted p : exists l, length l = 16%nat /\ NoDup l /\ forall b, 0 <= b < 256 -> In (tc_idx p b) l.
Proof.
  set (reps := nodup Z.eq_dec (map hist_part bytes)).
  exists (map (Z.lxor (hash (Z.shiftr p 2) 63 6 0)) reps). split; [|split].
  - rewrite map_length. vm_compute. reflexivity.
  - assert (G: forall l a, NoDup l -> NoDup (map (Z.lxor a) l)).
    { clear. induction l as [|x l IH]; intros a N; cbn; constructor; inversion N; subst.
      - intros I. apply in_map_iff in I as (y & E & I). apply lxor_inj in E. congruence.
      - now apply IH. }
    apply G, NoDup_nodup.
  - intros b B. rewrite idx_split. apply in_map. unfold reps. rewrite nodup_In. apply in_map, byte_in, B.
Qed.
Example c66_history_ex : tc_idx 1234 0 = tc_idx 1234 9 /\ tc_idx 1234 0 <> tc_idx 1234 1 /\ tc_tag 1234 <> tc_tag 1238.
Proof. split; [vm_compute; reflexivity|]. split; vm_compute; discriminate. Qed.

Print Assumptions c66_cache_told_apart.
Print Assumptions c66_history_told_apart.
Print Assumptions c66_sets_used_refuted.
