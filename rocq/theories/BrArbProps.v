(** C16: the oldest misprediction wins. *)
From Verif Require Import Base BaseLemmas BrArbModel.
Local Open Scope Z_scope.
Ltac Zify.zify_post_hook ::= Z.div_mod_to_equations.

(** Specification: the reorder buffer has [n] slots; the instruction that is
    [s]-th since reset sits in slot [s mod n] on lap [s / n], and the flag is
    the parity of the lap.  All instructions in flight lie within one window of
    [n] positions. *)
Definition placed (n : Z) (r : brres) (s : Z) : Prop :=
  0 <= s /\ r_idx r = s mod n /\ r_flag r = Z.odd (s / n).
Definition window (n b s : Z) : Prop := b <= s < b + n.

Lemma cmp_age_order n b x y s t : 0 < n -> placed n x s -> placed n y t -> window n b s -> window n b t ->
  cmp_age x y = (t <? s).
Proof.
  intros N (S0 & Sx & Fx) (T0 & Sy & Fy) Ws Wt. unfold window, cmp_age in *. rewrite Sx, Sy, Fx, Fy.
  assert (Q : s / n = t / n \/ s / n = t / n + 1 \/ t / n = s / n + 1) by (clear Sx Fx Sy Fy; nia).
  pose proof (Z.div_mod s n ltac:(lia)) as D1. pose proof (Z.div_mod t n ltac:(lia)) as D2.
  pose proof (Z.mod_pos_bound s n N). pose proof (Z.mod_pos_bound t n N).
  generalize dependent (s / n). generalize dependent (t / n). generalize dependent (s mod n). generalize dependent (t mod n).
  intros tm Sy B2 sm Sx B1 tq Fy D2 sq Fx Q D1.
  destruct Q as [-> | [-> | ->]].
  - rewrite Bool.eqb_reflx. apply eq_true_iff_eq. rewrite !Z.ltb_lt. lia.
  - rewrite Z.odd_add. replace (Bool.eqb (xorb (Z.odd tq) (Z.odd 1)) (Z.odd tq)) with false by (destruct (Z.odd tq); reflexivity).
    apply eq_true_iff_eq. rewrite !Z.ltb_lt. nia.
  - rewrite Z.odd_add. replace (Bool.eqb (Z.odd sq) (xorb (Z.odd sq) (Z.odd 1))) with false by (destruct (Z.odd sq); reflexivity).
    apply eq_true_iff_eq. rewrite !Z.ltb_lt. nia.
Qed.

(** The comparator is program order, for every wrap position. *)
Theorem c16_comparator_is_program_order n b x y s t : 0 < n -> placed n x s -> placed n y t -> window n b s -> window n b t ->
  (cmp_age x y = true <-> t < s).
Proof. intros. rewrite (cmp_age_order n b x y s t) by assumption. apply Z.ltb_lt. Qed.

Lemma arb_inv n b (pos : brres -> Z) l : 0 < n -> (forall r, In (Some r) l -> placed n r (pos r) /\ window n b (pos r)) ->
  match fst (arb l) with
  | Some w => In (Some w) l /\ r_mispred w = true /\ (forall r, In (Some r) l -> r_mispred r = true -> pos w <= pos r)
  | None => forall r, In (Some r) l -> r_mispred r = false
  end.
Proof.
  intros N. unfold arb. rewrite <- (rev_involutive l). generalize (rev l). clear l. induction l as [|o l IH]; intros H; cbn [rev]; [cbn; contradiction|].
  rewrite fold_left_app. cbn [fold_left].
  assert (IH' : forall r, In (Some r) (rev l) -> placed n r (pos r) /\ window n b (pos r)) by (intros; apply H; cbn; apply in_or_app; now left).
  specialize (IH IH'). destruct o as [r|].
  - cbn [arb1 fst]. assert (Hr : placed n r (pos r) /\ window n b (pos r)) by (apply H; cbn; apply in_or_app; right; now left).
    destruct (r_mispred r) eqn:M.
    + destruct (fst (fold_left arb1 (rev l) (None, 0))) as [w|].
      * destruct IH as (I & Mw & O). destruct (IH' w I) as (P & W). rewrite (cmp_age_order n b w r (pos w) (pos r)) by tauto.
        destruct (Z.ltb_spec (pos r) (pos w)) as [L|L].
        -- split; [apply in_or_app; right; now left|]. split; [exact M|]. intros q Q Mq. apply in_app_or in Q. destruct Q as [Q|[Q|[]]]; [specialize (O q Q Mq); lia|injection Q as <-; lia].
        -- split; [apply in_or_app; now left|]. split; [exact Mw|]. intros q Q Mq. apply in_app_or in Q. destruct Q as [Q|[Q|[]]]; [exact (O q Q Mq)|injection Q as <-; lia].
      * split; [apply in_or_app; right; now left|]. split; [exact M|]. intros q Q Mq. apply in_app_or in Q. destruct Q as [Q|[Q|[]]]; [rewrite (IH q Q) in Mq; discriminate|injection Q as <-; lia].
    + destruct (fst (fold_left arb1 (rev l) (None, 0))) as [w|].
      * destruct IH as (I & Mw & O). split; [apply in_or_app; now left|]. split; [exact Mw|]. intros q Q Mq. apply in_app_or in Q. destruct Q as [Q|[Q|[]]]; [exact (O q Q Mq)|injection Q as <-; congruence].
      * intros q Q. apply in_app_or in Q. destruct Q as [Q|[Q|[]]]; [exact (IH q Q)|injection Q as <-; exact M].
  - cbn [arb1]. destruct (fst (fold_left arb1 (rev l) (None, 0))) as [w|].
    + destruct IH as (I & Mw & O). split; [apply in_or_app; now left|]. split; [exact Mw|]. intros q Q Mq. apply in_app_or in Q. destruct Q as [Q|[Q|[]]]; [exact (O q Q Mq)|discriminate].
    + intros q Q. apply in_app_or in Q. destruct Q as [Q|[Q|[]]]; [exact (IH q Q)|discriminate].
Qed.

(** C16: the redirect is that of the oldest mispredicted branch, for any
    number of branch units and every wrap position; without one there is no
    redirect. *)
Theorem c16_oldest_wins n b (pos : brres -> Z) l : 0 < n ->
  (forall r, In (Some r) l -> placed n r (pos r) /\ window n b (pos r)) ->
  let o := arbitrate l in
  (x_mispred o = true <-> exists r, In (Some r) l /\ r_mispred r = true) /\
  (x_mispred o = true -> exists w, In (Some w) l /\ r_mispred w = true /\
      x_pc o = r_target w /\ x_rob o = r_idx w /\ x_brid o = r_brid w /\ x_ftq o = r_ftq w /\
      (forall r, In (Some r) l -> r_mispred r = true -> pos w <= pos r)).
Proof.
  intros N H. pose proof (arb_inv n b pos l N H) as I. unfold arbitrate. destruct (arb l) as [[w|] m]; cbn in *.
  - destruct I as (A & B & C). split; [split; [eauto|reflexivity]|]. intros _. exists w. auto 10.
  - split; [|discriminate]. split; [discriminate|]. intros (r & R & M). rewrite (I r R) in M. discriminate.
Qed.

(** The tags released are exactly those of the branches that resolved. *)
Theorem c16_clear_exact l k : (forall r, In (Some r) l -> 0 <= r_brid r < 16) ->
  (Z.testbit (x_clear (arbitrate l)) k = true <-> exists r, In (Some r) l /\ r_brid r = k).
Proof.
  intros H. assert (E : x_clear (arbitrate l) = snd (arb l)) by (unfold arbitrate; destruct (arb l) as [[?|] ?]; reflexivity).
  rewrite E. unfold arb. clear E. revert H. rewrite <- (rev_involutive l). generalize (rev l). clear l.
  induction l as [|o l IH]; intros H; cbn [rev].
  - cbn. rewrite Z.testbit_0_l. split; [discriminate|intros (r & [] & _)].
  - rewrite fold_left_app. cbn [fold_left]. assert (H' : forall r, In (Some r) (rev l) -> 0 <= r_brid r < 16) by (intros; apply H; cbn; apply in_or_app; now left).
    specialize (IH H'). destruct o as [r|]; cbn [arb1 snd].
    + assert (B : 0 <= r_brid r < 16) by (apply H; cbn; apply in_or_app; right; now left).
      rewrite Z.mod_small by (rewrite Z.shiftl_1_l; split; [apply Z.pow_nonneg; lia|apply Z.pow_lt_mono_r; lia]).
      rewrite Z.lor_spec, Bool.orb_true_iff, IH, Z.shiftl_1_l.
      assert (T : Z.testbit (2 ^ r_brid r) k = true <-> r_brid r = k).
      { destruct (Z.ltb_spec k 0) as [K|K]; [rewrite Z.testbit_neg_r by lia; split; [discriminate|lia]|]. rewrite Z.pow2_bits_eqb by lia. apply Z.eqb_eq. }
      rewrite T. split.
      * intros [(q & Q & X)|X]; [exists q; split; [apply in_or_app; now left|exact X]|exists r; split; [apply in_or_app; right; now left|exact X]].
      * intros (q & Q & X). apply in_app_or in Q. destruct Q as [Q|[Q|[]]]; [left; eauto|injection Q as <-; now right].
    + cbn [arb1]. rewrite IH. split; intros (q & Q & X); exists q; (split; [|exact X]).
      * apply in_or_app. now left.
      * apply in_app_or in Q. destruct Q as [Q|[Q|[]]]; [exact Q|discriminate].
Qed.

(** Two mispredictions across the wrap: position 127 (slot 63, lap 1) is older
    than 129 (slot 1, lap 2). *)
Definition ex_a := BrRes 1 false 4 true 0x200 3.
Definition ex_b := BrRes 63 true 9 true 0x100 2.
Example c16_example : placed 64 ex_a 129 /\ placed 64 ex_b 127 /\ window 64 100 129 /\ window 64 100 127 /\
  arbitrate [Some ex_a; Some ex_b] = Exu2Id (2^4 + 2^9) true 0x100 63 9 2.
Proof. unfold placed, window. repeat split; try lia; reflexivity. Qed.

Print Assumptions c16_comparator_is_program_order.
Print Assumptions c16_oldest_wins.
Print Assumptions c16_clear_exact.
