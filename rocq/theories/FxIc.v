(** The instruction cache never presents probes in two cycles running. *)
From Verif Require Import Base IcModel IcSpec IcProofs IcInv IcIdle IcSwap IcCall IcReach.
Ltac Zify.zify_post_hook ::= Z.div_mod_to_equations.

Lemma core_open i r w o : comb_core i r = (w, o) ->
  r_st w = r_st (e_w (eval0 i r)) /\ r_pi w = r_pi (e_w (eval0 i r)) /\ o_probe o = e_probe (eval0 i r) /\ (i_kill i = true -> r_rv w = false).
Proof.
  intros HC. unfold comb_core in HC. cbv zeta in HC.
  assert (E : r_st (e_w (eval_fsm i r)) = r_st (e_w (eval0 i r)) /\ r_pi (e_w (eval_fsm i r)) = r_pi (e_w (eval0 i r)) /\ e_probe (eval_fsm i r) = e_probe (eval0 i r)).
  { unfold eval_fsm. cb. destruct (r_st r), (e_gnt (eval0 i r)); cb; auto. }
  destruct E as (E1 & E2 & E3). destruct (eval_fsm i r) as [w1 rdy fast rsp mem rrdy pr lr tw gnt]. cb.
  destruct (i_kill i); [inversion HC; subst; cb; auto|]. destruct fast; inversion HC; subst; cb; sp; auto; discriminate.
Qed.

Lemma pre_clean_keep i r : r_pi (pre_clean i r) = r_pi r /\ r_pd (pre_clean i r) = r_pd r.
Proof. unfold pre_clean. destruct (i_rsp i) as [[id l]|]; auto. destruct (pre_rdy i r); auto. Qed.

Lemma probe_open i r w d h l q w1 : probe_step i r w = (d, h, l, q, w1) -> 
  (q <> None -> r_pi r = false /\ r_rv r = true /\ d = false) /\
  (r_pi r = true -> i_dc i = None -> d = r_pd r /\ w1 = w).
Proof.
  unfold probe_step. cbv zeta. intros H. destruct (r_pi r) eqn:PI.
  - cbn [negb andb] in H. rewrite andb_false_r in H. cbn [andb] in H. split.
    + destruct (i_dc i) as [[x|]|]; [destruct (WORDS <=? _)| |]; inversion H; subst; congruence.
    + intros _ N. rewrite N in H. inversion H; subst; auto.
  - split; [|discriminate]. intros Q. cbn [negb] in H. rewrite andb_true_r in H.
    destruct (r_pd r) eqn:PD; cbn [negb andb] in H; [inversion H; subst; congruence|].
    destruct (r_pw r <? WORDS); cbn [andb] in H; [|inversion H; subst; congruence].
    destruct (r_rv r); inversion H; subst; auto; congruence.
Qed.

(** A probe is presented only while refilling and none is under way; afterwards the
    refill goes on or the request is gone. *)
Lemma core_probe i r w o : comb_core i r = (w, o) -> o_probe o <> None -> refilling r /\ r_pi r = false /\ (refilling w \/ r_rv w = false).
Proof.
  intros HC Q. destruct (core_open _ _ _ _ HC) as (E1 & _ & E3 & E4). rewrite E3 in Q. unfold refilling. rewrite E1.
  destruct (i_kill i) eqn:K.
  - rewrite (E4 eq_refl). clear - Q K. unfold eval0 in *. destruct (r_st r).
    + unfold ev_idle in Q. rewrite K in Q. cb. congruence.
    + unfold ev_swap in Q. destruct (probe_step _ _ _) as [[[[pdone phit] pl] preq] w1] eqn:PS. rewrite K in Q.
      destruct (probe_open _ _ _ _ _ _ _ _ PS) as [X _].
      assert (preq <> None) by (destruct (_ && _) in Q; [exact Q|destruct (_ && _) in Q; exact Q]). destruct (X H). auto.
    + unfold ev_wait in Q. rewrite K in Q. cb. congruence.
    + unfold ev_drain in Q. destruct (i_rsp i) in Q; cb; congruence.
    + unfold ev_cancel in Q. cb. congruence.
  - clear E1 E3 E4 HC. unfold eval0 in *. destruct (r_st r).
    + exfalso. unfold ev_idle in Q. rewrite K in Q. repeat match type of Q with context [match ?e with _ => _ end] => destruct e end; cb; congruence.
    + unfold ev_swap in *. destruct (probe_step _ _ _) as [[[[pdone phit] pl] preq] w1] eqn:PS. rewrite K in *.
      destruct (probe_open _ _ _ _ _ _ _ _ PS) as [X _].
      assert (P : preq <> None).
      { unfold ev_taken in Q. destruct (r_busy r), (accepts i (r_tx r)), (active i r), pdone; cbn [negb] in Q; try exact Q; destruct (finish_refill _ _ _ _ _) as [[? ?] ?]; exact Q. }
      destruct (X P) as (X1 & X2 & ->). sp; auto. left.
      unfold ev_taken. destruct (r_busy r), (accepts i (r_tx r)), (active i r); cbn [negb]; cb; auto.
    + unfold ev_wait in *. rewrite K in *. destruct (probe_step _ _ _) as [[[[pdone phit] pl] preq] w1] eqn:PS.
      destruct (probe_open _ _ _ _ _ _ _ _ PS) as [X _].
      assert (P : preq <> None) by (destruct pdone; [destruct (finish_refill _ _ _ _ _) as [[? ?] ?]|]; exact Q).
      destruct (X P) as (X1 & X2 & ->). sp; auto.
    + exfalso. unfold ev_drain in Q. destruct (i_rsp i) in Q; cb; congruence.
    + exfalso. unfold ev_cancel in Q. cb. congruence.
Qed.
(** With a probe under way and no answer, it stays under way as long as the refill goes on. *)
Lemma core_keep i r w o : comb_core i r = (w, o) -> refilling r -> r_pi r = true -> r_pd r = false -> i_dc i = None -> refilling w -> r_pi w = true.
Proof.
  intros HC RF PI PD ND RW. destruct (core_open _ _ _ _ HC) as (E1 & E2 & _ & _). unfold refilling in RW. rewrite E1 in RW. rewrite E2. clear E1 E2 HC.
  pose proof (pre_clean_keep i r) as [PC _]. unfold eval0 in *. destruct RF as [R|R]; rewrite R in *.
  - unfold ev_swap in *. destruct (probe_step _ _ _) as [[[[pdone phit] pl] preq] w1] eqn:PS.
    destruct (probe_open _ _ _ _ _ _ _ _ PS) as [_ X]. destruct (X PI ND) as [-> ->]. rewrite PD in *. clear X PS.
    assert (KP : forall b : bool, r_pi (if b then s_tx (r_txv (pre_clean i r)) (r_tx (pre_clean i r)) true (pre_clean i r) else pre_clean i r) = true) by (intros []; cb; congruence).
    destruct (i_kill i).
    + exfalso. destruct (_ && _) in RW; cb; [destruct RW; discriminate|]. destruct (_ && _) in RW; cb; destruct RW; discriminate.
    + unfold ev_taken. destruct (r_busy r), (accepts i (r_tx r)), (active i r); cbn [negb]; cb; apply KP.
  - unfold ev_wait in *. destruct (i_kill i); [exfalso; cb; destruct RW; discriminate|].
    destruct (probe_step _ _ _) as [[[[pdone phit] pl] preq] w1] eqn:PS.
    destruct (probe_open _ _ _ _ _ _ _ _ PS) as [_ X]. destruct (X PI ND) as [-> ->]. rewrite PD. cb. congruence.
Qed.
Lemma core_idle i r w o : comb_core i r = (w, o) -> ~ refilling r -> r_rv r = false -> ~ refilling w.
Proof.
  intros HC RF RV RW. destruct (core_open _ _ _ _ HC) as (E1 & _). unfold refilling in *. rewrite E1 in RW. clear E1 HC. unfold eval0 in RW. destruct (r_st r).
  - unfold ev_idle in RW. rewrite RV in RW. cbn [negb andb] in RW.
    repeat match type of RW with context [match ?e with _ => _ end] => destruct e end; cb; destruct RW; discriminate.
  - apply RF; auto.
  - apply RF; auto.
  - unfold ev_drain in RW. destruct (i_rsp i) in RW; cb; destruct RW; discriminate.
  - unfold ev_cancel in RW. cb. destruct RW; discriminate.
Qed.

(** [K]: a probe presented last cycle belongs to a refill still going on or to a
    request that is gone. *)
Definition K (y : sys) : Prop := y_pb0 y <> None -> refilling (ic_r (y_ic y)) \/ r_rv (ic_r (y_ic y)) = false.
Lemma step_K strict P y c second o y' : step strict P y c second o y' -> K y'.
Proof.
  intros HS. inversion HS as [s' o1 o2 HE HC]; subst o1 y'. unfold K, step_sys. cbn [y_pb0 y_ic]. intros N.
  assert (Q : o_probe o2 <> None) by (destruct (o_probe o2); congruence). clear N.
  assert (X : exists c' s, exists tr, ic_call c' s = (s', o2, tr)).
  { unfold ic_cycle in HC. destruct (ic_call c (y_ic y)) as [[s1 oa] tr] eqn:E1. destruct second; [|inversion HC; subst; eauto].
    destruct (ic_call (inval_inp c) s1) as [[s2 ob] tr2] eqn:E2. inversion HC; subst. eauto. }
  destruct X as (c' & s & tr & X). unfold ic_call in X. destruct (ic_comb c' (ic_t s) (ic_r s)) as [[w ow] trw] eqn:E. inversion X; subst. cbn [ic_r].
  destruct (ic_comb_fin _ _ _ _ _ _ E) as [i [HF [HCC _]]]. apply (core_probe _ _ _ _ HCC Q).
Qed.
Lemma no_probe_after strict P y c second s' o1 o2 : Jy strict P y -> K y -> y_pb0 y <> None -> c_dc c = None ->
  ic_cycle c second (y_ic y) = (s', o1, o2) -> o_probe o2 = None.
Proof.
  intros HJ HK N ND HC. specialize (HK N). unfold ic_cycle in HC. destruct (ic_call c (y_ic y)) as [[s1 oa] tr] eqn:E1.
  unfold ic_call in E1. destruct (ic_comb c (ic_t (y_ic y)) (ic_r (y_ic y))) as [[w ow] trw] eqn:E. inversion E1; subst s1 ow trw; clear E1.
  destruct (ic_comb_fin _ _ _ _ _ _ E) as [i [HF [HCC _]]]. set (r := ic_r (y_ic y)) in *.
  assert (PI : refilling r -> r_pi r = true).
  { intros RF. destruct (y_pb0 y) as [[x f]|] eqn:PB; [|congruence]. apply (j_pb0 _ _ _ _ _ _ _ _ _ _ _ _ HJ _ _ PB RF). }
  assert (Q1 : o_probe oa = None).
  { destruct (o_probe oa) eqn:Q; auto. destruct (core_probe _ _ _ _ HCC) as (A & B & _); [congruence|]. rewrite (PI A) in B. discriminate. }
  destruct second; [|inversion HC; subst; auto].
  unfold ic_call in HC. cbn [ic_t ic_r] in HC.
  destruct (ic_comb (inval_inp c) _ w) as [[w2 ow2] trw2] eqn:E2. inversion HC; subst s' o1 ow2; clear HC.
  destruct (ic_comb_fin _ _ _ _ _ _ E2) as [i2 [HF2 [HCC2 _]]].
  destruct (o_probe o2) eqn:Q; auto. destruct (core_probe _ _ _ _ HCC2) as (A & B & _); [congruence|].
  destruct HK as [RF|RV].
  - destruct (j_pi _ _ _ _ _ _ _ _ _ _ _ _ HJ (PI RF)) as [_ PD].
    rewrite (core_keep _ _ _ _ HCC RF (PI RF) PD) in B; auto; [discriminate|]. rewrite (f_dc _ _ _ _ HF). exact ND.
  - exfalso. assert (NR : ~ refilling r).
    { intros [X|X]; [destruct (j_swap _ _ _ _ _ _ _ _ _ _ _ _ HJ X)|destruct (j_wait _ _ _ _ _ _ _ _ _ _ _ _ HJ X)]; unfold r in RV; congruence. }
    exact (core_idle _ _ _ _ HCC NR RV A).
Qed.
