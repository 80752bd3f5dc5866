(** One cycle of the instruction cache keeps the invariant. *)
From Verif Require Import Base IcModel IcSpec IcProofs IcInv IcIdle IcSwap.
Ltac Zify.zify_post_hook ::= Z.div_mod_to_equations.

Lemma mid_call : forall strict P y c second s1 o1 tr, Jy strict P y -> env_ok strict P y c second ->
  ic_call c (y_ic y) = (s1, o1, tr) -> mid strict P y c (ic_r s1) (ic_t s1) o1.
Proof.
  intros strict P y c second s1 o1 tr HJ HE H. unfold ic_call in H.
  destruct (ic_comb c (ic_t (y_ic y)) (ic_r (y_ic y))) as [[w o] tr'] eqn:E. inversion H; subst s1 o tr'; clear H. cbn [ic_r ic_t].
  destruct (ic_comb_fin _ _ _ _ _ _ E) as [i [HF [HC _]]].
  destruct (r_st (ic_r (y_ic y))) eqn:Hst.
  - eapply mid_idle; eauto.
  - eapply mid_swap; eauto.
  - eapply mid_wait; eauto.
  - exfalso. apply (j_drain _ _ _ _ _ _ _ _ _ _ _ _ HJ); auto.
  - eapply mid_canc; eauto.
Qed.

Lemma J_settle : forall strict P r t pend seen pres late out gone pb0 pb1 out',
  J strict P r t pend seen pres late out gone pb0 pb1 -> (forall k, out' k = if gone k then None else out k) ->
  J strict P r t pend seen pres late out' (fun _ => false) pb0 pb1.
Proof.
  intros strict P r t pend seen pres late out gone pb0 pb1 out' [] HO. split; auto.
  - intros k a f H. rewrite HO in H. destruct (gone k) eqn:G; [discriminate |]. destruct (j_out _ _ _ H) as [A [B | B]]; [congruence |]. auto.
  - intros A B. destruct (j_busy A B) as [C [D [E F]]]. sp; auto. rewrite HO, E. auto.
  - intros S k H. destruct (j_leak S k H) as [A B]. rewrite HO, B. auto.
Qed.

Section Second.
Variables (strict : bool) (P : Z -> Z -> Prop) (r : regs) (t : tabs) (pend : option Z) (seen : list Z)
  (pres late : option (nat * Z)) (out : nat -> option (Z * bool)) (gone : nat -> bool) (pb0 pb1 : option (Z * bool)) (i : minp) (w : regs) (o : mout).
Hypothesis HJ : J strict P r t pend seen pres late out gone pb0 pb1.
Hypothesis Hnc : r_st r <> CANCEL_WAIT.
Hypothesis Hna : r_st r = SWAP_IN -> r_busy r = false -> accepts i (r_tx r) = false.
Hypothesis Hk : i_kill i = true.
Hypothesis Hfl : i_flush i = false.
Hypothesis Hgo : forall k, gone k = true -> exists l, i_rsp i = Some (k, l).
Hypothesis Hro : forall k l, i_rsp i = Some (k, l) -> out k <> None.
Hypothesis HC : comb_core i r = (w, o).

Definition tk (k : nat) : bool := match i_rsp i with Some (id, _) => Nat.eqb id k && pre_rdy i r | None => false end.

Lemma tk_spec : forall k, tk k = true -> exists l, i_rsp i = Some (k, l) /\ pre_rdy i r = true.
Proof.
  clear. intros k. unfold tk. destruct (i_rsp i) as [[id l] |]; [| discriminate]. intros H. apply andb_prop in H. destruct H as [A B].
  apply Nat.eqb_eq in A. subst. eauto.
Qed.
Lemma tk_rsp : forall k l, i_rsp i = Some (k, l) -> tk k = pre_rdy i r.
Proof. clear. intros k l E. unfold tk. rewrite E, Nat.eqb_refl. auto. Qed.

Lemma rdy_of : forall k l, i_rsp i = Some (k, l) -> ~ (r_st r = SWAP_IN /\ r_busy r = true /\ r_tx r = k) -> pre_rdy i r = true.
Proof.
  intros k l E N. unfold pre_rdy, orphan, active, canceled, inflight, same_cycle, resp_id_is. rewrite E.
  destruct (r_can r k) eqn:C; [reflexivity |]. cbn [negb orb andb].
  destruct (r_inf r k) eqn:I.
  - exfalso. destruct (j_ii _ _ _ _ _ _ _ _ _ _ _ _ HJ _ I) as [A | A]; [congruence | auto].
  - cbn [orb negb]. destruct (r_st r) eqn:S; cbn [andb]; rewrite ?andb_false_r; try reflexivity.
    destruct (r_busy r) eqn:B; cbn [negb andb]; rewrite ?andb_false_r; [reflexivity |].
    rewrite (Hna eq_refl eq_refl), !andb_false_r. reflexivity.
Qed.
Lemma rdy_busy : forall l, r_st r = SWAP_IN -> r_busy r = true -> i_rsp i = Some (r_tx r, l) -> pre_rdy i r = false.
Proof.
  intros l S B E. destruct (j_busy _ _ _ _ _ _ _ _ _ _ _ _ HJ S B) as [A1 [A2 _]].
  unfold pre_rdy, orphan, canceled, inflight. rewrite E, A1, A2. cbn [negb]. rewrite andb_false_r. reflexivity.
Qed.

Lemma pre2 : exists r0, pre_clean i r = r0 /\ r_rv r0 = r_rv r /\ r_st r0 = r_st r /\ r_busy r0 = r_busy r /\ r_txv r0 = r_txv r /\ r_tx r0 = r_tx r /\
  r_pw r0 = r_pw r /\ r_pi r0 = r_pi r /\ r_seen r0 = r_seen r /\
  (forall k, tk k = true -> r_inf r0 k = false /\ r_can r0 k = false) /\
  (forall k, tk k = false -> r_inf r0 k = r_inf r k /\ r_can r0 k = r_can r k).
Proof.
  clear. eexists; split; [reflexivity |]. unfold pre_clean, tk. destruct (i_rsp i) as [[id l] |].
  - destruct (pre_rdy i r); cb; sp; auto; intros k; unfold fupd.
    + rewrite andb_true_r, Nat.eqb_sym. intros ->. auto.
    + rewrite andb_true_r, Nat.eqb_sym. intros ->. auto.
    + rewrite andb_false_r. discriminate.
  - sp; auto; discriminate.
Qed.

Lemma out2 : forall k a f, out k = Some (a, f) -> tk k = false ->
  (k < 16)%nat /\ r_inf r k = true /\ (r_can r k = true \/ (r_st r = SWAP_IN /\ r_busy r = true /\ r_tx r = k)).
Proof.
  intros k a f H T. destruct (j_out _ _ _ _ _ _ _ _ _ _ _ _ HJ _ _ _ H) as [A [B | [B C]]].
  - exfalso. destruct (Hgo _ B) as [l E]. rewrite (tk_rsp _ _ E) in T.
    rewrite (rdy_of _ _ E) in T; [discriminate |]. intros [S [Bu X]]. subst k.
    destruct (j_busy _ _ _ _ _ _ _ _ _ _ _ _ HJ S Bu) as [_ [_ [D _]]]. congruence.
  - sp; auto. destruct C as [C | [C1 [C2 [C3 _]]]]; auto.
Qed.

(** The end of a killed call. *)
Lemma core_kill : forall e, eval0 i r = e -> e_gnt e = None ->
  (exists d, w = s_rdy d (s_req false (r_pc (e_w e)) (e_w e))) /\
  o_rsp o = e_rsp e /\ o_mem o = e_mem e /\ o_rrdy o = e_rrdy e /\ o_tw o = e_tw e.
Proof.
  clear - HC Hk. intros e He Hg. unfold comb_core, eval_fsm in HC. rewrite He, Hg, Hk in HC. cbn [e_w e_rdy e_fast e_rsp e_mem e_rrdy e_probe e_lreq e_tw] in HC.
  inversion HC; subst w o; clear HC. cbn [o_rsp o_mem o_rrdy o_tw]. sp; auto. exists false. destruct (r_st r); reflexivity.
Qed.

Definition out_k (k : nat) : option (Z * bool) := if tk k then None else out k.

Lemma kill2 : J strict P w (tab_write false (o_tw o) t) None [] (o_mem o) late out_k (fun _ => false) (pb_of o) pb1 /\
  o_rsp o = None /\ o_rrdy o = pre_rdy i r.
Proof.
  pose proof (j_tab _ _ _ _ _ _ _ _ _ _ _ _ HJ) as Htab.
  pose proof (j_pw _ _ _ _ _ _ _ _ _ _ _ _ HJ) as Jpw.
  pose proof (j_late _ _ _ _ _ _ _ _ _ _ _ _ HJ) as Jlate.
  destruct pre2 as [r0 [Er0 F0]].
  destruct F0 as [Frv [Fst [Fbu [Ftv [Ftx [Fpw [Fpi [Fsn [Fg Fn]]]]]]]]].
  set (rr := pre_rdy i r) in *.
  (* facts common to the cases that keep the ids as they are *)
  assert (Ci : forall k, r_can r0 k = true -> r_inf r0 k = true).
  { intros k. destruct (tk k) eqn:T; [destruct (Fg _ T) as [-> ->]; discriminate | destruct (Fn _ T) as [-> ->]].
    apply (j_ci _ _ _ _ _ _ _ _ _ _ _ _ HJ). }
  assert (Ii : forall k, r_inf r0 k = true -> r_can r0 k = true \/ (r_st r = SWAP_IN /\ r_busy r = true /\ r_tx r = k)).
  { intros k. destruct (tk k) eqn:T; [destruct (Fg _ T) as [-> ->]; discriminate | destruct (Fn _ T) as [-> ->]].
    apply (j_ii _ _ _ _ _ _ _ _ _ _ _ _ HJ). }
  assert (Ou : forall k a f, out_k k = Some (a, f) -> (k < 16)%nat /\ r_inf r0 k = true /\ (r_can r0 k = true \/ (r_st r = SWAP_IN /\ r_busy r = true /\ r_tx r = k))).
  { intros k a f H. unfold out_k in H. destruct (tk k) eqn:T; [discriminate |]. destruct (Fn _ T) as [-> ->]. eapply out2; eauto. }
  assert (Lk : strict = true -> forall k, r_inf r0 k = true -> out_k k <> None).
  { intros S k H. unfold out_k. destruct (tk k) eqn:T; [destruct (Fg _ T) as [A _]; congruence |]. destruct (Fn _ T) as [A _]. rewrite A in H.
    apply (j_leak _ _ _ _ _ _ _ _ _ _ _ _ HJ S k H). }
  assert (He : eval0 i r = eval0 i r) by reflexivity. unfold eval0 at 2 in He. rewrite Er0 in He.
  destruct (r_st r) eqn:Hst.
  - (* IDLE *)
    unfold ev_idle in He. rewrite Hk in He. fold rr in He.
    destruct (core_kill _ He eq_refl) as [[d Ew] [E1 [E2 [E3 E5]]]]. cb. rewrite E1, E2, E3, E5.
    destruct (j_idle _ _ _ _ _ _ _ _ _ _ _ _ HJ Hst) as [A B].
    assert (NP : r_pi r = false).
    { destruct (r_pi r) eqn:X; auto. destruct (j_pi _ _ _ _ _ _ _ _ _ _ _ _ HJ X) as [[Y | Y] _]; congruence. }
    assert (NL : late = None).
    { destruct late as [[k a] |]; auto. destruct (Jlate _ _ eq_refl) as [[X _] | [X _]]; congruence. }
    rewrite NL. split; [| auto]. subst w. apply J_mk_idle; cb; auto; try congruence; try lia.
    + intros k a f H. destruct (Ou _ _ _ H) as [X [Y [Z' | [Z' _]]]]; [auto | discriminate].
    + intros k H. destruct (Ii _ H) as [X | [X _]]; [auto | discriminate].
  - (* SWAP_IN *)
    destruct (j_swap _ _ _ _ _ _ _ _ _ _ _ _ HJ Hst) as [Hrv [Htv Htx]].
    unfold ev_swap in He. destruct (probe_step i r r0) as [[[[pdone phit] pl] preq] w1] eqn:Hps.
    assert (NP : same_np w1 r0).
    { unfold probe_step in Hps. cbv zeta in Hps.
      destruct (negb (r_pd r) && negb (r_pi r) && (r_pw r <? WORDS) && r_rv r), (r_pi r), (i_dc i) as [[dd |] |];
      try destruct (WORDS <=? r_pw r + 1); inversion Hps; unfold same_np; cb; sp; reflexivity. }
    destruct NP as [Nrv [Npc [Nst [Nbu [Nmd [Nrp [Npp [Ntv [Ntx [Nsn [Nif Ncn]]]]]]]]]]]. rewrite Hk, Htv in He. rewrite ?andb_true_r in He. cbn [andb] in He. fold rr in He.
    rewrite <- Nif, <- Ncn in *.
    destruct (r_busy r) eqn:Hb.
    + cbn [negb andb orb] in He.
      destruct (core_kill _ He eq_refl) as [[d Ew] [E1 [E2 [E3 E5]]]]. cb. rewrite E1, E2, E3, E5.
      assert (NL : late = None).
      { destruct late as [[k a] |]; auto. destruct (Jlate _ _ eq_refl) as [[_ [X _]] | [X _]]; congruence. }
      destruct (j_busy _ _ _ _ _ _ _ _ _ _ _ _ HJ Hst Hb) as [B1 [B2 [B3 B4]]].
      assert (Tx : tk (r_tx r) = false).
      { destruct (tk (r_tx r)) eqn:T; auto. destruct (tk_spec _ T) as [l [X Y]]. rewrite (rdy_busy _ Hst Hb X) in Y. discriminate. }
      rewrite NL. split; [| auto]. subst w. apply J_mk_idle; cb; auto; try congruence; try lia.
      * intros k a f H. destruct (Ou _ _ _ H) as [X [Y Z']]. split; auto. right. unfold fupd. destruct (Nat.eqb_spec k (r_tx r)); auto.
        destruct Z' as [Z' | [_ [_ Z']]]; [auto | congruence].
      * intros k. unfold fupd. destruct (Nat.eqb k (r_tx r)); auto.
      * intros k. unfold fupd. destruct (Nat.eqb_spec k (r_tx r)); auto. intros H. destruct (Ii _ H) as [X | [_ [_ X]]]; [auto | congruence].
      * intros S k. unfold fupd. destruct (Nat.eqb_spec k (r_tx r)); auto. intros _. subst k. unfold out_k. rewrite Tx, B4. split; [discriminate | auto].
    + rewrite (Hna eq_refl eq_refl) in He. cbn [negb andb orb] in He.
      destruct (j_free _ _ _ _ _ _ _ _ _ _ _ _ HJ (or_introl (conj Hst Hb))) as [G1 G2].
      assert (X1 : r_inf w1 (r_tx r) = false /\ r_can w1 (r_tx r) = false).
      { destruct (tk (r_tx r)) eqn:T; [apply (Fg _ T) | destruct (Fn _ T) as [-> ->]; auto]. }
      assert (Ou' : forall k a f, out_k k = Some (a, f) -> (k < 16)%nat /\ (false = true \/ (r_inf w1 k = true /\ r_can w1 k = true))).
      { intros k a f H. destruct (Ou _ _ _ H) as [X [Y [Z' | [_ [Z' _]]]]]; [auto | discriminate]. }
      assert (Ii' : forall k, r_inf w1 k = true -> r_can w1 k = true).
      { intros k H. destruct (Ii _ H) as [X | [_ [X _]]]; [auto | discriminate]. }
      destruct (r_seen r || i_ready i) eqn:Hs.
      * destruct (core_kill _ He eq_refl) as [[d Ew] [E1 [E2 [E3 E5]]]]. cb. rewrite E1, E2, E3, E5.
        split; [| auto]. subst w. destruct X1 as [X1 X2]. destruct (i_ready i); cb; apply J_mk_canc; cb; auto; try congruence; try lia.
        all: try (rewrite Ntx, Ftx; auto; fail).
        all: try (apply tab_keep; auto).
        all: intros k a E; rewrite Ntx, Ftx; destruct (Jlate _ _ E) as [[_ [_ [_ [X _]]]] | [X _]]; [auto | congruence].
      * destruct (core_kill _ He eq_refl) as [[d Ew] [E1 [E2 [E3 E5]]]]. cb. rewrite E1, E2, E3, E5.
        apply orb_false_iff in Hs. destruct Hs as [Hs Hs']. rewrite Hs' in Ew.
        assert (NL : late = None).
        { destruct late as [[k a] |]; auto. destruct (Jlate _ _ eq_refl) as [[_ [_ [X _]]] | [X _]]; congruence. }
        rewrite NL. split; [| auto]. subst w. cb. apply J_mk_idle; cb; auto; try lia.
  - (* WAIT_DC *)
    destruct (j_wait _ _ _ _ _ _ _ _ _ _ _ _ HJ Hst) as [Hrv [Htv Hb]].
    unfold ev_wait in He. rewrite Hk in He. fold rr in He.
    destruct (core_kill _ He eq_refl) as [[d Ew] [E1 [E2 [E3 E5]]]]. cb. rewrite E1, E2, E3, E5.
    assert (NL : late = None).
    { destruct late as [[k a] |]; auto. destruct (Jlate _ _ eq_refl) as [[X _] | [X _]]; congruence. }
    rewrite NL. split; [| auto]. subst w. apply J_mk_idle; cb; auto; try congruence; try lia.
    + intros k a f H. destruct (Ou _ _ _ H) as [X [Y [Z' | [Z' _]]]]; [auto | discriminate].
    + intros k H. destruct (Ii _ H) as [X | [X _]]; [auto | discriminate].
  - exfalso. apply (j_drain _ _ _ _ _ _ _ _ _ _ _ _ HJ); auto.
  - congruence.
Qed.
End Second.

Lemma J_seen : forall strict P r t pend seen seen' pres late out gone pb0 pb1,
  ~ refilling r -> J strict P r t pend seen pres late out gone pb0 pb1 -> J strict P r t pend seen' pres late out gone pb0 pb1.
Proof. intros strict P r t pend seen seen' pres late out gone pb0 pb1 N []. split; auto. intros; tauto. Qed.
