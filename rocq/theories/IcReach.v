(** The invariant over whole executions of the instruction cache. *)
From Verif Require Import Base IcModel IcSpec IcProofs IcInv IcIdle IcSwap IcCall.
Ltac Zify.zify_post_hook ::= Z.div_mod_to_equations.

Lemma step_J : forall strict P y c second o y', Jy strict P y -> step strict P y c second o y' ->
  Jy strict P y' /\
  (forall rs, o_rsp o = Some rs -> exists pc, serving y c = Some pc /\ answer_ok P pc (pages y c) (c_tr c (pc / 4096)) rs).
Proof.
  intros strict P y c second o y' HJ HS. inversion HS as [s' o1 o2 HE HC]; subst o1 y'; clear HS.
  unfold ic_cycle in HC. destruct (ic_call c (y_ic y)) as [[s1 oa] tr] eqn:E1.
  destruct (mid_call _ _ _ _ _ _ _ _ HJ HE E1) as [M1 [M2 [M3 M4]]].
  destruct second.
  - destruct (en_second _ _ _ _ _ HE eq_refl) as [R1 R2]. pose proof (en_inval _ _ _ _ _ HE) as R3.
    assert (K : kill c = false) by (unfold kill; rewrite R1, R2, R3; auto).
    destruct (ic_call (inval_inp c) s1) as [[s2 ob] tr2] eqn:E2. inversion HC; subst s' oa ob; clear HC.
    split; [| exact M2].
    unfold ic_call in E2. destruct (ic_comb (inval_inp c) (ic_t s1) (ic_r s1)) as [[w ow] trw] eqn:E3.
    inversion E2; subst s2 ow trw; clear E2.
    destruct (ic_comb_fin _ _ _ _ _ _ E3) as [i [HF [HC _]]].
    pose proof (f_acc _ _ _ _ HF) as Fa. pose proof (f_rsp _ _ _ _ HF) as Fr. pose proof (f_kill _ _ _ _ HF) as Fk. pose proof (f_flush _ _ _ _ HF) as Ff.
    cbn [inval_inp c_acc c_rsp c_fencei] in Fa, Fr, Ff. change (kill (inval_inp c)) with true in Fk.
    assert (Hk2 := fun A B => kill2 _ _ _ _ _ _ _ _ _ _ _ _ i w o2 M1 A B Fk).
    destruct Hk2 as [Q1 [Q2 Q3]]; auto.
    + intros A. rewrite (M4 A) in K. discriminate.
    + intros A B. unfold accepts. rewrite Fa. pose proof (M3 A B) as X. destruct (c_acc c) as [k |]; auto.
      destruct (Nat.eqb_spec k (r_tx (ic_r s1))); auto. subst. congruence.
    + intros k. unfold gone_of. rewrite Fr. destruct (c_rsp c) as [[id l] |]; [| discriminate]. intros G. apply andb_prop in G.
      destruct G as [G _]. apply Nat.eqb_eq in G. subst. eauto.
    + intros k l. rewrite Fr. intros E. destruct (en_rsp _ _ _ _ _ HE _ _ E) as [a [f [X _]]]. congruence.
    + unfold Jy, step_sys. cbn [y_ic y_pres y_late y_out y_pb0 y_pb1 y_pend y_seen ic_r ic_t].
      cbn [inval_inp c_fencei].
      apply J_seen with (seen := []).
      { intros [A | A].
        - assert (X := j_pend _ _ _ _ _ _ _ _ _ _ _ _ Q1). destruct (j_swap _ _ _ _ _ _ _ _ _ _ _ _ Q1 A) as [Y _]. rewrite Y in X. discriminate.
        - assert (X := j_pend _ _ _ _ _ _ _ _ _ _ _ _ Q1). destruct (j_wait _ _ _ _ _ _ _ _ _ _ _ _ Q1 A) as [Y _]. rewrite Y in X. discriminate. }
      refine (J_settle _ _ _ _ _ _ _ _ _ _ _ _ _ Q1 _).
      intros k. unfold out_k, tk. rewrite Fr, Q3. destruct (c_rsp c) as [[id l] |]; auto.
      destruct (pre_rdy i (ic_r s1)); [| rewrite andb_false_r; auto]. rewrite andb_true_r. unfold fupd. rewrite Nat.eqb_sym. destruct (Nat.eqb id k); auto.
  - inversion HC; subst s' oa o2; clear HC. split; [| exact M2].
    unfold Jy, step_sys. cbn [y_ic y_pres y_late y_out y_pb0 y_pb1 y_pend y_seen].
    refine (J_settle _ _ _ _ _ _ _ _ _ _ _ _ _ M1 _).
    intros k. unfold gone_of. destruct (c_rsp c) as [[id l] |]; auto.
    destruct (o_rrdy o); [| rewrite andb_false_r; auto]. rewrite andb_true_r. unfold fupd. rewrite Nat.eqb_sym. destruct (Nat.eqb id k); auto.
Qed.

Lemma reach_J : forall strict P y0 y, Jy strict P y0 -> reach strict P y0 y -> Jy strict P y.
Proof. intros strict P y0 y H R. induction R; auto. eapply step_J; eauto. Qed.

(** A redirect or fence leaves no refill behind and writes no table. *)
Lemma kill_quiet : forall i r w o, i_kill i = true -> r_st r <> DRAIN -> comb_core i r = (w, o) ->
  o_tw o = None /\ o_rsp o = None /\ ~ refilling w.
Proof.
  intros i r w o Hk Hd HC. unfold comb_core in HC. rewrite Hk in HC. inversion HC; subst w o; clear HC.
  unfold refilling. cb. unfold eval_fsm. cb.
  assert (X : e_tw (eval0 i r) = None /\ e_rsp (eval0 i r) = None /\ (r_st (e_w (eval0 i r)) = IDLE \/ r_st (e_w (eval0 i r)) = CANCEL_WAIT)).
  { unfold eval0. destruct (r_st r); try congruence.
    - unfold ev_idle. rewrite Hk. cb. auto.
    - unfold ev_swap. destruct (probe_step i r (pre_clean i r)) as [[[[pdone phit] pl] preq] w1]. rewrite Hk.
      destruct (_ && _); [cb; auto |]. destruct (_ && _); cb; auto.
    - unfold ev_wait. rewrite Hk. cb. auto.
    - unfold ev_cancel. cb. auto. }
  destruct X as [-> [-> X]]. sp; auto.
  assert (Y : r_st (match r_st r with SWAP_IN => match e_gnt (eval0 i r) with Some k => s_md (resp_line i) k (s_rdy (e_rdy (eval0 i r)) (e_w (eval0 i r))) | None => s_rdy (e_rdy (eval0 i r)) (e_w (eval0 i r)) end | _ => s_rdy (e_rdy (eval0 i r)) (e_w (eval0 i r)) end)
              = r_st (e_w (eval0 i r))).
  { destruct (r_st r), (e_gnt (eval0 i r)); reflexivity. }
  cb. rewrite Y. intros [A | A]; destruct X; congruence.
Qed.

Lemma J_other : forall strict P P' r t pend seen pres late out gone pb0 pb1 out' pb0' pb1',
  ~ refilling r -> (forall ix way, fst (t_meta t ix way) = false) -> (forall k, out' k = forget (out k)) ->
  pb0' = forget pb0 -> pb1' = forget pb1 ->
  J strict P r t pend seen pres late out gone pb0 pb1 -> J strict P' r t pend seen pres late out' gone pb0' pb1'.
Proof.
  intros strict P P' r t pend seen pres late out gone pb0 pb1 out' pb0' pb1' N T HO H0 H1 [].
  assert (NS : r_st r <> SWAP_IN) by (intros A; apply N; left; auto).
  assert (FO : forall x, forget x <> None <-> x <> None) by (intros [[a f] |]; cbn; split; congruence).
  split; auto; try (intros; congruence); try (intros; tauto).
  - intros k a f H. rewrite HO in H. destruct (out k) as [[a' f'] |] eqn:E; [| discriminate]. destruct (j_out _ _ _ E) as [A [B | [B [C | [C _]]]]]; auto.
  - intros S k H. rewrite HO, FO. auto.
  - intros A. exfalso. apply N. right; auto.
Qed.

(** After fence.i nothing that was fetched before is left. *)
Lemma fence_J : forall strict P P' y c o y', Jy strict P y -> step strict P y c false o y' -> c_fencei c = true -> Jy strict P' (unvouched y').
Proof.
  intros strict P P' y c o y' HJ HS Hf. destruct (step_J _ _ _ _ _ _ _ HJ HS) as [HJ' _].
  inversion HS as [s' o1 o2 HE HC]; subst o1 y'; clear HS.
  unfold ic_cycle, ic_call in HC. destruct (ic_comb c (ic_t (y_ic y)) (ic_r (y_ic y))) as [[w ow] trw] eqn:E3.
  inversion HC; subst s' ow o2; clear HC.
  destruct (ic_comb_fin _ _ _ _ _ _ E3) as [i [HF [HC _]]].
  assert (Hk : i_kill i = true) by (rewrite (f_kill _ _ _ _ HF); unfold kill; rewrite Hf, orb_true_r; auto).
  destruct (kill_quiet _ _ _ _ Hk (j_drain _ _ _ _ _ _ _ _ _ _ _ _ HJ) HC) as [Q1 [Q2 Q3]].
  unfold Jy in *. refine (J_other _ P _ _ _ _ _ _ _ _ _ _ _ _ _ _ Q3 _ (fun k => eq_refl) eq_refl eq_refl HJ').
  intros ix way. unfold step_sys. cbn [y_ic ic_t]. rewrite Q1, Hf. reflexivity.
Qed.
