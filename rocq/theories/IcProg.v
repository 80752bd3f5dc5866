(** Progress of the instruction cache. *)
From Verif Require Import Base IcModel IcSpec IcProofs IcInv IcIdle IcSwap IcCall IcReach.
Ltac Zify.zify_post_hook ::= Z.div_mod_to_equations.

Definition prank (r : regs) (pb0 : option (Z * bool)) : Z :=
  if r_pd r then 0 else 3 * (16 - r_pw r) - (if r_pi r then match pb0 with None => 2 | Some _ => 1 end else 0).
Definition rank (y : sys) : Z :=
  let r := ic_r (y_ic y) in
  match r_st r with
  | IDLE => if r_rv r then 60 else 61
  | SWAP_IN => prank r (y_pb0 y) + (if r_busy r then 1 else match y_pres y with None => 3 | Some _ => 2 end)
  | WAIT_DC => prank r (y_pb0 y)
  | _ => 62
  end.

Lemma prank_step : forall P y c second i w0 pdone phit pl preq w1,
  let r := ic_r (y_ic y) in
  Jy true P y -> env_ok true P y c second -> refilling r -> i_dc i = c_dc c -> r_rv r = true ->
  r_pi w0 = r_pi r -> r_pd w0 = r_pd r -> r_ph w0 = r_ph r -> r_pw w0 = r_pw r -> r_pl w0 = r_pl r ->
  probe_step i r w0 = (pdone, phit, pl, preq, w1) ->
  let pb := match preq with Some x => Some (x, true) | None => None end in
  0 <= prank w1 pb <= prank r (y_pb0 y) /\ (pdone = false -> prank w1 pb < prank r (y_pb0 y)).
Proof.
  intros P y c second i w0 pdone phit pl preq w1 r HJ HE HR Hdc Hrv E1 E2 E3 E4 E5 H pb.
  pose proof (j_pw _ _ _ _ _ _ _ _ _ _ _ _ HJ) as Jpw.
  pose proof (j_pi _ _ _ _ _ _ _ _ _ _ _ _ HJ) as Jpi.
  pose proof (j_pil _ _ _ _ _ _ _ _ _ _ _ _ HJ eq_refl) as Jpil.
  fold r in Jpw, Jpi, Jpil.
  pose proof (en_dcl _ _ _ _ _ HE eq_refl) as Edl.
  unfold probe_step in H. rewrite Hdc, Hrv, andb_true_r in H.
  destruct (r_pi r) eqn:Hpi.
  - destruct (Jpi eq_refl) as [_ Hpd].
    replace (negb (r_pd r) && negb true && (r_pw r <? WORDS)) with false in H by (rewrite Hpd; reflexivity).
    cbv beta iota zeta in H.
    assert (HL : prank r (y_pb0 y) = 3 * (16 - r_pw r) - match y_pb0 y with None => 2 | Some _ => 1 end) by (unfold prank; rewrite Hpd, Hpi; auto).
    assert (HB : 1 <= match y_pb0 y with None => 2 | Some _ => 1 end <= 2) by (destruct (y_pb0 y); lia).
    destruct (c_dc c) as [[d |] |] eqn:Ed.
    + destruct (WORDS <=? r_pw r + 1) eqn:Ew; inversion H; subst pdone phit pl preq w1; clear H; unfold WORDS in Ew; rewrite HL; unfold pb, prank; cb.
      * split; [lia | discriminate].
      * rewrite E2, Hpd. split; [| intros]; lia.
    + inversion H; subst pdone phit pl preq w1; clear H. rewrite HL. unfold pb, prank; cb. split; [lia | discriminate].
    + inversion H; subst pdone phit pl preq w1; clear H. rewrite HL. unfold pb, prank. rewrite E1, E2, E4, Hpd.
      destruct (y_pb0 y) as [b |] eqn:B; [split; [| intros]; lia |]. exfalso.
      destruct (Jpil eq_refl) as [X | X]; [congruence |]. apply (Edl X). auto.
  - assert (HL : prank r (y_pb0 y) = if r_pd r then 0 else 3 * (16 - r_pw r)) by (unfold prank; rewrite Hpi; destruct (r_pd r); lia).
    assert (H' : (r_pd r, r_ph r, r_pl r, if negb (r_pd r) && negb false && (r_pw r <? WORDS) then Some (line_addr (r_ppn r) (r_pc r) + r_pw r * 4) else None,
       if negb (r_pd r) && negb false && (r_pw r <? WORDS) then s_pr true (r_pd w0) (r_ph w0) (r_pw w0) (r_pl w0) w0 else w0) = (pdone, phit, pl, preq, w1))
      by (destruct (c_dc c) as [[]|]; exact H).
    clear H. destruct (r_pd r) eqn:Hpd; cbn [negb andb] in H'.
    + inversion H'; subst pdone phit pl preq w1; clear H'. rewrite HL. unfold pb, prank. rewrite E2. split; [lia | discriminate].
    + assert (Hw : (r_pw r <? WORDS) = true) by (unfold WORDS; lia). rewrite Hw in H'.
      inversion H'; subst pdone phit pl preq w1; clear H'. rewrite HL. unfold pb, prank. cb. rewrite E2, E4. split; [| intros]; lia.
Qed.

Lemma progress : forall P y c o y' pc, Jy true P y -> step true P y c false o y' -> serving y c = Some pc ->
  o_rsp o <> None \/ 0 <= rank y' < rank y \/ (0 <= rank y' <= rank y /\ stalled y c pc).
Proof.
  intros P y c o y' pc HJ HS Hsv.
  assert (K : kill c = false) by (unfold serving in Hsv; destruct (kill c); [discriminate | auto]).
  inversion HS as [s' o1 o2 HE HC]; subst o1 y'; clear HS.
  unfold ic_cycle, ic_call in HC. destruct (ic_comb c (ic_t (y_ic y)) (ic_r (y_ic y))) as [[w ow] trw] eqn:E3.
  inversion HC; subst s' ow o2; clear HC.
  destruct (ic_comb_fin _ _ _ _ _ _ E3) as [i [HF [HC _]]]. clear E3 trw.
  set (r := ic_r (y_ic y)) in *. set (t := ic_t (y_ic y)) in *.
  unfold rank, step_sys. cbn [y_ic ic_r y_pb0 y_pres]. fold r.
  destruct (r_st r) eqn:Hst.
  - (* IDLE *)
    destruct (j_idle _ _ _ _ _ _ _ _ _ _ _ _ HJ Hst) as [Htx Hbu]. fold r in Htx, Hbu.
    pose proof (j_pend _ _ _ _ _ _ _ _ _ _ _ _ HJ) as Jpend. fold r in Jpend.
    assert (Hsl : slot_idle r = negb (r_rv r)) by (unfold slot_idle; rewrite Hst, Htx, Hbu, !andb_true_r; reflexivity).
    assert (Hvr : c_v c = true -> r_rv r = false).
    { intros V. destruct (r_rv r) eqn:X; auto. rewrite (rv_no_v _ _ _ _ _ HE X) in V. discriminate. }
    assert (Ht : trq c r = Some (c_tr c (pc / 4096))).
    { unfold trq. unfold serving in Hsv. rewrite K, Jpend in *. rewrite Hsl. destruct (c_v c).
      - rewrite (Hvr eq_refl). cbn. inversion Hsv; auto.
      - destruct (r_rv r); inversion Hsv; auto. }
    pose proof (f_tr _ _ _ _ HF) as Htr. rewrite Ht in Htr.
    assert (Hlive : r_rv r = true \/ c_v c = true).
    { unfold serving in Hsv. rewrite K, Jpend in Hsv. destruct (c_v c); auto. destruct (r_rv r); auto; discriminate. }
    unfold comb_core, eval_fsm in HC. rewrite (f_kill _ _ _ _ HF), K in HC.
    assert (He : eval0 i r = ev_idle i r (pre_clean i r) (pre_rdy i r)) by (unfold eval0; rewrite Hst; reflexivity).
    unfold ev_idle in He. cbv zeta in He. rewrite (f_kill _ _ _ _ HF), K, (f_v _ _ _ _ HF), Htx, Hbu in He.
    destruct (c_tr c (pc / 4096)) as [| | p] eqn:Etr.
    + right; right. split; [| left; auto]. rewrite Htr in He. rewrite andb_false_r in He.
      assert (X : e_rdy (eval0 i r) = negb (r_rv r) /\ e_fast (eval0 i r) = false /\ e_gnt (eval0 i r) = None /\ r_st (e_w (eval0 i r)) = IDLE).
      { rewrite He, andb_false_r. destruct (r_rv r); cb; auto. }
      destruct X as [X1 [X2 [X3 X4]]]. cb. rewrite X1, X2, X3, Hsl, (f_v _ _ _ _ HF), Hst in HC. inversion HC; subst w o; clear HC. cb.
      rewrite X4. destruct (r_rv r); cbn [negb andb]; [rewrite andb_false_r; lia |]. destruct Hlive as [? | ->]; [discriminate |]. cbn [andb]. lia.
    + destruct Htr as [T1 T2]. rewrite T1, T2 in He. left.
      assert (X : e_rsp (eval0 i r) <> None).
      { rewrite He. destruct (r_rv r) eqn:Rv; cbn [negb andb]; [cb; discriminate |]. destruct Hlive as [? | ->]; [discriminate |]. cb; discriminate. }
      cb. destruct (e_fast (eval0 i r)); inversion HC; subst o; cb; auto.
    + destruct Htr as [T1 [T2 T3]]. rewrite T1, T2 in He.
      destruct (hit_way (i_meta i) (i_ppn i)) as [way |] eqn:Hh.
      * left. pose proof (f_data _ _ _ _ HF Hst K T1 T2 Hlive way Hh) as Hd. rewrite Hd in He.
        assert (X : e_rsp (eval0 i r) <> None).
        { rewrite He. destruct (r_rv r) eqn:Rv; cbn [negb andb]; [cb; discriminate |]. destruct Hlive as [? | ->]; [discriminate |]. cb; discriminate. }
        cb. destruct (e_fast (eval0 i r)); inversion HC; subst o; cb; auto.
      * right. destruct (r_rv r) eqn:Rv.
        -- cbn [negb andb] in He.
           destruct (alloc_txid r) as [tx |] eqn:Al.
           ++ left. rewrite He in HC. cb. rewrite Hst, Hsl, andb_false_r in HC. inversion HC; subst w o; clear HC. cb.
              unfold prank. cb. lia.
           ++ right. split.
              { rewrite He in HC. cb. rewrite Hst, Hsl, andb_false_r in HC. inversion HC; subst w o; clear HC. cb. lia. }
              right. left. intros k Hk. unfold alloc_txid in Al. pose proof (find_way_none _ _ _ Al k ltac:(lia)) as X.
              cbv beta in X. destruct (r_inf r k) eqn:Y; [| rewrite ?Y in X; discriminate X]. apply (j_leak _ _ _ _ _ _ _ _ _ _ _ _ HJ eq_refl k Y).
        -- left. destruct Hlive as [? | Hv]; [discriminate |]. rewrite Hv in He. cbn [negb andb] in He.
           rewrite He in HC. cb. rewrite (f_v _ _ _ _ HF), Hv, Hst, Hsl in HC. cbn [andb negb] in HC. inversion HC; subst w o; clear HC. cb. lia.
  - (* SWAP_IN *)
    destruct (j_swap _ _ _ _ _ _ _ _ _ _ _ _ HJ Hst) as [Hrv [Htv Htx]]. fold r in Hrv, Htv, Htx.
    assert (HR : refilling r) by (left; auto).
    assert (Hsl : slot_idle r = false) by (unfold slot_idle; rewrite Hrv; auto).
    assert (Epc : pc = r_pc r) by (rewrite (serving_old _ _ _ _ _ HJ HE K Hrv) in Hsv; inversion Hsv; auto).
    destruct (j_ppn _ _ _ _ _ _ _ _ _ _ _ _ HJ HR) as [Hin Hw20]. fold r in Hin, Hw20.
    pose proof (pages_old _ _ _ _ _ HJ HE K Hrv _ Hin) as Hin'.
    destruct (pre_facts _ _ _ HF) as [r0 [Er0 F0]]. fold r in F0.
    destruct F0 as [Frv [Fpc [Fst [Fbu [Fmd [Frp [Fpp [Ftv [Ftx [Fsn [Fpi [Fpd [Fph [Fpw [Fpl [Fg Fn]]]]]]]]]]]]]]]].
    destruct (probe_step i r r0) as [[[[pdone phit] pl] preq] w1] eqn:Hps.
    destruct (prank_step _ _ _ _ _ _ _ _ _ _ _ HJ HE HR (f_dc _ _ _ _ HF) Hrv Fpi Fpd Fph Fpw Fpl Hps) as [R1 R2]. fold r in R1, R2.
    assert (He : eval0 i r = ev_swap i r r0 (pre_rdy i r)) by (unfold eval0; rewrite Hst; fold r in Er0; rewrite Er0; reflexivity).
    unfold ev_swap in He. rewrite Hps in He. cbv zeta in He.
    rewrite (f_kill _ _ _ _ HF), K, (f_ready _ _ _ _ HF), Htv in He. rewrite ?andb_true_r in He.
    set (w2 := if negb (r_busy r) && c_ready c then s_tx (r_txv w1) (r_tx w1) true w1 else w1) in *.
    assert (W2 : r_pi w2 = r_pi w1 /\ r_pd w2 = r_pd w1 /\ r_pw w2 = r_pw w1).
    { unfold w2. destruct (negb (r_busy r) && c_ready c); cb; auto. }
    destruct W2 as [W2a [W2b W2c]]. clearbody w2.
    assert (Tk : eval0 i r = ev_taken i r w2 pdone phit pl preq ->
      o_rsp o <> None \/ 0 <= match r_st w with IDLE => if r_rv w then 60 else 61 | SWAP_IN => prank w (match o_probe o with Some x => Some (x, true) | None => None end) + (if r_busy w then 1 else match o_mem o with None => 3 | Some _ => 2 end) | WAIT_DC => prank w (match o_probe o with Some x => Some (x, true) | None => None end) | _ => 62 end < prank r (y_pb0 y) + (if r_busy r then 1 else match y_pres y with None => 3 | Some _ => 2 end) \/
      (0 <= match r_st w with IDLE => if r_rv w then 60 else 61 | SWAP_IN => prank w (match o_probe o with Some x => Some (x, true) | None => None end) + (if r_busy w then 1 else match o_mem o with None => 3 | Some _ => 2 end) | WAIT_DC => prank w (match o_probe o with Some x => Some (x, true) | None => None end) | _ => 62 end <= prank r (y_pb0 y) + (if r_busy r then 1 else match y_pres y with None => 3 | Some _ => 2 end) /\ stalled y c pc)).
    { intros Ev. unfold ev_taken in Ev. destruct pdone.
      - left. unfold finish_refill in Ev. rewrite (f_kill _ _ _ _ HF), (f_flush _ _ _ _ HF), K in Ev.
        assert (Hff : c_fencei c = false) by (unfold kill in K; destruct (c_fencei c); auto; rewrite orb_true_r in K; discriminate).
        rewrite Hff in Ev. destruct (core_busy _ _ _ _ _ HF HC Hsl _ Ev eq_refl) as [_ [E1 _]]. rewrite E1. cb. discriminate.
      - right; left. destruct (core_busy _ _ _ _ _ HF HC Hsl _ Ev eq_refl) as [[d Ew] [E1 [E2 [_ [E4 _]]]]]. fold r in Ew. rewrite Hst, K in Ew. cb.
        rewrite Ew, E4. cb. replace (prank _ _) with (prank w1 (match preq with Some x => Some (x, true) | None => None end))
          by (unfold prank; cb; rewrite W2a, W2b, W2c; reflexivity).
        destruct (r_busy r), (y_pres y); lia. }
    destruct (r_busy r) eqn:Hb; cbn [negb] in He.
    + destruct (active i r) eqn:Ac; [apply Tk; auto |].
      right; right. split. { clear Tk. destruct (core_busy _ _ _ _ _ HF HC Hsl _ He eq_refl) as [[d Ew] [E1 [E2 [_ [E4 _]]]]]. fold r in Ew. rewrite Hst, K in Ew. cb.
        rewrite Ew, E2, E4. cb. replace (prank _ (match preq with Some x => Some (x, true) | None => None end)) with (prank w1 (match preq with Some x => Some (x, true) | None => None end))
          by (unfold prank; cb; rewrite W2a, W2b, W2c; reflexivity). lia. } right; right; right. exists (r_tx r), (r_ppn r).
      destruct (j_busy _ _ _ _ _ _ _ _ _ _ _ _ HJ Hst Hb) as [B1 [B2 [B3 B4]]]. fold r in B1, B2, B4. subst pc. split; auto. split; auto.
      intros l E. unfold active, resp_id_is, inflight, canceled in Ac. rewrite (f_rsp _ _ _ _ HF), E, Htv, Nat.eqb_refl, B1, B2 in Ac. discriminate.
    + unfold accepts in He. rewrite (f_acc _ _ _ _ HF) in He.
      destruct (c_acc c) as [k |] eqn:Ea.
      * destruct (acc_facts _ _ _ _ _ HJ HE k Ea) as [-> _]. fold r in He. rewrite Nat.eqb_refl in He.
        destruct (active i r) eqn:Ac; [apply Tk; auto |].
        right; left. destruct (core_busy _ _ _ _ _ HF HC Hsl _ He eq_refl) as [[d Ew] [E1 [E2 [_ [E4 _]]]]]. fold r in Ew. rewrite Hst, K in Ew. cb.
        rewrite Ew, E4. cb. replace (prank _ (match preq with Some x => Some (x, true) | None => None end)) with (prank w1 (match preq with Some x => Some (x, true) | None => None end))
          by (unfold prank; cb; rewrite W2a, W2b, W2c; reflexivity).
        destruct (y_pres y); lia.
      * destruct (y_pres y) as [pp |] eqn:Ep.
        { right; right. split. { clear Tk. destruct (core_busy _ _ _ _ _ HF HC Hsl _ He eq_refl) as [[d Ew] [E1 [E2 [_ [E4 _]]]]]. fold r in Ew. rewrite Hst, K in Ew. cb.
        rewrite Ew, E2, E4. cb. replace (prank _ (match preq with Some x => Some (x, true) | None => None end)) with (prank w1 (match preq with Some x => Some (x, true) | None => None end))
          by (unfold prank; cb; rewrite W2a, W2b, W2c; reflexivity). lia. } right; right; left; split; [congruence | auto]. }
        right; left. destruct (core_busy _ _ _ _ _ HF HC Hsl _ He eq_refl) as [[d Ew] [E1 [E2 [_ [E4 _]]]]]. fold r in Ew. rewrite Hst, K in Ew. cb.
        rewrite Ew, E2, E4. cb. replace (prank _ (match preq with Some x => Some (x, true) | None => None end)) with (prank w1 (match preq with Some x => Some (x, true) | None => None end))
          by (unfold prank; cb; rewrite W2a, W2b, W2c; reflexivity).
        lia.
  - (* WAIT_DC *)
    destruct (j_wait _ _ _ _ _ _ _ _ _ _ _ _ HJ Hst) as [Hrv [Htv Hbu]]. fold r in Hrv, Htv, Hbu.
    assert (HR : refilling r) by (right; auto).
    assert (Hsl : slot_idle r = false) by (unfold slot_idle; rewrite Hrv; auto).
    destruct (pre_facts _ _ _ HF) as [r0 [Er0 F0]]. fold r in F0.
    destruct F0 as [Frv [Fpc [Fst [Fbu [Fmd [Frp [Fpp [Ftv [Ftx [Fsn [Fpi [Fpd [Fph [Fpw [Fpl [Fg Fn]]]]]]]]]]]]]]]].
    destruct (probe_step i r r0) as [[[[pdone phit] pl] preq] w1] eqn:Hps.
    destruct (prank_step _ _ _ _ _ _ _ _ _ _ _ HJ HE HR (f_dc _ _ _ _ HF) Hrv Fpi Fpd Fph Fpw Fpl Hps) as [R1 R2]. fold r in R1, R2.
    assert (He : eval0 i r = ev_wait i r r0 (pre_rdy i r)) by (unfold eval0; rewrite Hst; fold r in Er0; rewrite Er0; reflexivity).
    unfold ev_wait in He. rewrite Hps, (f_kill _ _ _ _ HF), K in He.
    destruct pdone.
    + left. unfold finish_refill in He. rewrite (f_kill _ _ _ _ HF), (f_flush _ _ _ _ HF), K in He.
      assert (Hff : c_fencei c = false) by (unfold kill in K; destruct (c_fencei c); auto; rewrite orb_true_r in K; discriminate).
      rewrite Hff in He. destruct (core_busy _ _ _ _ _ HF HC Hsl _ He eq_refl) as [_ [E1 _]]. rewrite E1. cb. discriminate.
    + right; left. destruct (core_busy _ _ _ _ _ HF HC Hsl _ He eq_refl) as [[d Ew] [E1 [E2 [_ [E4 _]]]]]. fold r in Ew. rewrite Hst, K in Ew. cb.
      rewrite Ew, E4. cb. replace (prank _ (match preq with Some x => Some (x, true) | None => None end)) with (prank w1 (match preq with Some x => Some (x, true) | None => None end)) by reflexivity.
      split; [lia | auto].
  - exfalso. apply (j_drain _ _ _ _ _ _ _ _ _ _ _ _ HJ); auto.
  - exfalso. destruct (j_canc _ _ _ _ _ _ _ _ _ _ _ _ HJ Hst) as [Hrv _].
    pose proof (j_pend _ _ _ _ _ _ _ _ _ _ _ _ HJ) as Jpend. rewrite Hrv in Jpend.
    unfold serving in Hsv. rewrite K, Jpend in Hsv. destruct (c_v c) eqn:V; [| discriminate].
    destruct (en_v _ _ _ _ _ HE V) as [_ [h G]]. unfold glue_ready in G. fold r in G.
    rewrite Hst in G. cbn [negb] in G. rewrite orb_true_r in G. cbn [orb negb] in G. rewrite andb_false_r in G. discriminate.
Qed.

Lemma rank_bound : forall P y, Jy true P y -> 0 <= rank y <= 62.
Proof.
  intros P y HJ. pose proof (j_pw _ _ _ _ _ _ _ _ _ _ _ _ HJ) as H. unfold rank, prank.
  destruct (r_st (ic_r (y_ic y))); try (destruct (r_rv (ic_r (y_ic y))); lia); try lia;
  destruct (r_pd (ic_r (y_ic y))), (r_pi (ic_r (y_ic y))), (y_pb0 y), (r_busy (ic_r (y_ic y))), (y_pres y); lia.
Qed.
Lemma waits_rank : forall P y0 n s y, Jy true P y0 -> waits P y0 n s y -> Jy true P y /\ rank y + Z.of_nat n <= rank y0 + Z.of_nat s.
Proof.
  intros P y0 n s y HJ H. induction H.
  - split; auto. lia.
  - destruct IHwaits as [A B]. destruct (step_J _ _ _ _ _ _ _ A H0) as [A' _]. split; auto.
    destruct (progress _ _ _ _ _ _ A H0 H1) as [X | [X | [_ X]]]; [congruence | lia | congruence].
  - destruct IHwaits as [A B]. destruct (step_J _ _ _ _ _ _ _ A H0) as [A' _]. split; auto.
    destruct (progress _ _ _ _ _ _ A H0 H1) as [X | [X | [X _]]]; [congruence | lia | lia].
Qed.
Lemma waits_bound : forall P y0 n s y, Jy true P y0 -> waits P y0 n s y -> (n <= 62 + s)%nat.
Proof.
  intros. destruct (waits_rank _ _ _ _ _ H H0) as [A B]. pose proof (rank_bound _ _ A). pose proof (rank_bound _ _ H). lia.
Qed.

(** Answers are taken. *)
Lemma taken : forall strict P y c o y' k l, Jy strict P y -> step strict P y c false o y' -> c_rsp c = Some (k, l) ->
  (kill c = false \/ y_pend y = None) -> o_rrdy o = true.
Proof.
  intros strict P y c o y' k l HJ HS Er Hor.
  inversion HS as [s' o1 o2 HE HC]; subst o1 y'; clear HS.
  unfold ic_cycle, ic_call in HC. destruct (ic_comb c (ic_t (y_ic y)) (ic_r (y_ic y))) as [[w ow] trw] eqn:E3.
  inversion HC; subst s' ow o2; clear HC.
  destruct (ic_comb_fin _ _ _ _ _ _ E3) as [i [HF [HC _]]]. clear E3 trw.
  set (r := ic_r (y_ic y)) in *.
  assert (Ho : o_rrdy o = e_rrdy (eval0 i r)).
  { unfold comb_core, eval_fsm in HC. cb. destruct (i_kill i); [inversion HC; reflexivity |]. destruct (e_fast (eval0 i r)); inversion HC; reflexivity. }
  rewrite Ho. destruct (en_rsp _ _ _ _ _ HE _ _ Er) as [a [f [On _]]].
  pose proof (j_pend _ _ _ _ _ _ _ _ _ _ _ _ HJ) as Jpend. fold r in Jpend.
  assert (Rdy : r_st r <> SWAP_IN -> r_st r <> CANCEL_WAIT -> pre_rdy i r = true).
  { intros N M. destruct (quiet_acc _ _ _ _ _ HJ HE N M) as [Ha _]. unfold out_now in On. rewrite Ha in On.
    destruct (j_out _ _ _ _ _ _ _ _ _ _ _ _ HJ _ _ _ On) as [_ [B | [B [C | [C _]]]]]; [discriminate | | fold r in C; congruence].
    unfold pre_rdy, canceled. rewrite (f_rsp _ _ _ _ HF), Er. fold r in C. rewrite C. reflexivity. }
  unfold eval0. destruct (r_st r) eqn:Hst.
  - unfold ev_idle. assert (X := Rdy ltac:(discriminate) ltac:(discriminate)). rewrite X. cbv zeta.
    destruct (i_kill i); [reflexivity |].
    destruct (negb (r_rv r) && i_v i && i_pv i).
    + destruct (i_pf i); [reflexivity |]. destruct (hit_way _ _); [destruct (hit_data _ _); reflexivity |].
      destruct (r_rv r && i_pv i); [destruct (if r_txv r then _ else _); reflexivity |]. destruct (r_rv r); reflexivity.
    + destruct (r_rv r && i_pv i).
      * destruct (i_pf i); [reflexivity |]. destruct (hit_way _ _); [destruct (hit_data _ _); reflexivity |]. destruct (if r_txv r then _ else _); reflexivity.
      * destruct (r_rv r); reflexivity.
  - destruct (j_swap _ _ _ _ _ _ _ _ _ _ _ _ HJ Hst) as [Hrv [Htv Htx]]. fold r in Hrv, Htv, Htx.
    assert (K : kill c = false) by (destruct Hor as [? | Hor]; [auto | rewrite Jpend, Hrv in Hor; discriminate]).
    unfold ev_swap. destruct (probe_step i r (pre_clean i r)) as [[[[pdone phit] pl] preq] w1]. rewrite (f_kill _ _ _ _ HF), K.
    assert (T : forall w2, e_rrdy (ev_taken i r w2 pdone phit pl preq) = true).
    { intros. unfold ev_taken. destruct pdone; reflexivity. }
    destruct (active i r) eqn:Ac.
    + destruct (r_busy r) eqn:Hb; cbn [negb]; [apply T |].
      destruct (accepts i (r_tx r)) eqn:Aa; [apply T |]. exfalso.
      unfold active, same_cycle in Ac. rewrite Aa in Ac. rewrite !andb_false_r, orb_false_r in Ac.
      destruct (j_free _ _ _ _ _ _ _ _ _ _ _ _ HJ (or_introl (conj Hst Hb))) as [G1 G2]. fold r in G1.
      unfold inflight, resp_id_is in Ac. rewrite (f_rsp _ _ _ _ HF), Er in Ac.
      destruct (Nat.eqb_spec k (r_tx r)); [subst k; rewrite G1, andb_false_r in Ac; discriminate | rewrite andb_false_r in Ac; discriminate].
    + assert (R : pre_rdy i r = true).
      { unfold pre_rdy. destruct (canceled i r) eqn:Ca; auto. unfold orphan. rewrite Ac, Ca, (f_rsp _ _ _ _ HF), Er. cbn [negb andb orb].
        destruct (inflight i r) eqn:In; auto. exfalso.
        unfold inflight, canceled in *. rewrite (f_rsp _ _ _ _ HF), Er in *.
        destruct (j_ii _ _ _ _ _ _ _ _ _ _ _ _ HJ _ In) as [X | [_ [X Y]]]; fold r in X; [congruence |]. fold r in Y.
        unfold active, resp_id_is, inflight, canceled in Ac. rewrite (f_rsp _ _ _ _ HF), Er, Htv, In, Ca, Y, Nat.eqb_refl in Ac. discriminate. }
      rewrite R. destruct (negb (r_busy r)); [destruct (accepts i (r_tx r)) |]; reflexivity.
  - assert (X := Rdy ltac:(discriminate) ltac:(discriminate)). unfold ev_wait. rewrite X.
    destruct (i_kill i); [reflexivity |]. destruct (probe_step i r (pre_clean i r)) as [[[[pdone phit] pl] preq] w1].
    destruct pdone; reflexivity.
  - exfalso. apply (j_drain _ _ _ _ _ _ _ _ _ _ _ _ HJ); auto.
  - reflexivity.
Qed.
