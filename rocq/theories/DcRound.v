(** One round of requests: a main tick presents up to two loads and two stores,
    fast ticks follow, and the next main tick publishes the answers. *)
From Verif Require Import Base BaseLemmas MemSpec MemModel MemProofs DcModel DcSpec DcLemmas DcInv DcStage DcMiss DcFill DcTick DcReach DcLoad.
Ltac Zify.zify_post_hook ::= Z.div_mod_to_equations.
#[local] Opaque Z.pow Z.land Z.lor Z.shiftl Z.shiftr.

(** fast ticks: no requests, and the latch is kept (MemSubsystem.cpp:959-976) *)
Inductive fast (y : sys) : nat -> sys -> Prop :=
| fast0 : fast y 0 y
| fastS : forall n y1 i o y2, fast y n y1 -> step y1 i o y2 -> ti_rq i = no_request -> ti_clear i = false -> fast y (S n) y2.

(** the store of a request, if its answer is HIT *)
Definition done_by (q : option storereq) (r : option storeresp) : list dstore :=
  match q, r with
  | Some q, Some p => match sp_replay p with HIT => [mkds (sq_addr q) (sq_data q) (sq_strb q)] | _ => [] end
  | _, _ => []
  end.
Definition one_line (r : request) : Prop :=
  match rq_st0 r, rq_st1 r with Some a, Some b => sq_addr a / 64 = sq_addr b / 64 | _, _ => False end.

Section Window.
  Variables (m0 : Z -> Z) (y1 : sys) (rq : request).
  Definition loadW (k : nat) (y : sys) (p : latch) : Prop :=
    match reqL k rq with
    | None => latL k p = None
    | Some q => exists r, latL k p = Some r /\ lp_id r = lq_id q /\ metL k p = Some (lq_addr q) /\
        (lp_replay r = HIT -> exists j, (j <= length (y_hist y))%nat /\ is_word (after_stores (bytes_of m0) (firstn j (y_hist y))) (lq_addr q) (lp_data r) /\
           ((length (y_hist y1) <= j)%nat \/ held (d_ms (y_d y1)) (lq_addr q / 64)))
    end.
  Definition storeW (k : nat) (p : latch) : Prop :=
    match reqT k rq with
    | None => latT k p = None
    | Some q => exists r, latT k p = Some r /\ sp_id r = sq_id q /\ metT k p = Some (sq_addr q, sq_data q, sq_strb q)
    end.
  Definition histW (y : sys) (p : latch) : Prop :=
    exists l, y_hist y = y_hist y1 ++ l /\
      let d0 := done_by (rq_st0 rq) (la_st0 p) in let d1 := done_by (rq_st1 rq) (la_st1 p) in
      (l = d0 ++ d1 \/ (l = d1 ++ d0 /\ ~ one_line rq)).
  Definition arrW (y : sys) : Prop :=
    (length (y_hist y1) <= y_arr y)%nat \/ (y_arr y = y_arr y1 /\ forall l, held (d_ms (y_d y)) l -> held (d_ms (y_d y1)) l).
  Record Win (y : sys) (p : latch) : Prop := mkWin {
    wi_l : forall k, (k < 2)%nat -> loadW k y p;
    wi_s : forall k, (k < 2)%nat -> storeW k p;
    wi_h : histW y p;
    wi_o : one_line rq -> ordered (la_st0 p) (la_st1 p) }.

  Lemma hist_grow y i o y' : step y i o y' -> y_hist y' = y_hist y ++ new_stores (y_d y) o.
  Proof. intros ST. destruct ST. reflexivity. Qed.
  Lemma firstn_grow {A} j (h l : list A) : (j <= length h)%nat -> firstn j (h ++ l) = firstn j h.
  Proof. intros H. rewrite firstn_app. replace (j - length h)%nat with 0%nat by lia. now rewrite firstn_O, app_nil_r. Qed.
  Lemma arr_next y i o y' : Inv m0 y -> step y i o y' -> (length (y_hist y1) <= length (y_hist y))%nat -> arrW y -> arrW y'.
  Proof.
    intros II ST L A. destruct (tick_arr m0 y i o y' II ST) as [E|[E H]]; [left; lia|]. destruct A as [A|[A B]]; [left; lia|right]. split; [congruence|auto].
  Qed.

  (** a load's answer, forwarded or not *)
  Lemma load_fwd y i o y' k q r : Inv m0 y -> step y i o y' -> (k < 2)%nat -> (length (y_hist y1) <= length (y_hist y))%nat -> arrW y ->
    pre (rawL k o) (latL k (d_pend (y_d y))) = Some r -> lp_id r = lq_id q -> metL k (to_pend o) = Some (lq_addr q) ->
    (lp_replay r = HIT -> exists j, (j <= length (y_hist y))%nat /\ is_word (after_stores (bytes_of m0) (firstn j (y_hist y))) (lq_addr q) (lp_data r) /\
           ((length (y_hist y1) <= j)%nat \/ held (d_ms (y_d y1)) (lq_addr q / 64))) ->
    exists r', latL k (to_pend o) = Some r' /\ lp_id r' = lq_id q /\ metL k (to_pend o) = Some (lq_addr q) /\
        (lp_replay r' = HIT -> exists j, (j <= length (y_hist y'))%nat /\ is_word (after_stores (bytes_of m0) (firstn j (y_hist y'))) (lq_addr q) (lp_data r') /\
           ((length (y_hist y1) <= j)%nat \/ held (d_ms (y_d y1)) (lq_addr q / 64))).
  Proof.
    intros II ST Hk LE A PR ID MT HH. destruct (tick_load m0 y i o y' k II ST Hk) as (_ & _ & [E|(p & p' & a & P1 & P2 & P3 & (F1 & F2 & F3 & F4) & P5)]).
    - rewrite PR in E. exists r. sp; auto. intros X. destruct (HH X) as (j & J1 & J2 & J3). exists j. rewrite (hist_grow _ _ _ _ ST), app_length, firstn_grow by lia. sp; auto; lia.
    - rewrite PR in P1. injection P1 as <-. rewrite MT in P2. injection P2 as <-. exists p'. sp; auto; [congruence|]. intros _.
      assert (LA : (y_arr y' <= length (y_hist y))%nat). { destruct (tick_arr m0 y i o y' II ST) as [X|[X _]]; [lia|]. destruct (i_arr _ _ II). lia. }
      exists (y_arr y'). rewrite (hist_grow _ _ _ _ ST), app_length, firstn_grow by lia. sp; auto; [lia|].
      destruct P5 as [P5|P5]; [left; lia|]. destruct (tick_arr m0 y i o y' II ST) as [X|[X _]]; [left; lia|]. destruct A as [A|[A B]]; [left; lia|right; auto].
  Qed.

  (** the tick after the main tick: the requests are in stage 2, the latch is empty *)
  Lemma first_tick y i o y' : y = y1 -> Inv m0 y -> step y i o y' -> d_pend (y_d y) = latch0 -> same_flag (d_s (y_d y)) ->
    (forall k, (k < 2)%nat -> match reqL k rq with Some q => exists b, slotL k (d_s (y_d y)) = Some (q, b) | None => slotL k (d_s (y_d y)) = None end) ->
    (forall k, (k < 2)%nat -> match reqT k rq with Some q => exists b, slotT k (d_s (y_d y)) = Some (q, b) | None => slotT k (d_s (y_d y)) = None end) ->
    Win y' (to_pend o) /\ arrW y'.
  Proof.
    intros EY II ST PE SF SL SS.
    assert (A1 : arrW y) by (right; subst y; split; auto).
    assert (RT : forall k, (k < 2)%nat -> match reqT k rq with Some q => exists r, rawT k o = Some r /\ latT k (to_pend o) = Some r /\ sp_id r = sq_id q /\ metT k (to_pend o) = Some (sq_addr q, sq_data q, sq_strb q)
                                         | None => rawT k o = None /\ latT k (to_pend o) = None end).
    { intros k Hk. destruct (tick_store m0 y i o y' II ST) as [T (F & TF)]. destruct (T k Hk) as [T1 T2]. specialize (SS k Hk). destruct (reqT k rq) as [q|].
      - destruct SS as [b SS]. rewrite SS in T1, T2. destruct T2 as (p & T2 & T3). exists p. rewrite (tick_raw_store m0 y i o y' k II ST Hk) by congruence. rewrite T2 in *. sp; auto.
      - rewrite SS in T2. split; auto. rewrite (TF k Hk), T2, PE. destruct k as [|[|k]]; reflexivity. }
    split; [|eapply arr_next; eauto; subst y; lia]. constructor.
    - intros k Hk. unfold loadW. destruct (tick_load m0 y i o y' k II ST Hk) as (TM & TR & TE). specialize (SL k Hk). destruct (reqL k rq) as [q|].
      + destruct SL as [b SL]. rewrite SL in TM, TR. destruct TR as (p & R1 & R2 & R3). rewrite R1 in TM. cbn [laddr] in TM.
        eapply (load_fwd y i o y' k q p II ST Hk); auto; [subst y; lia|rewrite R1; reflexivity|].
        intros X. exists (length (y_hist y)). rewrite firstn_all. sp; auto. left. subst y. lia.
      + rewrite SL in TR. rewrite TR, PE in TE. assert (N : pre None (latL k latch0) = None) by (destruct k as [|[|k]]; reflexivity). rewrite N in TE. destruct TE as [TE|(p & p' & a & X & _)]; [auto|discriminate].
    - intros k Hk. unfold storeW. specialize (RT k Hk). destruct (reqT k rq) as [q|]; [|apply RT]. destruct RT as (r & _ & X1 & X2 & X3). exists r. auto.
    - exists (new_stores (y_d y) o). split; [rewrite (hist_grow _ _ _ _ ST); subst y; reflexivity|]. cbv zeta. left. unfold new_stores. rewrite PE.
      pose proof (RT 0%nat ltac:(lia)) as R0. pose proof (RT 1%nat ltac:(lia)) as R1. cbn [reqT rawT latT metT] in R0, R1.
      pose proof (SS 0%nat ltac:(lia)) as S0. pose proof (SS 1%nat ltac:(lia)) as S1. cbn [reqT slotT] in S0, S1.
      assert (F0 : fwd_done (pre (to_t0 o) (la_st0 latch0)) (la_st0 (to_pend o)) (la_ms0 (to_pend o)) = []).
      { destruct (rq_st0 rq); [destruct R0 as (r & -> & -> & _); apply fwd_same|destruct R0 as [-> ->]; reflexivity]. }
      assert (F1 : fwd_done (pre (to_t1 o) (la_st1 latch0)) (la_st1 (to_pend o)) (la_ms1 (to_pend o)) = []).
      { destruct (rq_st1 rq); [destruct R1 as (r & -> & -> & _); apply fwd_same|destruct R1 as [-> ->]; reflexivity]. }
      rewrite F0, F1. cbn [app]. f_equal.
      + unfold raw_done, done_by. destruct (rq_st0 rq); [destruct S0 as [b ->]; destruct R0 as (r & -> & -> & _); reflexivity|rewrite S0; reflexivity].
      + unfold raw_done, done_by. destruct (rq_st1 rq); [destruct S1 as [b ->]; destruct R1 as (r & -> & -> & _); reflexivity|rewrite S1; reflexivity].
    - unfold one_line. intros OL. pose proof (RT 0%nat ltac:(lia)) as R0. pose proof (RT 1%nat ltac:(lia)) as R1. cbn [reqT rawT latT metT] in R0, R1.
      pose proof (SS 0%nat ltac:(lia)) as S0. pose proof (SS 1%nat ltac:(lia)) as S1. cbn [reqT slotT] in S0, S1.
      destruct (rq_st0 rq) as [q0|]; [|contradiction]. destruct (rq_st1 rq) as [q1|]; [|contradiction]. destruct S0 as [b0 S0]. destruct S1 as [b1 S1].
      destruct R0 as (r0 & X0 & Y0 & _). destruct R1 as (r1 & X1 & Y1 & _). rewrite Y0, Y1, <- X0, <- X1. eapply tick_ordered; eauto.
  Qed.

  (** the ticks after that *)
  Lemma next_tick y i o y' : Inv m0 y -> step y i o y' -> (forall k, (k < 2)%nat -> slotL k (d_s (y_d y)) = None) -> (forall k, (k < 2)%nat -> slotT k (d_s (y_d y)) = None) ->
    Win y (d_pend (y_d y)) -> arrW y -> Win y' (to_pend o) /\ arrW y'.
  Proof.
    intros II ST SL SS [WL WS WH WO] A1.
    assert (LE : (length (y_hist y1) <= length (y_hist y))%nat). { destruct WH as (l & -> & _). rewrite app_length. lia. }
    destruct (tick_store m0 y i o y' II ST) as [T (F & TF)].
    assert (RT : forall k, (k < 2)%nat -> rawT k o = None /\ metT k (to_pend o) = metT k (d_pend (y_d y)) /\ latT k (to_pend o) = fwdT F (latT k (d_pend (y_d y))) (metT k (d_pend (y_d y)))).
    { intros k Hk. destruct (T k Hk) as [T1 T2]. rewrite (SS k Hk) in T2. rewrite T2 in T1. rewrite (TF k Hk), T1, T2. sp; reflexivity. }
    split; [|eapply arr_next; eauto]. constructor.
    - intros k Hk. specialize (WL k Hk). unfold loadW in *. destruct (tick_load m0 y i o y' k II ST Hk) as (TM & TR & TE). rewrite (SL k Hk) in TR. rewrite TR in *. cbn [pre] in *.
      destruct (reqL k rq) as [q|].
      + destruct WL as (r & L1 & L2 & L3 & L4). eapply (load_fwd y i o y' k q r II ST Hk LE A1); auto; [rewrite TR; exact L1|congruence].
      + rewrite WL in TE. destruct TE as [TE|(p & p' & a & X & _)]; [auto|discriminate].
    - intros k Hk. specialize (WS k Hk). unfold storeW in *. destruct (RT k Hk) as (_ & R2 & R3). destruct (reqT k rq) as [q|].
      + destruct WS as (r & S1 & S2 & S3). rewrite R2, R3, S1, S3. cbn [fwdT]. destruct (_ && _); eexists; sp; eauto.
      + rewrite R3, WS. reflexivity.
    - destruct WH as (l & HE & HL). exists (l ++ new_stores (y_d y) o). split; [rewrite (hist_grow _ _ _ _ ST), HE, app_assoc; reflexivity|]. cbv zeta in *. unfold new_stores.
      destruct (RT 0%nat ltac:(lia)) as (R0 & Q0 & L0). destruct (RT 1%nat ltac:(lia)) as (R1 & Q1 & L1). cbn [rawT metT latT] in *.
      rewrite R0, R1. pose proof (SS 0%nat ltac:(lia)) as S0. pose proof (SS 1%nat ltac:(lia)) as S1. cbn [slotT] in S0, S1. rewrite S0, S1. cbn [raw_done pre app]. rewrite app_nil_r.
      pose proof (WS 0%nat ltac:(lia)) as W0. pose proof (WS 1%nat ltac:(lia)) as W1. unfold storeW in W0, W1. cbn [reqT latT metT] in W0, W1.
      rewrite Q0, Q1, L0, L1. unfold one_line in *. unfold done_by in *.
      clear - HL WO W0 W1. revert HL WO.
      destruct (rq_st0 rq) as [q0|]; [destruct W0 as (r0 & -> & _ & ->)|rewrite W0]; (destruct (rq_st1 rq) as [q1|]; [destruct W1 as (r1 & -> & _ & ->)|rewrite W1]); cbn [fwdT fwd_done ordered].
      + destruct (sp_replay r0) eqn:Y0, (sp_replay r1) eqn:Y1; destruct (F (sq_addr q0 / 64)) eqn:G0; destruct (F (sq_addr q1 / 64)) eqn:G1; cbn [waits andb]; rewrite ?Y0, ?Y1; cbn [fwd_done app sp_replay]; rewrite ?Y0, ?Y1; cbn [app];
          intros HL WO; (destruct HL as [-> | [-> NL]]); cbn [app]; first [left; reflexivity | right; split; [reflexivity|assumption] |
            right; split; [reflexivity|]; intros OL; destruct (WO OL) as [O1 O2]; specialize (O2 eq_refl); discriminate O2].
      + destruct (sp_replay r0) eqn:Y0; destruct (F (sq_addr q0 / 64)) eqn:G0; cbn [waits andb]; rewrite ?Y0; cbn [fwd_done app sp_replay]; rewrite ?Y0; cbn [app];
          intros HL _; destruct HL as [-> | [-> NL]]; left; reflexivity.
      + destruct (sp_replay r1) eqn:Y1; destruct (F (sq_addr q1 / 64)) eqn:G1; cbn [waits andb]; rewrite ?Y1; cbn [fwd_done app sp_replay]; rewrite ?Y1; cbn [app];
          intros HL _; destruct HL as [-> | [-> NL]]; left; reflexivity.
      + intros HL _; destruct HL as [-> | [-> NL]]; left; reflexivity.
    - intros OL. specialize (WO OL). destruct (RT 0%nat ltac:(lia)) as (R0 & Q0 & L0). destruct (RT 1%nat ltac:(lia)) as (R1 & Q1 & L1). cbn [rawT metT latT] in *. rewrite L0, L1.
      pose proof (WS 0%nat ltac:(lia)) as W0. pose proof (WS 1%nat ltac:(lia)) as W1. unfold storeW in W0, W1. cbn [reqT latT metT] in W0, W1. unfold one_line in OL.
      destruct (rq_st0 rq) as [q0|]; [|contradiction]. destruct (rq_st1 rq) as [q1|]; [|contradiction]. destruct W0 as (r0 & W0 & _ & M0). destruct W1 as (r1 & W1 & _ & M1).
      rewrite W0, W1, M0, M1 in *. cbn [fwdT ordered] in *. rewrite <- OL. destruct WO as [O1 O2].
      destruct (F (sq_addr q0 / 64)); rewrite ?andb_true_r, ?andb_false_r; [|split; auto].
      destruct (waits (sp_replay r0)) eqn:X0; [rewrite O2 by auto; cbn; split; discriminate|].
      destruct (waits (sp_replay r1)) eqn:X1; cbn [ordered sp_replay]; split; auto; try discriminate; try congruence.
      intros X. rewrite (O1 X) in X1. discriminate.
  Qed.
End Window.

Lemma fast_reach m0 y n y' : reach m0 y -> fast y n y' -> reach m0 y'.
Proof. intros R F. induction F; auto. eapply reachS; eauto. Qed.
Lemma no_slots m0 y i o y' : Inv m0 y -> step y i o y' -> ti_rq i = no_request -> ti_clear i = false ->
  (forall k, (k < 2)%nat -> slotL k (d_s (y_d y')) = None) /\ (forall k, (k < 2)%nat -> slotT k (d_s (y_d y')) = None) /\ d_pend (y_d y') = to_pend o.
Proof.
  intros II ST RQ CL. destruct (next_slots m0 y i o y' II ST) as (SL & SS & _ & PE). rewrite RQ, CL in *.
  sp; auto; intros k Hk; [specialize (SL k Hk)|specialize (SS k Hk)]; destruct k as [|[|k]]; auto; lia.
Qed.
Lemma window m0 y1 rq n y : reach m0 y1 -> d_pend (y_d y1) = latch0 -> same_flag (d_s (y_d y1)) ->
  (forall k, (k < 2)%nat -> match reqL k rq with Some q => exists b, slotL k (d_s (y_d y1)) = Some (q, b) | None => slotL k (d_s (y_d y1)) = None end) ->
  (forall k, (k < 2)%nat -> match reqT k rq with Some q => exists b, slotT k (d_s (y_d y1)) = Some (q, b) | None => slotT k (d_s (y_d y1)) = None end) ->
  fast y1 (S n) y ->
  Win m0 y1 rq y (d_pend (y_d y)) /\ arrW y1 y /\ (forall k, (k < 2)%nat -> slotL k (d_s (y_d y)) = None) /\ (forall k, (k < 2)%nat -> slotT k (d_s (y_d y)) = None).
Proof.
  intros R PE SF SL SS. revert y. induction n as [|n IH]; intros y F; inversion F as [|n' y' i o y2 F' ST RQ CL]; subst.
  - inversion F'; subst. pose proof (reach_inv _ _ R) as II. destruct (first_tick m0 y' rq y' i o y eq_refl II ST PE SF SL SS) as [W A].
    destruct (no_slots m0 y' i o y II ST RQ CL) as (N1 & N2 & ->). auto.
  - destruct (IH _ F') as (W & A & N1 & N2). pose proof (reach_inv _ _ (fast_reach _ _ _ _ R F')) as II.
    destruct (next_tick m0 y1 rq y' i o y II ST N1 N2 W A) as [W' A']. destruct (no_slots m0 y' i o y II ST RQ CL) as (M1 & M2 & ->). auto.
Qed.
Lemma round m0 y0 i0 o0 y1 n y2 i o y3 : reach m0 y0 -> step y0 i0 o0 y1 -> ti_clear i0 = true -> fast y1 (S n) y2 -> step y2 i o y3 ->
  Win m0 y1 (ti_rq i0) y3 (to_pend o).
Proof.
  intros R ST CL F ST'. pose proof (reach_inv _ _ R) as II. destruct (next_slots m0 y0 i0 o0 y1 II ST) as (SL & SS & SF & PE). rewrite CL in PE.
  assert (R1 : reach m0 y1) by (eapply reachS; eauto).
  destruct (window m0 y1 (ti_rq i0) n y2 R1 PE SF SL SS F) as (W & A & N1 & N2). pose proof (reach_inv _ _ (fast_reach _ _ _ _ R1 F)) as I2.
  eapply (next_tick m0 y1 (ti_rq i0) y2); eauto.
Qed.
