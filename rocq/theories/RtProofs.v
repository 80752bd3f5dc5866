(** The routing block over two consecutive CPU cycles. *)
From Verif Require Import Base BaseLemmas MemSpec MemModel MemProofs DcModel DcSpec DcLemmas DcInv DcStage DcMiss DcFill DcTick DcReach DcLoad DcRound RtModel RtSpec RtDc.
Ltac Zify.zify_post_hook ::= Z.div_mod_to_equations.
#[local] Opaque Z.pow Z.land Z.lor Z.shiftl Z.shiftr.

Lemma p31 : 2 ^ 31 = 2147483648. Proof. reflexivity. Qed.
Lemma route_hi x : 2 ^ 31 <= x < 2 ^ 32 -> is_route x = true.
Proof. intros H. unfold is_route. apply Z.testbit_true; [lia|]. rewrite p31, p32 in *. lia. Qed.
Lemma route_lo x : 0 <= x < 2 ^ 31 -> is_route x = false.
Proof. intros H. unfold is_route. apply Z.testbit_false; [lia|]. rewrite p31 in *. lia. Qed.
Definition nextok (s : rst) : Prop := 2 ^ 31 <= t_next s < 2 ^ 32.
Lemma next_hi x : 2 ^ 31 <= x < 2 ^ 32 -> 2 ^ 31 <= next_route_req_id x < 2 ^ 32.
Proof.
  intros H. unfold next_route_req_id, ROUTE_ID. cbv zeta. unfold w32. rewrite p31, p32 in *.
  destruct (is_route ((x + 1) mod 4294967296)) eqn:E; [|lia].
  assert (x + 1 < 4294967296 \/ x + 1 = 4294967296) as [L|L] by lia; [lia|]. rewrite L in E. vm_compute in E. discriminate.
Qed.

Lemma mreach_reach m0 x : mreach m0 x -> reach m0 (m_y x) /\ nextok (m_rt x).
Proof.
  intros R. induction R as [|x i r g x' R [IH1 IH2] C]; [split; [exact (reach0 m0)|unfold nextok; cbn [m_rt msys0 rst0 t_next]; unfold ROUTE_ID; rewrite p31, p32; lia]|].
  destruct C as [ti o y1 n y2 ro wait rq g rt LO ST CL RS RQ E F]. cbn [m_y m_rt]. split.
  - eapply fast_reach; [|exact F]. eapply reachS; eauto.
  - unfold comb_request in RQ. destruct (choose i _) as [w a]. destruct (owner_eqb w ONone); injection RQ as <- <- <-; unfold nextok in *; cbn [t_next]; auto. now apply next_hi.
Qed.

(** fast ticks keep what is waited for *)
Lemma fast_any m0 y n y' : reach m0 y -> la_fill (d_pend (y_d y)) <> None \/ anyv (d_ms (y_d y)) -> fast y n y' -> la_fill (d_pend (y_d y')) <> None \/ anyv (d_ms (y_d y')).
Proof.
  intros R A F. induction F as [|n y1 i o y2 F IH ST RQ CL]; auto.
  pose proof (reach_inv _ _ (fast_reach _ _ _ _ R F)) as II. destruct (no_slots m0 y1 i o y2 II ST RQ CL) as (_ & _ & PE). destruct (tick_wait m0 y1 i o y2 II ST) as (_ & T & _).
  rewrite PE. destruct (la_fill (to_pend o)) eqn:E; [left; discriminate|right]. destruct (T eq_refl) as [T1 T2]. destruct IH as [IH|(e & L & V)]; auto; [congruence|]. exists e. auto.
Qed.
(** a load on port 1 told to wait, up to the publication *)
Lemma wait_window m0 y1 rq n y : reach m0 y1 -> d_pend (y_d y1) = latch0 -> s_icache (d_s (y_d y1)) = rq_icache rq -> fast y1 (S n) y ->
  (forall r, la_ld1 (d_pend (y_d y)) = Some r -> waits (lp_replay r) = true -> rq_icache rq <> 1%nat /\ (la_fill (d_pend (y_d y)) = None -> anyv (d_ms (y_d y)))) /\
  slotL 1 (d_s (y_d y)) = None.
Proof.
  intros R PE IC. revert y. induction n as [|n IH]; intros y F; inversion F as [|n' y' i o y2 F' ST RQ CL]; subst.
  - inversion F'; subst. pose proof (reach_inv _ _ R) as II. destruct (no_slots m0 y' i o y II ST RQ CL) as (N1 & N2 & PP). destruct (tick_wait m0 y' i o y II ST) as (_ & T1 & T2 & T3).
    rewrite PP. split; [|apply N1; lia]. intros r H W. destruct (T3 r H W) as [X|[_ X]]; [|rewrite PE in X; discriminate]. rewrite <- IC. apply (T2 r X W).
  - destruct (IH _ F') as [J NS]. pose proof (reach_inv _ _ (fast_reach _ _ _ _ R F')) as II. destruct (no_slots m0 y' i o y II ST RQ CL) as (N1 & N2 & PP).
    destruct (tick_wait m0 y' i o y II ST) as (_ & T1 & T2 & T3). rewrite PP. split; [|apply N1; lia]. intros r H W.
    destruct (tick_load m0 y' i o y 1 II ST ltac:(lia)) as (_ & RL & _). rewrite NS in RL. cbn [rawL] in RL.
    destruct (T3 r H W) as [X|[_ X]]; [congruence|]. destruct (J r X W) as [J1 J2]. split; auto. intros N. destruct (T1 N) as [T4 T5]. destruct (J2 T4) as (e & L & V). exists e. auto.
Qed.

(** ** Two cycles: what is published for what was presented *)
Record pub (m0 : Z -> Z) (x0 : msys) (rq : request) (p : latch) (x1 x2 : msys) : Prop := mkpub {
  pb_l : forall k, (k < 2)%nat -> match ldL k rq with None => latL k p = None | Some q => exists a, latL k p = Some a /\ lp_id a = lq_id q /\
           (lp_replay a = HIT -> word_since m0 x0 x2 (lq_addr q) (lp_data a)) end;
  pb_w : forall r, la_ld1 p = Some r -> waits (lp_replay r) = true -> rq_icache rq <> 1%nat /\ (la_fill p = None -> la_fill (d_pend (y_d (m_y x2))) <> None \/ anyv (d_ms (y_d (m_y x2))));
  pb_k : la_fill p = None -> (la_fill (d_pend (y_d (m_y x1))) <> None \/ anyv (d_ms (y_d (m_y x1)))) ->
         la_fill (d_pend (y_d (m_y x2))) <> None \/ anyv (d_ms (y_d (m_y x2))) }.
Lemma pub_keep m0 y i o y1 n y2 p : reach m0 y -> step y i o y1 -> to_pend o = p -> fast y1 (S n) y2 ->
  la_fill p = None -> (la_fill (d_pend (y_d y)) <> None \/ anyv (d_ms (y_d y))) -> la_fill (d_pend (y_d y2)) <> None \/ anyv (d_ms (y_d y2)).
Proof.
  intros R ST E F N A. destruct (tick_wait m0 y i o y1 (reach_inv _ _ R) ST) as (_ & T & _). rewrite E in T. destruct (T N) as [T1 T2].
  eapply (fast_any m0 y1); [eapply reachS; eauto| |exact F]. right. destruct A as [A|(e & L & V)]; [congruence|]. exists e. auto.
Qed.
Lemma hist_mono y i o y' : step y i o y' -> exists l, y_hist y' = y_hist y ++ l.
Proof. intros ST. destruct ST. eexists. reflexivity. Qed.
Lemma fast_hist y n y' : fast y n y' -> exists l, y_hist y' = y_hist y ++ l.
Proof. intros F. induction F as [|n y1 i o y2 F [l IH] ST]; [exists []; now rewrite app_nil_r|]. destruct (hist_mono _ _ _ _ ST) as [l' E]. exists (l ++ l'). rewrite E, IH. now rewrite app_assoc. Qed.

Lemma two_cycles m0 x0 i0 r0 g0 x1 i1 r1 g1 x2 : mreach m0 x0 -> mcycle x0 i0 r0 g0 x1 -> mcycle x1 i1 r1 g1 x2 ->
  exists w0 rq p wait, comb_request i0 w0 (m_rt x0) = (rq, g0, m_rt x1) /\ comb_response p (m_rt x1) = (r1, wait) /\ t_wait (m_rt x2) = wait /\
    pub m0 x0 rq p x1 x2.
Proof.
  intros R C0 C1. destruct (mreach_reach _ _ R) as [RR _]. pose proof (reach_inv _ _ RR) as I0.
  destruct C0 as [ti o ya n yb ro wait0 rq g rt LO ST CL RS RQ E F]. destruct C1 as [ti1 o1 yc n1 yd ro1 wait1 rq1 g1' rt1 LO1 ST1 CL1 RS1 RQ1 E1 F1].
  cbn [m_y m_rt] in *. exists wait0, rq, (to_pend o1), wait1. sp; auto.
  - unfold comb_request in RQ1. destruct (choose i1 _) as [w a]. destruct (owner_eqb w ONone); injection RQ1 as <- <- <-; reflexivity.
  - assert (Ra : reach m0 ya) by (eapply reachS; eauto). assert (Rb : reach m0 yb) by (eapply fast_reach; eauto). pose proof (reach_inv _ _ Rb) as Ib.
    pose proof (round m0 _ _ _ _ _ _ _ _ _ RR ST CL F ST1) as W. destruct (next_slots m0 _ _ _ _ I0 ST) as (_ & _ & _ & PE). rewrite CL in PE.
    destruct (tick_wait m0 _ _ _ _ I0 ST) as (IC & _). rewrite E in IC. destruct (wait_window m0 ya rq n yb Ra PE IC F) as [WW NS].
    constructor; cbn [m_y m_rt].
    + intros k Hk. pose proof (wi_l _ _ _ _ _ W k Hk) as L. unfold loadW in L. rewrite E in L. change (reqL k rq) with (ldL k rq) in L.
      destruct (ldL k rq) as [q|]; [|exact L]. destruct L as (a & L1 & L2 & _ & L4). exists a. sp; auto. intros H. destruct (L4 H) as (j & J1 & J2 & J3).
      destruct (fast_hist _ _ _ F1) as [l2 H2]. destruct (hist_mono _ _ _ _ ST) as [l0 H0].
      exists j. cbn [m_y]. rewrite H2, app_length. rewrite firstn_app. replace (j - length (y_hist yc))%nat with 0%nat by lia. rewrite firstn_O, app_nil_r. sp; auto; [lia|].
      destruct J3 as [J3|J3]; [left; rewrite H0, app_length in J3; lia|right]. destruct (tick_held m0 _ _ _ _ _ I0 ST J3) as (e & P1 & P2 & P3). exists e. sp; auto. rewrite P3. lia.
    + intros r H WT. destruct (tick_load m0 yb ti1 o1 yc 1 Ib ST1 ltac:(lia)) as (_ & RL & _). rewrite NS in RL. cbn [rawL] in RL.
      destruct (tick_wait m0 _ _ _ _ Ib ST1) as (_ & T1 & _ & T3). destruct (T3 r H WT) as [X|[_ X]]; [congruence|]. destruct (WW r X WT) as [W1 W2]. split; auto.
      intros N. eapply (pub_keep m0 yb ti1 o1 yc); eauto. right. apply W2. destruct (T1 N); auto.
    + intros N A. eapply (pub_keep m0 yb ti1 o1 yc); eauto.
Qed.

Lemma choose_winner i o : o = o -> choose i o = match winner o (requests i) with Some p => p | None => (ONone, 0) end.
Proof.
  intros _. unfold choose, winner, requests. destruct (rr_ic i), (rr_walk i), (rr_dtlb i), (rr_itlb i), o; reflexivity.
Qed.
Lemma winner_not_none o l w a : winner o l = Some (w, a) -> Forall (fun p => fst p <> ONone) l -> w <> ONone /\ w <> o /\ In (w, Some a) l.
Proof.
  induction l as [|[o' [b|]] l IH]; cbn [winner]; [discriminate| |].
  - intros H F. inversion F; subst. destruct (owner_eqb o' o) eqn:E.
    + destruct (IH H) as (A & B & C); auto. sp; auto. now right.
    + injection H as <- <-. sp; auto; [|now left]. intros X. rewrite X in E. destruct o; discriminate E.
  - intros H F. inversion F; subst. destruct (IH H) as (A & B & C); auto. sp; auto. now right.
Qed.
Lemma requests_owners i : Forall (fun p => fst p <> ONone) (requests i).
Proof. unfold requests. repeat constructor; discriminate. Qed.
Lemma winner_none o l : winner o l = None -> forall w a, In (w, Some a) l -> w = o.
Proof.
  induction l as [|[o' [b|]] l IH]; cbn [winner]; [contradiction| |].
  - destruct (owner_eqb o' o) eqn:E; [|discriminate]. intros H w a [X|X]; [injection X as <- <-; destruct o', o; try discriminate; reflexivity|eauto].
  - intros H w a [X|X]; [discriminate|eauto].
Qed.

(** the request side *)
Lemma request_open i w s rq g s' : comb_request i w s = (rq, g, s') ->
  rq_ld0 rq = rq_ld0 (rr_lsu i) /\ rq_st0 rq = rq_st0 (rr_lsu i) /\ rq_st1 rq = rq_st1 (rr_lsu i) /\ t_wait s' = w /\
  match winner (t_owner s) (requests i) with
  | None => rq_ld1 rq = rq_ld1 (rr_lsu i) /\ rq_icache rq = 2%nat /\ g = None /\ t_owner s' = ONone
  | Some (o, a) => o <> ONone /\ rq_ld1 rq = Some (mklr a (t_next s)) /\ rq_icache rq = (if owner_eqb o OIcache then 1 else 2)%nat /\
      g = (if owner_eqb o OIcache then None else Some (o, t_next s)) /\ t_owner s' = o /\ t_addr s' = a /\ t_id s' = t_next s /\
      t_rep s' = match rq_ld1 (rr_lsu i) with Some l => Some (lq_id l) | None => None end
  end.
Proof.
  unfold comb_request. rewrite choose_winner by reflexivity. destruct (winner (t_owner s) (requests i)) as [[o a]|] eqn:W.
  - destruct (winner_not_none _ _ _ _ W (requests_owners i)) as (N & _). assert (owner_eqb o ONone = false) as -> by (destruct o; try reflexivity; congruence).
    intros H. injection H as <- <- <-. cbn. sp; auto.
  - cbn. intros H. injection H as <- <- <-. cbn. sp; auto.
Qed.
