(** C42: delayed and fast wakeups match the results. *)
From Verif Require Import Base BaseLemmas ExuModel ExuSpec ExuProofs ExuProps WakeModel WakeSpec WakeProofs.
Local Open Scope nat_scope.

Section PORT.
Variables (fs0 : list fu) (ts0 : list trk).
Hypothesis R0 : at_reset fs0.
Hypothesis W0 : well_formed fs0.
Hypothesis F0 : Forall2 fits fs0 ts0.

(** A tracker fires exactly in the cycle before its unit's result is due. *)
Lemma fires_exact now fs ts h k f l t p : jreach fs0 ts0 now fs ts h ->
  nth_error fs k = Some f -> nth_error (live h) k = Some l -> nth_error ts k = Some t ->
  fires t = Some p <-> announces f l now p.
Proof.
  intros R F1 F2 F3. pose proof (jreach_inv _ _ _ _ _ _ R0 W0 F0 R) as J. destruct (j_agree _ _ _ _ J k f l t F1 F2 F3) as [_ P].
  rewrite fires_pend. unfold announces. split.
  - intros (e & I & <-). apply P in I. destruct I as (x & X & Ex & Dx). exists x. split; [exact X|]. unfold ent in Ex.
    destruct (dest (x_u x)) as [p|]; [|discriminate]. cbn in Ex. injection Ex as <-. split; [reflexivity|lia].
  - intros (x & X & Dx & Tx). exists (Went p (x_mask x)). split; [|reflexivity]. apply P. exists x. split; [exact X|]. unfold ent. rewrite Dx. split; [reflexivity|lia].
Qed.
Lemma delayed_in ts p : delayed ts = Some p -> exists k t, nth_error ts k = Some t /\ fires t = Some p.
Proof.
  unfold delayed. assert (H : forall acc, fold_left (fun acc t => match fires t with Some p => Some p | None => acc end) ts acc = Some p ->
    acc = Some p \/ exists k t, nth_error ts k = Some t /\ fires t = Some p).
  { induction ts as [|t ts IH]; intros acc H; [now left|]. cbn in H. apply IH in H. destruct H as [H|(k & t' & N & Fi)].
    - destruct (fires t) as [q|] eqn:Fi; [|now left]. right. exists 0, t. split; [reflexivity|congruence].
    - right. exists (S k), t'. auto. }
  intros D. destruct (H None D) as [X|X]; [discriminate|exact X].
Qed.
Lemma delayed_last ts k t p : nth_error ts k = Some t -> fires t = Some p ->
  (forall j t', k < j -> nth_error ts j = Some t' -> fires t' = None) -> delayed ts = Some p.
Proof.
  intros N F H. unfold delayed. generalize (@None nat) as acc. revert k N F H. induction ts as [|a ts IH]; intros k N F H acc; [destruct k; discriminate|]. cbn.
  destruct k as [|k].
  - cbn in N. injection N as ->. rewrite F. assert (Q : forall a, In a ts -> fires a = None).
    { intros b B. apply In_nth_error in B. destruct B as (j & B). apply (H (S j)); [lia|exact B]. }
    clear -Q. induction ts as [|b ts IH]; [reflexivity|]. cbn. rewrite (Q b (or_introl eq_refl)). apply IH. intros c C. apply Q. now right.
  - apply (IH k); auto. intros j t' J T. apply (H (S j)); [lia|exact T].
Qed.

(** C42, soundness: a delayed wakeup announces an operation in flight whose
    result will be on the bypass network in the next cycle. *)
Theorem c42_wake_sound now fs ts h p : jreach fs0 ts0 now fs ts h -> delayed ts = Some p ->
  exists k f l, nth_error fs k = Some f /\ nth_error (live h) k = Some l /\ announces f l now p.
Proof.
  intros R D. pose proof (jreach_inv _ _ _ _ _ _ R0 W0 F0 R) as J. apply delayed_in in D. destruct D as (k & t & T & Fi).
  assert (K : k < length ts) by (apply nth_error_Some; congruence). rewrite (j_len _ _ _ _ J) in K.
  destruct (nth_error fs k) as [f|] eqn:F1; [|apply nth_error_None in F1; lia].
  destruct (nth_error (live h) k) as [l|] eqn:F2; [|apply nth_error_None in F2; rewrite (v_len _ _ _ (j_inv _ _ _ _ J)) in F2; lia].
  exists k, f, l. split; [exact F1|]. split; [exact F2|]. eapply fires_exact; eauto.
Qed.

(** C42, completeness: the announcement of a multi-cycle operation is made,
    exactly in the cycle before its result, unless a unit listed later on the
    same port has an announcement in the same cycle. *)
Theorem c42_wake_complete_partial now fs ts h k f l p : jreach fs0 ts0 now fs ts h ->
  nth_error fs k = Some f -> nth_error (live h) k = Some l -> announces f l now p ->
  (forall j f' l' p', k < j -> nth_error fs j = Some f' -> nth_error (live h) j = Some l' -> ~ announces f' l' now p') ->
  delayed ts = Some p.
Proof.
  intros R F1 F2 A No. pose proof (jreach_inv _ _ _ _ _ _ R0 W0 F0 R) as J.
  destruct (nth_error ts k) as [t|] eqn:T.
  2:{ apply nth_error_None in T. rewrite (j_len _ _ _ _ J) in T. apply nth_error_None in T. congruence. }
  apply (delayed_last ts k t); [exact T|eapply fires_exact; eauto|]. intros j t' Kj T'.
  destruct (fires t') as [p'|] eqn:Fi; [|reflexivity]. exfalso.
  assert (K : j < length ts) by (apply nth_error_Some; congruence). rewrite (j_len _ _ _ _ J) in K.
  destruct (nth_error fs j) as [f'|] eqn:G1; [|apply nth_error_None in G1; lia].
  destruct (nth_error (live h) j) as [l'|] eqn:G2; [|apply nth_error_None in G2; rewrite (v_len _ _ _ (j_inv _ _ _ _ J)) in G2; lia].
  apply (No j f' l' p' Kj G1 G2). eapply fires_exact; eauto.
Qed.

(** C42: single-cycle operations are announced as they issue, multi-cycle ones
    are not; the former's result is due in the next cycle. *)
Theorem c42_fast_exact now fs ts h c u k f : jreach fs0 ts0 now fs ts h -> c_now c = now -> env_ok c (Some u) fs h ->
  nth_error fs k = Some f -> f_ops f (e_op u) = true ->
  (f_kind f = KSingle -> fast (Some u) = dest u /\ due_at (f_kind f) (Item u now []) = now + 1) /\
  (f_kind f <> KSingle -> fast (Some u) = None).
Proof.
  intros R Hc E F1 O. pose proof (jreach_inv _ _ _ _ _ _ R0 W0 F0 R) as J.
  destruct (nth_error (live h) k) as [l|] eqn:F2; [|apply nth_error_None in F2; rewrite (v_len _ _ _ (j_inv _ _ _ _ J)) in F2; apply nth_error_None in F2; congruence].
  destruct (nth_error ts k) as [t|] eqn:T; [|apply nth_error_None in T; rewrite (j_len _ _ _ _ J) in T; apply nth_error_None in T; congruence].
  destruct (j_agree _ _ _ _ J k f l t F1 F2 T) as [[So Sk] _]. rewrite So in O. apply Nat.eqb_eq in O. unfold fast. rewrite O. split; intros K.
  - rewrite K in Sk |- *. destruct (k_st t); try contradiction. specialize (Sk (e_fn u)). apply Nat.leb_le in Sk. rewrite Sk. auto.
  - destruct (f_kind f) as [|L|lat]; [congruence| |]; destruct (k_st t); try contradiction.
    + destruct Sk as (A & _ & B). rewrite B. destruct (Nat.leb_spec L 1); [lia|reflexivity].
    + destruct (Sk (e_fn u)) as [A B]. rewrite A. destruct (Nat.leb_spec (lat (e_fn u)) 1); [lia|reflexivity].
Qed.

(** C42, end to end: a consumer woken in cycle [now] reads its operands in
    cycle [now + 1] at the earliest; then the announced result is on the
    bypass network, unless the operation was squashed meanwhile. *)
Theorem c42_wake_then_bypass now fs ts h p c c' iss : jreach fs0 ts0 now fs ts h -> delayed ts = Some p ->
  c_now c = now -> env_ok c iss fs h -> no_zombie c fs h ->
  c_flush c = false -> c_mispred c = false ->
  c_now c' = S now -> (0 <= c_brmask c')%Z -> c_flush c' = false -> c_mispred c' = false ->
  exists u, In (Some u) (bypass c' (port_step c iss fs)) /\ dest u = Some p.
Proof.
  intros R D Hc E Z Fl Mp Hc' B' Fl' Mp'. pose proof (jreach_inv _ _ _ _ _ _ R0 W0 F0 R) as J.
  destruct (c42_wake_sound _ _ _ _ _ R D) as (k & f & l & F1 & F2 & x & X & Dx & Tx).
  pose proof (jreach_step _ _ _ _ _ _ c iss R Hc E Z) as R'. apply jreach_reach in R'.
  assert (S1 : forall q, squash c q = false) by (intros q; unfold squash; now rewrite Fl, Mp).
  assert (S2 : forall q, squash c' q = false) by (intros q; unfold squash; now rewrite Fl', Mp').
  assert (Xs : In (resolve (c_clear c) x) (survive c l)) by (apply in_survive; exists x; auto).
  assert (Nw : not_id (option_map e_id (winner c fs)) (resolve (c_clear c) x) = true).
  { eapply winner_due with (now := now) (ts := ts) (h := h) (iss := iss); eauto. rewrite due_resolve. lia. }
  pose proof (reach_inv _ _ _ _ R0 W0 R') as V'.
  assert (L' : nth_error (live (h_step c iss (option_map e_id (winner c fs)) fs h)) k = Some (enter c iss f (filter (not_id (option_map e_id (winner c fs))) (survive c l)))).
  { cbn [h_step live]. now rewrite nth_error_map, (nth_error_combine fs (live h) k f l F1 F2). }
  destruct (nth_error (port_step c iss fs) k) as [f'|] eqn:F1'.
  2:{ apply nth_error_None in F1'. rewrite <- (v_len _ _ _ V') in F1'. apply nth_error_None in F1'. congruence. }
  destruct (port_kind fs c iss k f' F1') as (f2 & G1 & G2 & G3). assert (f2 = f) by congruence. subst f2.
  assert (Xe : In (resolve (c_clear c) x) (enter c iss f (filter (not_id (option_map e_id (winner c fs))) (survive c l)))).
  { assert (In (resolve (c_clear c) x) (filter (not_id (option_map e_id (winner c fs))) (survive c l))) by (apply filter_In; auto).
    destruct iss as [v|]; cbn [enter]; [destruct (f_ops f (e_op v)); [apply in_or_app; now left|]|]; assumption. }
  exists (now_inst (resolve (c_clear c') (resolve (c_clear c) x))). split; [|exact Dx].
  apply nth_error_In with (n := k).
  assert (Z' : no_zombie c' (port_step c iss fs) (h_step c iss (option_map e_id (winner c fs)) fs h)) by (intros Q; congruence).
  apply (proj2 (c44_bypass_exact fs0 (S now) (port_step c iss fs) _ c' k f' _ _ R0 W0 R' Hc' B' Z' F1' L')).
  exists (resolve (c_clear c') (resolve (c_clear c) x)). split; [|split; [|reflexivity]].
  - apply in_survive. eexists. split; [exact Xe|]. auto.
  - rewrite !due_resolve, G2. lia.
Qed.
End PORT.

(** Both configured ports fit: the issue stage's latency table is the units'. *)
Lemma fp_lat_same fn : isu_lat 4 fn = fp_latency fn /\ 2 <= fp_latency fn.
Proof.
  unfold isu_lat, fp_latency. destruct (Z.eqb_spec (Z.shiftr fn 2) 0) as [E0|E0]; [rewrite E0; cbn; split; lia|].
  destruct (Z.eqb_spec (Z.shiftr fn 2) 1) as [E1|E1]; [rewrite E1; cbn; split; lia|].
  destruct (Z.eqb_spec (Z.shiftr fn 2) 2) as [E2|E2]; [cbn; split; lia|].
  destruct (Z.eqb_spec (Z.shiftr fn 2) 3) as [E3|E3]; [cbn; split; lia|]. cbn [orb].
  destruct (Z.eqb_spec fn 0x2C) as [->|]; [cbn; split; lia|].
  destruct ((fn =? 0x60) || (fn =? 0x68))%Z; split; lia.
Qed.
Theorem c42_port0_latencies_agree : Forall2 fits port0 wake0.
Proof. repeat constructor; auto; intros; apply Nat.eqb_sym. Qed.
Theorem c42_port1_latencies_agree : Forall2 fits port1 wake1.
Proof. repeat constructor; auto; intros; try apply Nat.eqb_sym; cbn [f_kind fu_init]; try apply fp_lat_same. Qed.

Definition jgo (s : list fu * list trk * hist) (ci : ctl * option einst) : list fu * list trk * hist :=
  let '(fs, ts, h) := s in let (c, i) := ci in
  (port_step c i fs, map (trk_next c i) ts, h_step c i (option_map e_id (winner c fs)) fs h).
Lemma jruns fs0 ts0 l : forall now s, jreach fs0 ts0 now (fst (fst s)) (snd (fst s)) (snd s) ->
  env_all now (fst (fst s)) (snd s) l = true -> forallb (fun ci => negb (c_flush (fst ci))) l = true ->
  let s' := fold_left jgo l s in jreach fs0 ts0 (length l + now) (fst (fst s')) (snd (fst s')) (snd s').
Proof.
  induction l as [|[c i] l IH]; intros now [[fs ts] h] R H Q; [exact R|]. cbn [env_all length forallb fst snd fold_left] in *. rewrite !andb_true_iff in H. destruct H as [[H1 H2] H3].
  apply andb_true_iff in Q. destruct Q as [Q1 Q2]. apply negb_true_iff in Q1.
  replace (S (length l) + now) with (length l + S now) by lia. apply IH; [|exact H3|exact Q2]. cbn [jgo fst snd].
  apply jreach_step; [exact R|now apply Nat.eqb_eq|now apply env_b_ok|]. intros X. congruence.
Qed.
Definition opd (id o : nat) (m fn p : Z) : einst := Einst id o m fn p.

(** A multiplication issued in cycle 1 is announced in cycle 2 and on the
    bypass network in cycle 3. *)
Example c42_example : let s := fold_left jgo [(ctl0 1, Some (opd 7 1 0 0 40))] (port0, wake0, h0 port0) in
  jreach port0 wake0 2 (fst (fst s)) (snd (fst s)) (snd s) /\ delayed (snd (fst s)) = Some 40 /\
  map (option_map e_id) (bypass (ctl0 3) (port_step (ctl0 2) None (fst (fst s)))) = [Some 7; None; None] /\
  map (option_map e_id) (bypass (ctl0 2) (fst (fst s))) = [None; None; None].
Proof.
  split; [|vm_compute; auto].
  apply (jruns port0 wake0 [(ctl0 1, Some (opd 7 1 0 0 40))] 1 (port0, wake0, h0 port0)); [constructor|reflexivity|reflexivity].
Qed.

(** On the multiplier port every announcement is made. *)
Theorem c42_mul_never_lost now fs ts h f l p : jreach port0 wake0 now fs ts h ->
  nth_error fs 0 = Some f -> nth_error (live h) 0 = Some l -> announces f l now p -> delayed ts = Some p.
Proof.
  intros R F1 F2 A. destruct port0_ok as [W0 R0].
  apply (c42_wake_complete_partial port0 wake0 R0 W0 c42_port0_latencies_agree now fs ts h 0 f l p R F1 F2 A).
  intros j f' l' p' Kj G1 G2 (x & X & Dx & Tx).
  pose proof (jreach_inv _ _ _ _ _ _ R0 W0 c42_port0_latencies_agree R) as J. pose proof (v_units _ _ _ (j_inv _ _ _ _ J) j f' l' G1 G2) as I.
  assert (K : f_kind f' = KSingle).
  { assert (Kd : map f_kind fs = map f_kind port0).
    { clear -R. induction R as [|now fs ts h c iss R IH Hc E Z]; [reflexivity|]. rewrite <- IH. apply list_nth_ext. intros k. rewrite !nth_error_map.
      destruct (nth_error (port_step c iss fs) k) as [g|] eqn:G.
      - destruct (port_kind fs c iss k g G) as (f0 & A & B & _). rewrite A. cbn. now rewrite B.
      - destruct (nth_error fs k) eqn:G'; [|reflexivity]. exfalso. apply nth_error_None in G.
        assert (Lp : length (port_step c iss fs) = length fs).
        { destruct port0_ok as [W0 R0]. pose proof (reach_inv _ _ _ _ R0 W0 (jreach_reach _ _ _ _ _ _ R)) as V.
          pose proof (step_inv now fs h c iss V Hc (env_mask _ _ _ _ E) Z E) as V'. rewrite <- (v_len _ _ _ V').
          cbn [h_step live]. rewrite map_length, combine_length, (v_len _ _ _ V). lia. }
        rewrite Lp in G. apply nth_error_None in G. congruence. }
    apply (f_equal (fun q => nth_error q j)) in Kd. rewrite !nth_error_map, G1 in Kd. cbn [option_map] in Kd.
    destruct j as [|[|[|j]]]; [lia| | |destruct j; discriminate]; cbn in Kd; congruence. }
  unfold inv1 in I. rewrite K in I, Tx. destruct (f_unit f'); try contradiction.
  destruct I as [(_ & ->)|(y & _ & -> & Ty)]; [destruct X|]. destruct X as [<-|[]]. cbn in Tx. lia.
Qed.

(** C42 refuted: a floating-point addition issued thirteen cycles after a
    division on the same port; both are announced in cycle 19, the division's
    announcement is overwritten and never repeated. *)
Definition lst42 : list (ctl * option einst) :=
  [(ctl0 1, Some (opd 5 2 0 0 40))] ++ idle 2 12 ++ [(ctl0 14, Some (opd 6 4 0 0 41))] ++ idle 15 4.
Definition s42 := fold_left jgo lst42 (port1, wake1, h0 port1).
Lemma s42_reach : jreach port1 wake1 19 (fst (fst s42)) (snd (fst s42)) (snd s42).
Proof. apply (jruns port1 wake1 lst42 1 (port1, wake1, h0 port1)); [constructor|vm_compute; reflexivity|reflexivity]. Qed.
Lemma s42_trk : snd (fst s42) = [Trk 2 (TIter (Some (0, Went 40 0))); Trk 0 TNone; Trk 4 (TIter (Some (0, Went 41 0)))].
Proof. vm_compute. reflexivity. Qed.
Lemma s42_ann : exists f l, nth_error (fst (fst s42)) 0 = Some f /\ nth_error (live (snd s42)) 0 = Some l /\ announces f l 19 40.
Proof.
  exists (nth 0 (fst (fst s42)) (fu_init KSingle (Nat.eqb 0))), (nth 0 (live (snd s42)) []).
  split; [vm_compute; reflexivity|]. split; [vm_compute; reflexivity|].
  exists (nth 0 (nth 0 (live (snd s42)) []) (Item (opd 0 0 0 0 0) 0 [])). vm_compute. auto.
Qed.
Lemma quiet_wake m : forall k fs h, snd (fst (fold_left jgo (idle k m) (fs, wake1, h))) = wake1.
Proof. induction m as [|m IH]; intros k fs h; [reflexivity|]. cbn [idle seq map fold_left jgo]. apply IH. Qed.
Lemma idle_S k m : idle k (S m) = (ctl0 k, None) :: idle (S k) m. Proof. reflexivity. Qed.
Theorem c42_wake_complete_refuted : exists now fs ts h f l p,
  jreach port1 wake1 now fs ts h /\ nth_error fs 0 = Some f /\ nth_error (live h) 0 = Some l /\ announces f l now p /\
  forall m, let s := fold_left jgo (idle now m) (fs, ts, h) in delayed (snd (fst s)) <> Some p.
Proof.
  destruct s42_ann as (f & l & A & B & C). pose proof s42_reach as R. pose proof s42_trk as T.
  destruct s42 as [[fs ts] h]. cbn [fst snd] in *. exists 19, fs, ts, h, f, l, 40.
  split; [exact R|]. split; [exact A|]. split; [exact B|]. split; [exact C|]. cbv zeta. subst ts. clear.
  intros [|m]; [cbn; discriminate|]. rewrite idle_S. cbn [fold_left jgo].
  change (map (trk_next (ctl0 19) None) _) with wake1. rewrite quiet_wake. cbn. discriminate.
Qed.

Print Assumptions c42_wake_sound.
Print Assumptions c42_wake_complete_partial.
Print Assumptions c42_fast_exact.
Print Assumptions c42_wake_then_bypass.
Print Assumptions c42_mul_never_lost.
Print Assumptions c42_wake_complete_refuted.
Print Assumptions c42_port0_latencies_agree.
Print Assumptions c42_port1_latencies_agree.
