(** C29: page-table walks.  Proved for the shared walker with the routing block and
    the data cache behind it, and for the private walker of a TLB. *)
From Verif Require Import Base BaseLemmas MemSpec MemModel DcModel DcSpec DcLemmas DcRound RtModel RtSpec RtProofs RtTrace RtProps PtwModel Sv32Spec PtwSpec PtwProofs.
Ltac Zify.zify_post_hook ::= Z.div_mod_to_equations.
#[local] Opaque Z.pow Z.land Z.lor Z.shiftl Z.shiftr.

(** The answer shown to a client is the Sv32 walk for its newest request, each entry
    being a word the program saw at that address since the request (C49 limits what
    "since" means for a line being fetched). *)
Theorem c29_walk_exact m0 tr x c r : vreach m0 tr x -> c_resp (pw_c (v_p x) c) = Some r ->
  exists q o, last_req c tr = Some q /\ walks (entry_read m0 tr x c) (q_satp q) (q_va q) o /\ r = resp_of q o.
Proof.
  intros R H. destruct (vreach_VI _ _ _ R) as [I _]. destruct (pi_resp _ _ _ _ I c r eq_refl H) as (o & W & E).
  exists (c_req (pw_c (v_p x) c)), o. split; auto. apply (pi_req _ _ _ _ I); auto. right. right. congruence.
Qed.

(** Tables that are not changed: the answer is the walk of them. *)
Lemma word_eq m a d d' : is_word m a d -> is_word m a d' -> w32 d = w32 d'.
Proof.
  intros A B. assert (E : forall k, 0 <= k < 4 -> (d / 256 ^ k) mod 256 = (d' / 256 ^ k) mod 256) by (intros k K; rewrite A, B; auto).
  pose proof (E 0 ltac:(lia)) as E0. pose proof (E 1 ltac:(lia)) as E1. pose proof (E 2 ltac:(lia)) as E2. pose proof (E 3 ltac:(lia)) as E3.
  change (256 ^ 0) with 1 in *. change (256 ^ 1) with 256 in *. change (256 ^ 2) with 65536 in *. change (256 ^ 3) with 16777216 in *.
  unfold w32. change (2 ^ 32) with 4294967296. clear - E0 E1 E2 E3. lia.
Qed.
Lemma w32_bit p n : 0 <= n < 32 -> Z.testbit (w32 p) n = Z.testbit p n.
Proof. intros. unfold w32. apply Z.mod_pow2_bits_low. lia. Qed.
Lemma ppn_w32 p : ppn (w32 p) = ppn p.
Proof.
  unfold ppn, w32. change (2 ^ 32) with (2 ^ 10 * 2 ^ 22). rewrite Z.rem_mul_r by (change (2 ^ 10) with 1024; change (2 ^ 22) with 4194304; lia).
  change (2 ^ 10) with 1024. change (2 ^ 22) with 4194304. clear. lia.
Qed.
Lemma judge_w32 l p : judge l (w32 p) = judge l p.
Proof. unfold judge, pV, pR, pW, pX. rewrite !w32_bit by lia. now rewrite ppn_w32. Qed.
Lemma judge_eq l p p' : w32 p = w32 p' -> judge l p = judge l p'.
Proof. intros E. rewrite <- (judge_w32 l p), <- (judge_w32 l p'), E. reflexivity. Qed.
Lemma pte0_eq p p' va : w32 p = w32 p' -> pte0_addr p va = pte0_addr p' va.
Proof. intros E. unfold pte0_addr. rewrite <- (ppn_w32 p), <- (ppn_w32 p'), E. reflexivity. Qed.
Lemma walks_same f satp va o :
  walks (fun a d => w32 d = w32 (f a)) satp va o -> same_outcome o (walk f satp va).
Proof.
  intros (p1 & E1 & H). unfold walk. rewrite <- (judge_eq 1 _ _ E1). destruct (judge 1 p1); [subst; exact Logic.I|subst; split; auto|].
  destruct H as (p0 & E0 & ->). rewrite <- (pte0_eq _ _ va E1), <- (judge_eq 0 _ _ E0). destruct (judge 0 p0); cbn; auto.
Qed.
Theorem c29_walk_static m0 tr x c r f : vreach m0 tr x -> c_resp (pw_c (v_p x) c) = Some r ->
  (forall q, last_req c tr = Some q ->
     unchanged m0 x f (fun a => a = pte1_addr (q_satp q) (q_va q) \/ a = pte0_addr (f (pte1_addr (q_satp q) (q_va q))) (q_va q))) ->
  exists q o, last_req c tr = Some q /\ same_outcome o (walk f (q_satp q) (q_va q)) /\ r = resp_of q o.
Proof.
  intros R H U. destruct (c29_walk_exact _ _ _ _ _ R H) as (q & o & L & W & E). exists q, o. repeat split; auto. specialize (U q L).
  assert (RD : forall a d, (a = pte1_addr (q_satp q) (q_va q) \/ a = pte0_addr (f (pte1_addr (q_satp q) (q_va q))) (q_va q)) -> entry_read m0 tr x c a d -> w32 d = w32 (f a)).
  { intros a d A (z & i & _ & (j & J1 & J2 & _)). eapply word_eq; [exact J2|]. apply U; auto. }
  apply walks_same. destruct W as (p1 & R1 & W). pose proof (RD _ _ (or_introl eq_refl) R1) as E1. exists p1. split; auto.
  destruct (judge 1 p1); auto. destruct W as (p0 & R0 & ->). exists p0. split; auto. pose proof (pte0_eq _ _ (q_va q) E1) as P. rewrite P in R0 |- *. apply RD; auto.
Qed.

(** The walker asks for nothing but the entries of the walk. *)
Theorem c29_reads_prescribed m0 tr x i x' a : vreach m0 tr x -> vcycle x i x' -> walk_read (comb_begin (vi_port i) (v_p x)) = Some a ->
  let c := pw_own (comb_begin (vi_port i) (v_p x)) in vi_flush i c = false ->
  exists q, last_req c ((x, i) :: tr) = Some q /\
    (a = w32 (pte1_addr (q_satp q) (q_va q)) \/
     exists p, entry_read m0 ((x, i) :: tr) x' c (pte1_addr (q_satp q) (q_va q)) p /\ judge 1 p = VNext /\ a = w32 (pte0_addr p (q_va q))).
Proof.
  intros R C W c NF. destruct (VI_begin _ _ _ _ _ R C) as (I & _). apply walk_read_addr in W. destruct W as (-> & A & S).
  fold c in NF. assert (INF : c_infl (pw_c (comb_begin (vi_port i) (v_p x)) c) = true) by (apply (pi_own _ _ _ _ I); auto).
  exists (c_req (pw_c (comb_begin (vi_port i) (v_p x)) c)). split; [apply (pi_req _ _ _ _ I); [now rewrite NF|auto]|].
  unfold cur_addr. fold c. destruct S as [S|S]; rewrite S; cbn [second]; [now left|right].
  destruct (pi_l2 _ _ _ _ I) as [J1 J2]; [fold c; now rewrite NF|now rewrite S|]. eauto.
Qed.

(** One answer per request: once taken, nothing is shown until the client asks again. *)
Definition idle (c : client) (p : ptw) : Prop := c_pend (pw_c p c) = false /\ c_infl (pw_c p c) = false /\ c_resp (pw_c p c) = None.
Lemma idle_port c d i p : idle c p -> (d = c -> i_wreq i = None) -> idle c (port_in d i p).
Proof.
  intros (A & B & D) N. rewrite port_in_eq. destruct (mpart_w d i p) as (W1 & _). set (p2 := mpart d i p) in *. clearbody p2. cbv zeta. unfold idle in *. rewrite <- W1 in A, B, D.
  destruct (client_eqb c d) eqn:E.
  - apply ceq_true in E. subst d. rewrite (N eq_refl). destruct (i_wtake i); auto. rewrite set_c_same. auto.
  - apply ceq_false in E. assert (X : forall (w : bool), pw_c (if w then set_c d (mkwc (c_pend (pw_c p2 d)) (c_infl (pw_c p2 d)) (c_req (pw_c p2 d)) None) p2 else p2) c = pw_c p2 c) by (intros []; [apply set_c_other|]; auto).
    unfold send_walk. destruct (i_wreq i); [destruct (_ || _); rewrite set_c_other by auto|]; rewrite X; auto.
Qed.
Lemma idle_take c i p : i_wtake i = true -> i_wreq i = None -> c_pend (pw_c p c) = false -> c_infl (pw_c p c) = false -> idle c (port_in c i p).
Proof.
  intros T N A B. rewrite port_in_eq, T, N. destruct (mpart_w c i p) as (W1 & _). cbv zeta. unfold idle. rewrite set_c_same, W1. auto.
Qed.
Lemma idle_select c p : idle c p -> idle c (select_owner p).
Proof.
  intros (A & B & D). unfold select_owner. destruct (pw_act p); [split; auto|]. destruct (pw_st p); try (split; auto; fail).
  assert (G : forall d, c_pend (pw_c p d) = true -> idle c (grant_owner d p)).
  { intros d P. assert (c <> d) as N by congruence. apply ceq_false in N. unfold idle, grant_owner. cbn [set_c pw_c]. rewrite N. auto. }
  destruct (c_pend (pw_c p (pw_rr p))) eqn:P1; auto. destruct (c_pend (pw_c p (other (pw_rr p)))) eqn:P2; auto. split; auto.
Qed.
Lemma idle_finish ok lr rd c g e w p : PI ok lr rd p -> idle c p -> idle c (comb_finish g e w p).
Proof.
  intros I D. unfold comb_finish. assert (W : forall w p, pw_c (apply_wakeups w p) = pw_c p).
  { intros w0 p0. assert (RM : forall d p, pw_c (retry_mem d p) = pw_c p) by (intros d q; unfold retry_mem; destruct (mc_infl _); auto). unfold apply_wakeups. cbv zeta.
    set (q1 := if p_dtlb w0 then retry_mem Dtlb p0 else p0). assert (Q1 : pw_c q1 = pw_c p0) by (unfold q1; destruct (p_dtlb w0); auto).
    set (q2 := if p_itlb w0 then retry_mem Itlb q1 else q1). assert (Q2 : pw_c q2 = pw_c p0) by (unfold q2; destruct (p_itlb w0); rewrite ?RM; auto).
    destruct (p_walk w0); auto. unfold retry_walk. destruct (pw_act q2); auto. }
  unfold idle. rewrite W.
  assert (G : pw_c (apply_grant g p) = pw_c p /\ pw_act (apply_grant g p) = pw_act p /\ pw_own (apply_grant g p) = pw_own p) by (unfold apply_grant; destruct g as [[[] id]|]; auto).
  set (p1 := apply_grant g p) in *. clearbody p1. destruct G as (G1 & G2 & G3).
  assert (N : pw_act p1 = true -> pw_own p1 <> c) by (intros A O; destruct D as (_ & D & _); assert (c_infl (pw_c p c) = true) by (apply (pi_own _ _ _ _ I); split; congruence); congruence).
  enough (X : pw_c (apply_event e p1) c = pw_c p1 c) by (rewrite X, G1; exact D).
  unfold apply_event. destruct e as [v|]; auto. destruct (v_owner v); auto. unfold on_walk_resp. cbv zeta. destruct (pw_act p1) eqn:A.
  2:{ cbn [andb negb]. rewrite andb_true_r. destruct (0 <? pw_drop p1); auto. }
  assert (PB : forall r, pw_c (publish r p1) c = pw_c p1 c) by (intros r; unfold publish; cbn [set_c pw_c]; assert (c <> pw_own p1) as M by (intros Y; now destruct (N eq_refl)); apply ceq_false in M; now rewrite M).
  destruct (_ && negb _); auto. destruct (negb _); auto. destruct (pw_st p1); auto; repeat (destruct (_ || _)); try destruct (nz _); auto.
Qed.
Lemma idle_flush c d p : idle c p -> idle c (flush_client d p).
Proof.
  intros (A & B & D). assert (X : idle c (set_c d (mkwc false false (c_req (pw_c p d)) None) p)) by (unfold idle; cbn [set_c pw_c]; destruct (client_eqb c d); auto).
  unfold flush_client. cbn [set_c pw_act pw_own pw_st]. destruct (_ && _); exact X.
Qed.
Theorem c29_answer_taken_once m0 tr x c : vreach m0 tr x -> consumed c tr = true ->
  c_pend (pw_c (v_p x) c) = false /\ c_infl (pw_c (v_p x) c) = false /\ c_resp (pw_c (v_p x) c) = None.
Proof.
  induction 1 as [|tr x i x' R IH C]; [discriminate|]. cbn [consumed]. intros H. destruct (VI_begin _ _ _ _ _ R C) as (I1 & (I & _)).
  destruct (i_wreq (vi_port i c)) eqn:N; [discriminate|].
  assert (B : idle c (port_in Itlb (vi_port i Itlb) (port_in Dtlb (vi_port i Dtlb) (v_p x)))).
  { apply orb_true_iff in H. destruct H as [H|H].
    - apply andb_true_iff in H. destruct H as [T H]. destruct (c_resp (pw_c (v_p x) c)) eqn:RS; [|discriminate].
      assert (P : c_pend (pw_c (v_p x) c) = false) by (destruct (c_pend _) eqn:P; auto; rewrite (pi_pr _ _ _ _ I c) in RS by auto; discriminate).
      assert (F : c_infl (pw_c (v_p x) c) = false) by (destruct (c_infl _) eqn:F; auto; rewrite (pi_pr _ _ _ _ I c) in RS by auto; discriminate).
      destruct c; [apply idle_port; [apply idle_take; auto|discriminate]|]. destruct (port_core Dtlb (vi_port i Dtlb) (v_p x)) as (_ & K & _). apply idle_take; auto; rewrite K by discriminate; auto.
    - specialize (IH H). repeat apply idle_port; auto; intros <-; auto. }
  destruct C as [p1 ro g m' PO P1 MC]. cbn [v_p v_m] in *. change (idle c (pseq (vi_flush i) (comb_finish g (ro_ev ro) (ro_wake ro) p1))).
  assert (D : idle c (comb_finish g (ro_ev ro) (ro_wake ro) p1)). { rewrite P1. eapply idle_finish; [exact I1|]. apply idle_select. exact B. }
  unfold pseq. cbv zeta. destruct (vi_flush i Dtlb), (vi_flush i Itlb); auto using idle_flush.
Qed.

(** Neither client is starved: a pending client gets the walker when it is free, and
    no client gets it twice in a row while the other waits. *)
Lemma port_pend c d i p : c_pend (pw_c p c) = true -> c_pend (pw_c (port_in d i p) c) = true.
Proof.
  intros P. destruct (client_eqb c d) eqn:E.
  - apply ceq_true in E. subst d. rewrite port_in_eq. destruct (mpart_w c i p) as (W1 & _). set (p2 := mpart c i p) in *. clearbody p2. cbv zeta. rewrite <- W1 in P.
    assert (X : forall (w : bool), c_pend (pw_c (if w then set_c c (mkwc (c_pend (pw_c p2 c)) (c_infl (pw_c p2 c)) (c_req (pw_c p2 c)) None) p2 else p2) c) = true) by (intros []; [rewrite set_c_same|]; auto).
    unfold send_walk. destruct (i_wreq i); auto. rewrite X. cbn [orb]. rewrite set_c_same. cbn [c_pend]. reflexivity.
  - apply ceq_false in E. destruct (port_core d i p) as (_ & K & _). rewrite K; auto.
Qed.
Theorem c29_pending_begins m0 tr x i c : vreach m0 tr x -> pw_act (v_p x) = false -> c_pend (pw_c (v_p x) c) = true -> begun x i <> None.
Proof.
  intros R A P. destruct (vreach_VI _ _ _ R) as [I _]. unfold begun, comb_begin. fold (begins (vi_port i) (v_p x)). rewrite A. cbn [negb andb].
  destruct (begins_core (vi_port i) (v_p x)) as ((B1 & B2 & _) & _). assert (P' : c_pend (pw_c (begins (vi_port i) (v_p x)) c) = true) by (unfold begins; now apply port_pend, port_pend).
  assert (S : pw_st (v_p x) = WIdle) by (destruct (pw_st (v_p x)) eqn:S; auto; assert (pw_act (v_p x) = true) by (apply (pi_act _ _ _ _ I); rewrite S; discriminate); congruence).
  unfold select_owner. rewrite B2, A, B1, S. set (p := begins _ _) in *. destruct (c_pend (pw_c p (pw_rr p))) eqn:P1; [discriminate|]. destruct (c_pend (pw_c p (other (pw_rr p)))) eqn:P2; [discriminate|].
  exfalso. assert (c = pw_rr p \/ c = other (pw_rr p)) as [->| ->] by (destruct c, (pw_rr p); auto); congruence.
Qed.
Lemma port_rr d i p : pw_rr (port_in d i p) = pw_rr p.
Proof. unfold port_in, send_mem, send_walk. destruct (i_mtake i), (i_mreq i), (i_wtake i), (i_wreq i); repeat (destruct (_ || _)); reflexivity. Qed.
Lemma cycle_rr i g e w f p : pw_rr (pseq f (comb_finish g e w (comb_begin i p))) = pw_rr (comb_begin i p).
Proof.
  assert (F : forall c q, pw_rr (flush_client c q) = pw_rr q) by (intros c q; unfold flush_client; cbn [set_c pw_act pw_own pw_st]; destruct (_ && _); reflexivity).
  assert (S : forall q, pw_rr (pseq f q) = pw_rr q) by (intros q; unfold pseq; cbv zeta; destruct (f Dtlb), (f Itlb); rewrite ?F; auto). rewrite S.
  unfold comb_finish. assert (RM : forall d q, pw_rr (retry_mem d q) = pw_rr q) by (intros d q; unfold retry_mem; destruct (mc_infl _); auto).
  assert (W : forall q, pw_rr (apply_wakeups w q) = pw_rr q).
  { intros q. unfold apply_wakeups. cbv zeta. assert (RW : forall q, pw_rr (retry_walk q) = pw_rr q) by (intros z; unfold retry_walk; destruct (pw_act z); auto). destruct (p_dtlb w), (p_itlb w), (p_walk w); rewrite ?RW, ?RM; auto. }
  rewrite W. assert (G : forall q, pw_rr (apply_grant g q) = pw_rr q) by (intros q; unfold apply_grant; destruct g as [[[] id]|]; auto). rewrite <- (G (comb_begin i p)). generalize (apply_grant g (comb_begin i p)) as q. intros q.
  unfold apply_event. destruct e as [v|]; auto. destruct (v_owner v); auto. unfold on_walk_resp. cbv zeta. destruct (_ && negb _); auto. destruct (negb _); auto.
  destruct (pw_st q); auto; repeat (destruct (_ || _)); try destruct (nz _); auto.
Qed.
Lemma begun_rr x i : match begun x i with Some d => pw_rr (comb_begin (vi_port i) (v_p x)) = other d | None => pw_rr (comb_begin (vi_port i) (v_p x)) = pw_rr (v_p x) end.
Proof.
  unfold begun, comb_begin. fold (begins (vi_port i) (v_p x)). destruct (begins_core (vi_port i) (v_p x)) as ((B1 & B2 & _) & _).
  assert (RR : pw_rr (begins (vi_port i) (v_p x)) = pw_rr (v_p x)) by (unfold begins; now rewrite !port_rr). set (p := begins _ _) in *. clearbody p. unfold select_owner.
  rewrite <- B2. destruct (pw_act p) eqn:A; [cbn [negb andb]; auto|]. destruct (pw_st p); cbn [negb andb]; rewrite ?A; auto. destruct (c_pend (pw_c p (pw_rr p))); [reflexivity|]. destruct (c_pend (pw_c p (other (pw_rr p)))); [reflexivity|]. rewrite A. auto.
Qed.
Lemma last_begun_rr m0 tr x d : vreach m0 tr x -> last_begun tr = Some d -> pw_rr (v_p x) = other d.
Proof.
  intros R. revert d. induction R as [|tr x i x' R IH C]; intros d L; [discriminate|]. cbn [last_begun] in L. destruct C as [p1 ro g m' PO P1 MC]. cbn [v_p]. subst p1. rewrite cycle_rr.
  pose proof (begun_rr x i) as B. destruct (begun x i); [injection L as ->; auto|]. rewrite B. auto.
Qed.
Theorem c29_alternates m0 tr x i d : vreach m0 tr x -> last_begun tr = Some d -> c_pend (pw_c (v_p x) (other d)) = true -> begun x i <> Some d.
Proof.
  intros R L P B. pose proof (last_begun_rr _ _ _ _ R L) as RR. unfold begun, comb_begin in B. fold (begins (vi_port i) (v_p x)) in B.
  assert (RB : pw_rr (begins (vi_port i) (v_p x)) = other d) by (unfold begins; now rewrite !port_rr).
  assert (P' : c_pend (pw_c (begins (vi_port i) (v_p x)) (other d)) = true) by (unfold begins; now apply port_pend, port_pend).
  destruct (begins_core (vi_port i) (v_p x)) as ((B1 & B2 & _) & _). set (p := begins _ _) in *. clearbody p. unfold select_owner in B. rewrite <- B2 in B. destruct (pw_act p) eqn:A; [discriminate B|].
  destruct (pw_st p); cbn [negb andb] in B; rewrite ?A in B; try discriminate B. rewrite RB, P' in B. cbn [grant_owner pw_act pw_own] in B. destruct d; discriminate B.
Qed.

(** While the walker waits for an entry, either its read was passed on in the last
    cycle or the routing block has it down as waiting, so it is not forgotten. *)
Definition mquiet (p : ptw) : Prop := forall c, mc_pend (pw_m p c) = false /\ mc_infl (pw_m p c) = false.
Lemma mq_port c i p : mquiet p -> i_mreq i = None -> mquiet (port_in c i p).
Proof.
  intros Q N d. specialize (Q d). unfold port_in, send_walk. rewrite N. destruct (i_mtake i), (i_wtake i), (i_wreq i); repeat (destruct (_ || _)); cbn [set_c set_m pw_m]; auto; destruct (client_eqb d c) eqn:E; auto; apply ceq_true in E; subst d; auto.
Qed.
Lemma mq_select p : mquiet p -> mquiet (select_owner p).
Proof. intros Q. unfold select_owner. destruct (pw_act p), (pw_st p); auto. destruct (c_pend _); [exact Q|]. destruct (c_pend _); exact Q. Qed.
Lemma mq_finish g e w p : mquiet p -> (forall id, g <> Some (ODtlb, id) /\ g <> Some (OItlb, id)) -> mquiet (comb_finish g e w p).
Proof.
  intros Q G. unfold comb_finish. assert (Q1 : mquiet (apply_grant g p)) by (unfold apply_grant; destruct g as [[[] id]|]; auto; destruct (G id); congruence). set (p1 := apply_grant g p) in *. clearbody p1.
  assert (Q2 : mquiet (apply_event e p1)).
  { unfold apply_event. destruct e as [v|]; auto. assert (M : forall c x, mquiet (on_mem_resp c x p1)) by (intros c x d; unfold on_mem_resp; cbn [set_m pw_m]; destruct (client_eqb d c) eqn:E; auto; cbn; split; auto; apply Q1).
    destruct (v_owner v); auto. unfold on_walk_resp. cbv zeta. destruct (_ && negb _); auto. destruct (negb _); auto. destruct (pw_st p1); repeat (destruct (_ || _)); try destruct (nz _); exact Q1. }
  set (p2 := apply_event e p1) in *. clearbody p2. unfold apply_wakeups. cbv zeta.
  assert (RM : forall c q, mquiet q -> retry_mem c q = q) by (intros c q X; unfold retry_mem; destruct (X c) as [_ ->]; auto).
  rewrite (RM Dtlb p2 Q2). replace (if p_dtlb w then p2 else p2) with p2 by (destruct (p_dtlb w); auto). rewrite (RM Itlb p2 Q2). replace (if p_itlb w then p2 else p2) with p2 by (destruct (p_itlb w); auto).
  destruct (p_walk w); auto. unfold retry_walk. destruct (pw_act p2); auto.
Qed.
Lemma mq_seq f p : mquiet p -> mquiet (pseq f p).
Proof.
  intros Q. assert (F : forall c q, mquiet q -> mquiet (flush_client c q)) by (intros c q X; unfold flush_client; cbn [set_c pw_act pw_own pw_st]; destruct (_ && _); exact X).
  unfold pseq. cbv zeta. destruct (f Dtlb), (f Itlb); auto.
Qed.
Lemma no_mem_grant p i ro g m m' : mquiet (comb_begin (vi_port i) p) -> mcycle m (asks (comb_begin (vi_port i) p) i) ro g m' -> forall o a, served m' = Some (o, a) -> o = OIcache \/ (o = OWalk /\ walk_read (comb_begin (vi_port i) p) = Some a).
Proof.
  intros Q MC o a S. destruct (c57_served_exact _ _ _ _ _ MC) as [SV _]. rewrite S in SV. symmetry in SV. apply winner_not_none in SV; [|apply requests_owners]. destruct SV as (_ & _ & IN).
  unfold requests, asks in IN. cbn [rr_ic rr_walk rr_dtlb rr_itlb In] in IN. unfold mem_read in IN. rewrite (proj1 (Q Dtlb)), (proj1 (Q Itlb)) in IN. destruct IN as [E|[E|[E|[E|[]]]]]; try discriminate E; injection E as <- E; auto.
Qed.
Lemma mq_reach m0 tr x : vreach m0 tr x -> no_mem tr -> mquiet (v_p x) /\ (forall o a, served (v_m x) = Some (o, a) -> o = OIcache \/ o = OWalk).
Proof.
  induction 1 as [|tr x i x' R IH C]; intros N; [split; [intros c; split; reflexivity|discriminate]|]. inversion N as [|? ? N1 N2]; subst. destruct (IH N2) as [Q _]. cbn [snd] in N1.
  destruct C as [p1 ro g m' PO P1 MC]. subst p1. cbn [v_m v_p].
  assert (Q1 : mquiet (comb_begin (vi_port i) (v_p x))) by (unfold comb_begin; now apply mq_select, mq_port; [apply mq_port|]).
  assert (S : forall o a, served m' = Some (o, a) -> o = OIcache \/ o = OWalk) by (intros o a S; destruct (no_mem_grant _ _ _ _ _ _ Q1 MC o a S) as [|[]]; auto).
  split; auto. apply mq_seq, mq_finish; auto. intros id. destruct (c57_served_exact _ _ _ _ _ MC) as [_ G].
  destruct (served m') as [[o a]|]; [|rewrite G; split; discriminate]. destruct (S o a eq_refl) as [-> | ->]; rewrite G; split; discriminate.
Qed.
(** Where a waiting walker comes from. *)
Lemma was_waiting g e w f p : waits_st (pw_st (pseq f (comb_finish g e w p))) = true -> waits_st (pw_st (comb_finish g e w p)) = true.
Proof.
  generalize (comb_finish g e w p) as q. intros q. unfold pseq. cbv zeta. intros W. destruct (f Itlb); [apply flush_st in W|]; (destruct (f Dtlb); [apply flush_st in W|]; auto).
Qed.
Lemma woken_not_wait w p : (pw_act p = true <-> pw_st p <> WIdle) -> p_walk w = true -> waits_st (pw_st (apply_wakeups w p)) = false.
Proof.
  intros A P. destruct (waits_st _) eqn:W; auto. pose proof (wake_wait _ _ W) as (_ & W2 & _). unfold apply_wakeups in W, W2. cbv zeta in *. rewrite P in W.
  set (q := if p_itlb w then _ else _) in *. assert (X : pw_st q = pw_st p /\ pw_act q = pw_act p).
  { assert (RM : forall d q, pw_st (retry_mem d q) = pw_st q /\ pw_act (retry_mem d q) = pw_act q) by (intros d z; unfold retry_mem; destruct (mc_infl _); auto).
    unfold q. destruct (p_itlb w), (p_dtlb w); auto; rewrite ?(proj1 (RM _ _)), ?(proj2 (RM _ _)), ?(proj1 (RM _ _)), ?(proj2 (RM _ _)); auto. }
  destruct X as [X1 X2]. unfold retry_walk in W. destruct (pw_act q) eqn:E; [cbn [set_st pw_st] in W; destruct (pw_st q); discriminate W|].
  rewrite X1 in W. assert (pw_act p = true) by (apply A; intros Z; rewrite Z in W; discriminate W). congruence.
Qed.
Lemma answered_not_wait v p : v_owner v = OWalk -> pw_act p = true -> pw_id p = Some (v_id v) -> waits_st (pw_st (apply_event (Some v) p)) = false.
Proof.
  intros O A I. unfold apply_event. rewrite O. unfold on_walk_resp. cbv zeta. rewrite A, I, Z.eqb_refl. cbn [andb negb]. rewrite andb_false_r.
  destruct (pw_st p); repeat (destruct (_ || _)); try destruct (nz _); reflexivity.
Qed.
Definition act_ok (p : ptw) : Prop := pw_act p = true <-> pw_st p <> WIdle.
Lemma act_event e p : act_ok p -> act_ok (apply_event e p).
Proof.
  intros A. unfold apply_event. destruct e as [v|]; auto. destruct (v_owner v); auto. unfold on_walk_resp. cbv zeta.
  destruct (pw_act p && _) eqn:E; cbn [negb]; rewrite ?andb_false_r, ?andb_true_r; [|destruct (0 <? pw_drop p); auto].
  apply andb_true_iff in E. destruct E as [E _]. assert (PB : forall r, act_ok (publish r p)) by (intros r; split; [discriminate|intros X; now destruct X]).
  assert (L2 : forall pte, act_ok (mkpw (pw_m p) (pw_c p) L2Req (pw_act p) (pw_own p) (pw_rr p) pte (pw_drop p) None)) by (intros; split; [discriminate|auto]).
  destruct (pw_st p); repeat (destruct (_ || _)); try destruct (nz _); auto.
Qed.
Theorem c29_wait_not_forgotten m0 tr x : vreach m0 tr x -> no_mem tr -> waits_st (pw_st (v_p x)) = true ->
  (exists a, served (v_m x) = Some (OWalk, a)) \/ flag OWalk (t_wait (m_rt (v_m x))) = true.
Proof.
  induction 1 as [|tr x i x' R IH C]; intros N W; [discriminate W|]. inversion N as [|? ? N1 N2]; subst. cbn [snd] in N1. specialize (IH N2).
  destruct (mq_reach _ _ _ R N2) as [_ SX]. destruct (VI_begin _ _ _ _ _ R C) as (I1 & (I & L)). pose proof (mq_reach _ _ _ (vreachS _ _ _ _ _ R C) N) as [_ SX'].
  destruct C as [p1 ro g m' PO P1 MC]. subst p1. cbn [v_m v_p] in *. set (p1 := comb_begin (vi_port i) (v_p x)) in *.
  destruct (c57_served_exact _ _ _ _ _ MC) as [_ G].
  assert (GR : (exists a, served m' = Some (OWalk, a)) \/ apply_grant g p1 = p1).
  { destruct (served m') as [[o a]|]; [|subst g; auto]. destruct (SX' o a eq_refl) as [-> | ->]; [subst g; auto|eauto]. }
  destruct GR as [|GR]; [auto|]. right. apply was_waiting in W. unfold comb_finish in W. rewrite GR in W.
  assert (NW : p_walk (ro_wake ro) = false).
  { destruct (p_walk (ro_wake ro)) eqn:PW; auto. rewrite woken_not_wait in W; auto. apply act_event, (pi_act _ _ _ _ I1). }
  pose proof (wake_wait _ _ W) as (_ & K2 & _). rewrite K2 in W.
  assert (W1 : waits_st (pw_st p1) = true).
  { destruct (event_wait _ _ W) as [(_ & E & _)|(E & _)]; congruence. }
  destruct (begin_wait _ _ (pi_act _ _ _ _ I) (pi_own _ _ _ _ I) W1) as (B1 & B2 & B3 & B4).
  assert (A1 : pw_act p1 = true) by (apply (pi_act _ _ _ _ I1); intros Z; fold p1 in Z; rewrite Z in W1; discriminate W1).
  specialize (IH B1). inversion R as [E1 E2|tr0 x0 i0 x1 R0 C0 E1 E2].
  { rewrite <- E2 in IH. cbn in IH. destruct IH as [[a IH]|IH]; discriminate IH. }
  destruct C0 as [p0 ro0 g0 m1 PO0 P0 MC0]. pose proof (f_equal v_m E2) as E3. cbn [v_m] in E3. subst m1. apply vreach_m in R0. cbn [v_m] in *.
  destruct IH as [[a IH]|IH].
  - destruct (c57_read_answered m0 _ _ _ _ _ _ _ _ _ _ _ R0 MC0 MC IH ltac:(discriminate)) as [[(e & EV & EO)|[WK|WT]] _]; [| |exact WT].
    + exfalso. destruct (c57_event_exact m0 _ _ _ _ _ _ _ _ _ _ R0 MC0 MC EV) as (_ & G0 & _). destruct (c57_served_exact _ _ _ _ _ MC0) as [_ G0']. rewrite IH in G0'.
      apply served_owner in IH. destruct IH as (T & _). destruct (L T B1) as [L1 _]. rewrite EV in W. rewrite answered_not_wait in W; [discriminate W|auto|auto|]. unfold p1. rewrite B2, L1. congruence.
    + cbn [flag] in WK. congruence.
  - destruct (c57_walk_not_forgotten m0 _ _ _ _ _ _ _ _ _ R0 MC0 MC) as [WK|WT]; auto.
    + intros a. split; intros S; destruct (SX _ _ S); discriminate.
    + cbn [flag] in WK. congruence.
Qed.
(** So while it waits on, some line is being fetched. *)
Corollary c29_wait_has_cause m0 tr x : vreach m0 tr x -> no_mem tr -> waits_st (pw_st (v_p x)) = true -> (forall a, served (v_m x) <> Some (OWalk, a)) ->
  la_fill (d_pend (y_d (m_y (v_m x)))) <> None \/ exists e, (e < 8)%nat /\ me_valid (ms_ent (d_ms (y_d (m_y (v_m x)))) e) = true.
Proof.
  intros R N W S. destruct (c29_wait_not_forgotten _ _ _ R N W) as [[a X]|X]; [now destruct (S a)|]. eapply c57_wait_has_cause; eauto. eapply vreach_m; eauto.
Qed.

(** A read the walker wants is passed on within three cycles, unless it is flushed. *)
Lemma asks_on m0 tr x i x' : vreach m0 tr x -> vcycle x i x' -> (pw_st (v_p x) = L1Req \/ pw_st (v_p x) = L2Req) ->
  (forall c, vi_flush i c = false) -> walk_read (comb_begin (vi_port i) (v_p x)) <> None /\
  ((exists a, served (v_m x') = Some (OWalk, a)) \/ pw_st (v_p x') = pw_st (v_p x)).
Proof.
  intros R C S NF. destruct (VI_begin _ _ _ _ _ R C) as (I1 & (I & L)).
  assert (A : pw_act (v_p x) = true) by (apply (pi_act _ _ _ _ I); destruct S as [S|S]; rewrite S; discriminate).
  assert (CB : comb_begin (vi_port i) (v_p x) = begins (vi_port i) (v_p x)).
  { unfold comb_begin, select_owner. fold (begins (vi_port i) (v_p x)). destruct (begins_core (vi_port i) (v_p x)) as ((_ & B2 & _) & _). now rewrite B2, A. }
  rewrite CB in *. destruct (begins_core (vi_port i) (v_p x)) as ((B1 & B2 & _ & _ & _ & B6) & _).
  split. { unfold walk_read. rewrite B2, A, B1. destruct S as [S|S]; rewrite S; discriminate. }
  destruct C as [p1 ro g m' PO P1 MC]. cbn [v_m v_p] in *. rewrite CB in P1. subst p1. set (p1 := begins _ _) in *.
  destruct (c57_served_exact _ _ _ _ _ MC) as [_ G]. assert (GR : (exists a, served m' = Some (OWalk, a)) \/ (pw_st (apply_grant g p1) = pw_st p1 /\ pw_act (apply_grant g p1) = pw_act p1 /\ pw_id (apply_grant g p1) = pw_id p1)).
  { destruct (served m') as [[[] a]|]; subst g; eauto. }
  destruct GR as [|(G1 & G2 & G3)]; auto. right. unfold pseq. rewrite !NF. cbv zeta. unfold comb_finish. set (p2 := apply_grant g p1) in *. clearbody p2.
  assert (ID : pw_id p2 = None) by (rewrite G3; apply (pi_id _ _ _ _ I1); fold p1; rewrite B1; destruct S as [S|S]; rewrite S; reflexivity).
  assert (E : pw_st (apply_event (ro_ev ro) p2) = pw_st p2).
  { unfold apply_event. destruct (ro_ev ro) as [v|]; auto. destruct (v_owner v); auto. unfold on_walk_resp. cbv zeta. rewrite ID, andb_false_r. cbn [negb]. rewrite andb_true_r. destruct (0 <? pw_drop p2); auto. }
  set (p3 := apply_event _ _) in *. clearbody p3. unfold apply_wakeups. cbv zeta. assert (RM : forall d q, pw_st (retry_mem d q) = pw_st q) by (intros d q; unfold retry_mem; destruct (mc_infl _); auto).
  set (q := if p_itlb (ro_wake ro) then _ else _). assert (Q : pw_st q = pw_st (v_p x)) by (unfold q; destruct (p_itlb _), (p_dtlb _); rewrite ?RM; congruence). clearbody q.
  destruct (p_walk _); auto. unfold retry_walk. destruct (pw_act q); auto. cbn [set_st pw_st]. rewrite Q. destruct S as [S|S]; rewrite S; reflexivity.
Qed.
Theorem c29_read_passed_on m0 tr x0 i0 x1 i1 x2 i2 x3 : vreach m0 tr x0 -> vcycle x0 i0 x1 -> vcycle x1 i1 x2 -> vcycle x2 i2 x3 ->
  (pw_st (v_p x0) = L1Req \/ pw_st (v_p x0) = L2Req) -> (forall c i, In i [i0; i1; i2] -> vi_flush i c = false) ->
  exists x a, In x [x1; x2; x3] /\ served (v_m x) = Some (OWalk, a).
Proof.
  intros R0 C0 C1 C2 S NF. pose proof (vreachS _ _ _ _ _ R0 C0) as R1. pose proof (vreachS _ _ _ _ _ R1 C1) as R2.
  destruct (asks_on _ _ _ _ _ R0 C0 S) as [A0 [[a H]|S1]]; [intros; apply NF; cbn; auto|exists x1, a; split; [now left|auto]|]. rewrite <- S1 in S.
  destruct (asks_on _ _ _ _ _ R1 C1 S) as [A1 [[a H]|S2]]; [intros; apply NF; cbn; auto|exists x2, a; split; [right; now left|auto]|]. rewrite <- S2 in S.
  destruct (asks_on _ _ _ _ _ R2 C2 S) as [A2 _]; [intros; apply NF; cbn; auto|].
  destruct C0 as [p0 ro0 g0 m1 PO0 P0 MC0]. destruct C1 as [p1 ro1 g1 m2 PO1 P1 MC1]. destruct C2 as [p2 ro2 g2 m3 PO2 P2 MC2]. cbn [v_m v_p] in *. subst p0 p1 p2.
  destruct (c57_walk_within_three _ _ _ _ _ _ _ _ _ _ _ _ _ MC0 MC1 MC2 A0 A1 A2) as (x & a & IN & SV). cbn [In] in IN. destruct IN as [<-|[<-|[<-|[]]]]; eexists (mkv _ _), a; (split; [|exact SV]); cbn [In]; eauto.
Qed.

(** ** The private walker *)
Lemma kl1 va satp : l1_addr (mkwq va satp 0) = w32 (pte1_addr satp va).
Proof. apply l1_addr_spec. Qed.
Lemma kl2 p va satp : l2_addr p (mkwq va satp 0) = w32 (pte0_addr p va).
Proof. apply l2_addr_spec. Qed.
(** [rs] seen as a relation *)
Definition returned (rs : list (Z * option Z)) (a d : Z) : Prop := In (w32 a, Some d) rs.
Definition KI (va satp : Z) (k : fsm) (rs : list (Z * option Z)) : Prop :=
  k_va k = va /\ k_satp k = satp /\
  let a1 := w32 (pte1_addr satp va) in let a0 := w32 (pte0_addr (k_l1 k) va) in
  match k_st k with
  | KIdle => False
  | KL1Req => rs = []
  | KL1Resp => rs = [(a1, None)]
  | KL2Req => judge 1 (k_l1 k) = VNext /\ rs = [(a1, Some (k_l1 k))]
  | KL2Resp => judge 1 (k_l1 k) = VNext /\ rs = [(a0, None); (a1, Some (k_l1 k))]
  | KDone => walks (returned rs) satp va (Leaf (k_pte k) (k_lev k)) /\ Forall (fun r => snd r <> None) rs
  | KFault => walks (returned rs) satp va Fault /\ Forall (fun r => snd r <> None) rs
  end.
Lemma judge1_eq pte : judge 1 pte = if negb (Z.testbit pte 0) || (negb (Z.testbit pte 1) && Z.testbit pte 2) then VFault else if Z.testbit pte 1 || Z.testbit pte 3 then (if nz (Z.land (Z.shiftr pte 10) 1023) then VFault else VLeaf) else VNext.
Proof. unfold judge, pV, pR, pW, pX. change (1 =? 1) with true. change (1 =? 0) with false. cbn [andb]. rewrite low10. reflexivity. Qed.
Lemma judge0_eq pte : judge 0 pte = if negb (Z.testbit pte 0) || (negb (Z.testbit pte 1) && Z.testbit pte 2) then VFault else if Z.testbit pte 1 || Z.testbit pte 3 then VLeaf else VFault.
Proof. unfold judge, pV, pR, pW, pX. change (0 =? 1) with false. change (0 =? 0) with true. reflexivity. Qed.
Lemma kreach_KI va satp k rs : kreach va satp k rs -> KI va satp k rs.
Proof.
  induction 1 as [k S k' E|k rs i k' a R IH T|k rs a d i k' R IH P T|k rs i k' R IH T].
  - unfold kstart in E. rewrite S in E. injection E as <-. unfold KI. cbn [k_va k_satp k_st]. auto.
  - destruct IH as (V & P & IH). unfold ktick in T. cbv zeta in *. rewrite V, P in T. destruct (k_st k) eqn:S; try (injection T; intros; discriminate).
    + destruct (kp_ready i); [|discriminate T]; injection T as <- <-. unfold KI. cbn [k_va k_satp k_st k_l1]. rewrite kl1, IH. auto.
    + destruct (kp_resp i); discriminate T.
    + destruct (kp_ready i); [|discriminate T]; injection T as <- <-. destruct IH as [J ->]. unfold KI. cbn [k_va k_satp k_st k_l1]. rewrite kl2. auto.
    + destruct (kp_resp i); discriminate T.
  - destruct IH as (V & Q & IH). unfold ktick in T. cbv zeta in *. rewrite V, Q, P in T. destruct (k_st k) eqn:S; try (destruct (kp_ready i); discriminate T); try discriminate T.
    + injection IH as -> ->. injection T as <-. set (a1 := w32 (pte1_addr satp va)).
      assert (R1 : returned [(a1, Some d)] (pte1_addr satp va) d) by (left; reflexivity).
      assert (FA : Forall (fun r : Z * option Z => snd r <> None) [(a1, Some d)]) by (constructor; [discriminate|constructor]).
      pose proof (judge1_eq d) as JD. unfold KI.
      destruct (_ || _) in JD |- *; [cbn [k_va k_satp k_st]; repeat split; auto; exists d; rewrite JD; auto|].
      destruct (_ || _) in JD |- *; [destruct (nz _) in JD |- *; cbn [k_va k_satp k_st k_pte k_lev]; repeat split; auto; exists d; rewrite JD; auto|].
      cbn [k_va k_satp k_st k_l1]. auto.
    + destruct IH as [J IH]. injection IH as -> ->. injection T as <-. set (a1 := w32 (pte1_addr satp va)). set (a0 := w32 (pte0_addr (k_l1 k) va)).
      assert (FA : Forall (fun r : Z * option Z => snd r <> None) [(a0, Some d); (a1, Some (k_l1 k))]) by (repeat constructor; discriminate).
      assert (W : forall o, o = (if match judge 0 d with VLeaf => true | _ => false end then Leaf d 0 else Fault) -> walks (returned [(a0, Some d); (a1, Some (k_l1 k))]) satp va o).
      { intros o ->. exists (k_l1 k). split; [right; left; reflexivity|]. rewrite J. exists d. split; auto. left. reflexivity. }
      pose proof (judge0_eq d) as JD. unfold KI. destruct (_ || _) in JD, W |- *; [cbn [k_va k_satp k_st]; repeat split; auto; apply W; now rewrite JD|].
      destruct (_ || _) in JD, W |- *; cbn [negb k_va k_satp k_st k_pte k_lev]; repeat split; auto; apply W; now rewrite JD.
  - assert (k' = k); [|now subst]. clear IH. unfold ktick in T. cbv zeta in T. destruct (k_st k); try destruct (kp_ready i); try destruct (kp_resp i); injection T; intros; congruence.
Qed.
(** Whatever the delays of its port, the private walker ends in DONE with the leaf of
    the Sv32 walk, or in FAULT when there is none, having read each entry once. *)
Theorem c29_private_walker_exact va satp k rs : kreach va satp k rs ->
  (k_st k = KDone -> walks (returned rs) satp va (Leaf (k_pte k) (k_lev k))) /\ (k_st k = KFault -> walks (returned rs) satp va Fault) /\
  (length rs <= 2)%nat.
Proof.
  intros R. assert (LN : (length rs <= 2)%nat /\ (match k_st k with KIdle => False | KL1Req => length rs = 0 | KL1Resp => length rs = 1 | KL2Req => length rs = 1 | KL2Resp => length rs = 2 | _ => True end)%nat).
  { induction R as [k S k' E|k rs i k' a R IH T|k rs a d i k' R IH P T|k rs i k' R IH T].
    - unfold kstart in E. rewrite S in E. injection E as <-. cbn. auto.
    - unfold ktick in T. cbv zeta in T. destruct (k_st k); try (injection T; intros; discriminate); try (destruct (kp_resp i); discriminate T); (destruct (kp_ready i); [|discriminate T]); injection T as <- <-; cbn [k_st length] in *; lia.
    - split; [apply IH|]. unfold ktick in T. cbv zeta in T. rewrite P in T. destruct (k_st k); try (destruct (kp_ready i); discriminate T); try discriminate T; injection T as <-; repeat (destruct (_ || _)); try destruct (nz _); cbn [negb k_st length] in *; auto; lia.
    - assert (k' = k); [|now subst]. clear IH. unfold ktick in T. cbv zeta in T. destruct (k_st k); try destruct (kp_ready i); try destruct (kp_resp i); injection T; intros; congruence. }
  apply kreach_KI in R. destruct R as (V & Q & R). cbv zeta in R. repeat split; [intros S; rewrite S in R; apply R|intros S; rewrite S in R; apply R|apply LN].
Qed.
(** It is done after four steps of its port at most: each accepted read and each
    answer brings it further. *)
Definition ksteps (s : kstate) : nat := match s with KL1Req => 4 | KL1Resp => 3 | KL2Req => 2 | KL2Resp => 1 | _ => 0 end.
Theorem c29_private_walker_ends va satp k rs i : kreach va satp k rs -> k_st k <> KDone -> k_st k <> KFault ->
  (rs = [] \/ (exists a t, rs = (a, None) :: t /\ kp_resp i <> None) \/ (exists a d t, rs = (a, Some d) :: t)) -> kp_ready i = true ->
  (ksteps (k_st (fst (fst (ktick i k)))) < ksteps (k_st k))%nat.
Proof.
  intros R D F H RD. apply kreach_KI in R. destruct R as (V & Q & R). cbv zeta in R. unfold ktick. cbv zeta. destruct (k_st k); try contradiction; try congruence; rewrite ?RD; cbn [fst k_st ksteps]; try lia.
  - subst rs. destruct H as [H|[(a & t & E & H)|(a & d & t & E)]]; try discriminate. destruct (kp_resp i); [|congruence]. cbn [fst]. repeat (destruct (_ || _)); try destruct (nz _); cbn [k_st ksteps]; lia.
  - destruct R as [_ ->]. destruct H as [H|[(a & t & E & H)|(a & d & t & E)]]; try discriminate. destruct (kp_resp i); [|congruence]. cbn [fst]. repeat (destruct (_ || _)); cbn [negb k_st ksteps]; lia.
Qed.
