(** The MMIO bridge behind the load/store unit: whose answer the unit takes. *)
From Verif Require Import Base BaseLemmas MemModel MemSpec PeriphModel LsuModel PaxModel PaxSpec.
Local Open Scope nat_scope.
#[local] Opaque Z.pow Z.land Z.lor Z.lxor Z.shiftl Z.shiftr Z.ldiff read_load.

(** *** The uncached unit during a cycle of the LSU *)
Lemma stlf_loop_un s head ks : forall d u np rt, u_v u = true -> snd (fst (fst (stlf_loop s head ks d u np rt))) = u.
Proof.
  induction ks as [|k t IH]; intros d u np rt V; [reflexivity|]. cbn [stlf_loop].
  destruct (negb (qv (stl d) k)); [apply IH; exact V|].
  assert (C : forall i n e e' u', stlf_check s head i n u e = (e', u') -> u' = u).
  { intros i n e e' u' E. unfold stlf_check in E. rewrite V in E. cbn [negb] in E. rewrite andb_false_r in E.
    destruct (l_mmio e); [inversion E; reflexivity|]. destruct (stlf_scan _ _ _); inversion E; reflexivity. }
  assert (G : forall d0, snd (fst (fst
    (match l_st (lq d0 (qi (stl d) k)) with
      | LEmpty => stlf_loop s head t (set_stl (kill (stl d0) k) d0) u (S np) rt
      | LWaitDcache =>
        if qn (wdl d0) <? LDQ_SIZE
        then stlf_loop s head t (set_stl (kill (stl (upd_l (qi (stl d) k) (set_l_st LReadyToIssue) (set_wdl (enq (wdl d0) (qi (stl d) k)) d0))) k) (upd_l (qi (stl d) k) (set_l_st LReadyToIssue) (set_wdl (enq (wdl d0) (qi (stl d) k)) d0))) u (S np) rt
        else (d0, u, np, rt)
      | LWaitFinish =>
        if qn (fin d0) <? LDQ_SIZE
        then stlf_loop s head t (set_stl (kill (stl (upd_l (qi (stl d) k) (set_l_st LReadyToWb) (set_fin (enq (fin d0) (qi (stl d) k)) d0))) k) (upd_l (qi (stl d) k) (set_l_st LReadyToWb) (set_fin (enq (fin d0) (qi (stl d) k)) d0))) u (S np) rt
        else (d0, u, np, rt)
      | LWaitMmioResp => stlf_loop s head t (set_stl (kill (stl d0) k) d0) u (S np) rt
      | LCheckStlfRetry => stlf_loop s head t (set_stl (kill (stl (upd_l (qi (stl d) k) (set_l_st LCheckStlf) d0)) k) (upd_l (qi (stl d) k) (set_l_st LCheckStlf) d0)) u (S np) (rt ++ [qi (stl d) k])
      | _ => (d0, u, np, rt)
      end))) = u).
  { intros d0. destruct (l_st (lq d0 (qi (stl d) k))); try reflexivity; try (apply IH; exact V).
    - destruct (qn (fin d0) <? LDQ_SIZE); [apply IH; exact V|reflexivity].
    - destruct (qn (wdl d0) <? LDQ_SIZE); [apply IH; exact V|reflexivity]. }
  cbv zeta. destruct (l_st (lq d (qi (stl d) k))) eqn:E; try (apply G).
  destruct (stq_distance _ _ _ _ _) as [n|]; [|reflexivity].
  destruct (stlf_check s head (qi (stl d) k) n u (lq d (qi (stl d) k))) as [e' u'] eqn:K. rewrite (C _ _ _ _ _ K). apply G.
Qed.
Lemma comb_stlf_un head l : u_v (un l) = true -> un (comb_stlf head l) = un l.
Proof.
  intros V. unfold comb_stlf. pose proof (stlf_loop_un (st l) head (window (stl (ld l))) (ld l) (un l) 0 [] V) as H.
  destruct (stlf_loop _ _ _ _ _ _ _) as [[[d u] np] rt]. cbn [fst snd] in H. subst u. reflexivity.
Qed.
Lemma issue_stores_un cur is : forall n s u out, u_v u = true -> snd (fst (issue_stores cur is n s u out)) = u.
Proof.
  induction is as [|i t IH]; intros n s u out V; [reflexivity|]. cbn [issue_stores].
  destruct (LSU_STA_COUNT <=? n); [reflexivity|].
  destruct (negb _ || _); [apply IH; exact V|]. cbv zeta.
  destruct (0 <? _); [apply IH; exact V|]. destruct (blocked _ _); [apply IH; exact V|].
  rewrite V. cbn [negb]. rewrite andb_false_r. destruct (s_mmio _); [apply IH; exact V|]. destruct (s_sup _); apply IH; exact V.
Qed.
(** The response does not reach the unit in this cycle. *)
Definition deaf (cur : lsu) (i : lin) : Prop := i_mmio i = None \/ (u_ld (un cur) = true /\ (qn (fin (ld cur)) <? LDQ_SIZE) = false).
Lemma mmio_in_deaf cur l i : deaf cur i -> ld l = ld cur -> comb_mmio_in (i_mmio i) (un cur) l = l.
Proof.
  intros [E|[E F]] D; unfold comb_mmio_in; [rewrite E; reflexivity|]. destruct (i_mmio i); [|reflexivity].
  destruct (negb (u_v (un cur))); [reflexivity|]. rewrite E, D, F. reflexivity.
Qed.
Lemma comb_flush_none i cur l : i_flush i = false -> i_mispred i = false -> un (comb_flush i cur l) = un l.
Proof. intros F M. unfold comb_flush. rewrite F, M. destruct (nz (i_clear i)); reflexivity. Qed.
Lemma unit_out cur i l' o : lsu_cycle cur i = (l', o) -> o_mm o = comb_mmio_out (i_pready i) (un l').
Proof.
  unfold lsu_cycle. destruct (comb_lsu2exe _ _) as [l1 wbs]. destruct (comb_tlb_in_ldq _ _ _) as [d1 r1]. destruct (comb_tlb_in_stq _ _ _) as [s1 r2].
  destruct (comb_lsu2dcache_ldq _ _) as [d2 dlq]. destruct (comb_lsu2dcache_stq _ _ _) as [[s2 u2] dsq]. intros H. inversion H. reflexivity.
Qed.
Lemma unit_steady cur i l' o : lsu_cycle cur i = (l', o) -> u_v (un cur) = true -> deaf cur i -> i_flush i = false -> i_mispred i = false -> un l' = un cur.
Proof.
  intros H V D F M. unfold lsu_cycle in H. rewrite (mmio_in_deaf cur _ i D) in H by reflexivity.
  destruct (comb_lsu2exe _ _) as [l1 wbs] eqn:E1. destruct (comb_tlb_in_ldq _ _ _) as [d1 r1]. destruct (comb_tlb_in_stq _ _ _) as [s1 r2].
  assert (U1 : un l1 = un cur) by (unfold comb_lsu2exe in E1; inversion E1; reflexivity).
  set (l2 := comb_stlf (i_head i) (Lsu s1 d1 (un l1) r2)) in H.
  assert (U2 : un l2 = un cur) by (unfold l2; rewrite comb_stlf_un by (cbn [un]; rewrite U1; exact V); exact U1).
  set (l3 := comb_flush i cur _) in H.
  assert (U3 : un l3 = un cur) by (unfold l3; rewrite comb_flush_none by assumption; exact U2).
  destruct (comb_lsu2dcache_ldq _ _) as [d2 dlq]. destruct (comb_lsu2dcache_stq _ _ _) as [[s2 u2] dsq] eqn:E4.
  assert (U4 : u2 = un l3).
  { unfold comb_lsu2dcache_stq in E4. pose proof (issue_stores_un (st cur) (seq 0 (Nat.min (scc (st l3)) WINDOW)) 0 (st l3) (un l3) []) as G.
    rewrite E4 in G. apply G. rewrite U3. exact V. }
  inversion H. cbn [un]. rewrite U4. exact U3.
Qed.

(** *** The invariant *)
Inductive bus_phase (p : pax) (w : presp) (n : nat) (tx : bool) : Prop :=
| ph_start : p_busy p = false -> p_rv p = false -> pr_ans w = None -> tx = false -> bus_phase p w n tx
| ph_busy : p_busy p = true -> p_rv p = false -> p_write p = true -> p_tag p = n -> pr_ans w = None -> tx = p_acc p -> bus_phase p w n tx
| ph_answer : p_busy p = false -> p_rv p = true -> p_tag p = n -> pr_ans w = None -> pr_ready w = false -> tx = true -> bus_phase p w n tx
| ph_shown : p_busy p = false -> p_rv p = false -> pr_ans w <> None -> pr_tag w = n -> tx = true -> bus_phase p w n tx.
Definition own (p : pax) (w : presp) (n : nat) : Prop :=
  p_busy p = false /\ (p_rv p = true -> p_tag p = n) /\ (pr_ans w <> None -> pr_tag w = n).
Definition CINV (s : csys) : Prop :=
  let u := unit_of s in let p := c_p s in
  (u_v u = false -> p_busy p = false /\ p_rv p = false) /\
  (u_v u = true -> 
     (is_modeled_mmio (u_addr u) = true -> own p (c_w s) (c_n s) /\ ~ In (c_n s) (c_txs s)) /\
     (is_modeled_mmio (u_addr u) = false -> u_ld u = false /\ exists tx, bus_phase p (c_w s) (c_n s) tx /\ (In (c_n s) (c_txs s) <-> tx = true))) /\
  Forall (fun n => n <= c_n s) (c_txs s) /\ NoDup (c_txs s) /\ Forall (fun x => fst x = snd x) (c_took s).

Lemma pax_ans s dev t rq n a : pr_ans (snd (pax_cycle dev t rq n a s)) = if p_rv s then Some (p_rd s) else None.
Proof. reflexivity. Qed.
Lemma pax_tag s dev t rq n a : pr_tag (snd (pax_cycle dev t rq n a s)) = p_tag s.
Proof. reflexivity. Qed.
Definition nextp (dev : periph) (t : Z) (rq : option mmioreq) (n : nat) (a : axin) (s : pax) : pax := fst (fst (pax_cycle dev t rq n a s)).
Lemma idle_none dev t n a s : p_busy s = false -> p_busy (nextp dev t None n a s) = false /\ p_rv (nextp dev t None n a s) = false.
Proof. intros B. unfold nextp, pax_cycle, pax_in. cbn [fst]. rewrite B. cbn [negb p_busy p_rv]. split; [reflexivity|]. destruct (p_rv s); reflexivity. Qed.
Lemma idle_some dev t n a s q : p_busy s = false -> let s' := nextp dev t (Some q) n a s in
  p_tag s' = n /\ (is_modeled_mmio (q_maddr q) = true -> p_busy s' = false /\ p_rv s' = true) /\
  (is_modeled_mmio (q_maddr q) = false -> p_busy s' = true /\ p_rv s' = false /\ p_write s' = q_wen q /\ p_acc s' = false).
Proof.
  intros B. unfold nextp, pax_cycle, pax_in. cbn [fst]. rewrite B. cbn [negb].
  destruct (is_modeled_mmio (q_maddr q)); cbn [p_tag p_busy p_rv p_write p_acc]; repeat split; try discriminate; intros; reflexivity.
Qed.
Lemma busy_write dev t rq n a s : p_busy s = true -> p_rv s = false -> p_write s = true -> let s' := nextp dev t rq n a s in
  p_tag s' = p_tag s /\
  ((p_busy s' = true /\ p_rv s' = false /\ p_write s' = true /\ p_acc s' = p_acc s || ax_accepted s a) \/
   (p_acc s = true /\ ax_accepted s a = false /\ p_busy s' = false /\ p_rv s' = true)).
Proof.
  intros B R W. unfold nextp, pax_cycle, pax_in, ax_accepted, pax_out. cbn [fst]. rewrite B, W. cbn [negb andb orb].
  destruct (p_acc s) eqn:A; cbn [negb].
  - destruct (a_wrv a); cbn [p_tag p_busy p_rv p_write p_acc]; split; try reflexivity; [right|left]; rewrite ?R, ?A; repeat split; reflexivity.
  - destruct (a_wacc a); cbn [p_tag p_busy p_rv p_write p_acc orb]; split; try reflexivity; left; rewrite ?R, ?A; repeat split; reflexivity.
Qed.
Lemma ready_write dev t rq n a s : p_busy s = true -> p_write s = true -> pr_ready (snd (pax_cycle dev t rq n a s)) = false.
Proof. intros B W. unfold pax_cycle, pax_ready. cbn [snd pr_ready]. rewrite B, W. cbn [negb]. rewrite andb_false_r. reflexivity. Qed.
Lemma idle_accepted s a : p_busy s = false -> ax_accepted s a = false.
Proof. intros B. unfold ax_accepted, pax_out. rewrite B. reflexivity. Qed.
Lemma acc_fresh s a : ax_accepted s a = true -> p_acc s = false.
Proof. unfold ax_accepted, pax_out. destruct (p_busy s), (p_acc s), (p_write s); cbn [negb]; intros; try discriminate; reflexivity. Qed.
Lemma not_in_above n txs : Forall (fun x => x <= n) txs -> ~ In (S n) txs.
Proof. intros F I. rewrite Forall_forall in F. specialize (F _ I). lia. Qed.
Lemma mmio_out_none r u : u_v u = false -> comb_mmio_out r u = None.
Proof. intros V. unfold comb_mmio_out. rewrite V, andb_false_r. reflexivity. Qed.
Lemma mmio_out_some r u : u_v u = true -> comb_mmio_out r u = if r then Some (MQ (negb (u_ld u)) (u_addr u) (u_wd u) (u_f3 u)) else None.
Proof. intros V. unfold comb_mmio_out. rewrite V, andb_true_r. reflexivity. Qed.
Lemma nodup_snoc (n : nat) l : NoDup l -> ~ In n l -> NoDup (l ++ [n]).
Proof.
  induction l as [|a t IH]; intros D N; cbn [app]; [constructor; [intros []|constructor]|]. inversion D as [|? ? A B]. subst. constructor.
  - intros H. apply in_app_or in H. destruct H as [H|[H|[]]]; [contradiction|]. apply N. left. symmetry. exact H.
  - apply IH; [exact B|]. intros H. apply N. right. exact H.
Qed.
Lemma cinv_step s i : CINV s -> calm s (fst (c_step s i)) i -> stays s (fst (c_step s i)) ->
  (u_v (unit_of (fst (c_step s i))) = true -> covered (unit_of (fst (c_step s i)))) -> CINV (fst (c_step s i)).
Proof.
  intros [I0 [I1 [It [Nd Tk]]]] Ca St Co.
  destruct (lsu_cycle (c_l s) (with_resp (c_w s) (ci_lsu i))) as [l' o] eqn:EL.
  pose proof (unit_out _ _ _ _ EL) as RQ. cbn [with_resp i_pready] in RQ.
  assert (ES : exists n' rq p' w', n' = (if negb (u_v (un (c_l s))) && u_v (un l') then S (c_n s) else c_n s) /\ rq = comb_mmio_out (pr_ready (c_w s)) (un l') /\
     p' = nextp (ci_dev i) (ci_t i) rq n' (ci_ax i) (c_p s) /\ w' = snd (pax_cycle (ci_dev i) (ci_t i) rq n' (ci_ax i) (c_p s)) /\
     fst (c_step s i) = CS l' p' w' n' (if took s then c_took s ++ [(c_n s, pr_tag (c_w s))] else c_took s)
      (if ax_accepted (c_p s) (ci_ax i) then c_txs s ++ [p_tag (c_p s)] else c_txs s)).
  { do 4 eexists. repeat split; try reflexivity. unfold c_step. rewrite EL, RQ. cbv zeta. unfold nextp. destruct (pax_cycle _ _ _ _ _ _) as [[p' ax] w']. reflexivity. }
  destruct ES as [n' [rq [p' [w' [En [Eq [Ep [Ew ES]]]]]]]].
  assert (US : unit_of (fst (c_step s i)) = un l') by (rewrite ES; reflexivity).
  unfold calm in Ca. unfold stays in St. rewrite US in Ca, St, Co. rewrite ES. unfold CINV. unfold unit_of in *. cbn [c_l c_p c_w c_n c_took c_txs] in *.
  set (u := un (c_l s)) in *. set (u' := un l') in *. set (p := c_p s) in *. set (w := c_w s) in *. set (n := c_n s) in *.
  assert (WA : pr_ans w' = if p_rv p then Some (p_rd p) else None) by (rewrite Ew; apply pax_ans).
  assert (WT : pr_tag w' = p_tag p) by (rewrite Ew; apply pax_tag).
  destruct (u_v u) eqn:V.
  - cbn [negb andb] in En. subst n'. specialize (I1 eq_refl). destruct I1 as [IM IB]. clear I0.
    destruct (took s) eqn:TK.
    + assert (V' : u_v u' = false) by (destruct (Ca eq_refl (or_introl eq_refl)) as [H|[H _]]; [exact H|discriminate H]).
      assert (TKA : pr_ans w <> None). { unfold took in TK. fold w in TK. destruct (pr_ans w); [discriminate|rewrite andb_false_r in TK; discriminate TK]. }
      assert (X : p_busy p = false /\ pr_tag w = n).
      { destruct (is_modeled_mmio (u_addr u)).
        - destruct (IM eq_refl) as [[B [_ H]] _]. split; [exact B|apply H; exact TKA].
        - destruct (IB eq_refl) as [_ [tx [[B R A T|B R W T A TX|B R T A RD TX|B R A T TX] _]]]; try contradiction. split; assumption. }
      destruct X as [B T]. rewrite (mmio_out_none _ _ V') in Eq. subst rq. destruct (idle_none (ci_dev i) (ci_t i) n (ci_ax i) p B) as [B' R']. rewrite <- Ep in B', R'.
      rewrite (idle_accepted p _ B). split; [intros _; split; assumption|]; split; [intros H; rewrite V' in H; discriminate H|]; split; [exact It|split; [exact Nd|]].
      apply Forall_app. split; [exact Tk|]. constructor; [|constructor]. cbn [fst snd]. symmetry. exact T.
    + assert (UU : u_v u' = false \/ u' = u).
      { destruct (i_flush (ci_lsu i)) eqn:F; [destruct (Ca eq_refl (or_intror (or_introl eq_refl))) as [H|[_ H]]; tauto|].
        destruct (i_mispred (ci_lsu i)) eqn:M; [destruct (Ca eq_refl (or_intror (or_intror eq_refl))) as [H|[_ H]]; tauto|].
        right. apply (unit_steady _ _ _ _ EL V); [|exact F|exact M]. unfold deaf. cbn [with_resp i_mmio]. fold u.
        unfold took in TK. fold u in TK. fold w in TK. rewrite V in TK. cbn [andb] in TK. fold w. destruct (pr_ans w); [right|left; reflexivity].
        cbn [andb] in TK. apply orb_false_elim in TK. destruct TK as [A C]. split; [destruct (u_ld u); [reflexivity|discriminate A]|exact C]. }
      destruct UU as [V'|UE].
      * destruct (u_ld u) eqn:LD; [|rewrite (St eq_refl eq_refl eq_refl) in V'; discriminate V'].
        destruct (is_modeled_mmio (u_addr u)) eqn:MO; [|destruct (IB eq_refl) as [H _]; discriminate H].
        destruct (IM eq_refl) as [[B [_ H]] _]. rewrite (mmio_out_none _ _ V') in Eq. subst rq.
        destruct (idle_none (ci_dev i) (ci_t i) n (ci_ax i) p B) as [B' R']. rewrite <- Ep in B', R'.
        rewrite (idle_accepted p _ B). split; [intros _; split; assumption|]; split; [intros G; rewrite V' in G; discriminate G|]; split; [exact It|split; assumption].
      * rewrite UE in *. rewrite (mmio_out_some _ _ V) in Eq. split; [intros H; rewrite V in H; discriminate H|].
        destruct (is_modeled_mmio (u_addr u)) eqn:MO.
        -- destruct (IM eq_refl) as [[B [RT WTG]] NI]. clear IB IM. rewrite (idle_accepted p _ B).
           split; [intros _; split; [intros _; split; [split; [|split]|exact NI]|discriminate]|split; [exact It|split; assumption]].
           ++ destruct (pr_ready w); subst rq; rewrite Ep.
              ** destruct (idle_some (ci_dev i) (ci_t i) n (ci_ax i) p (MQ (negb (u_ld u)) (u_addr u) (u_wd u) (u_f3 u)) B) as [_ [H _]]. exact (proj1 (H MO)).
              ** exact (proj1 (idle_none (ci_dev i) (ci_t i) n (ci_ax i) p B)).
           ++ destruct (pr_ready w); subst rq; rewrite Ep.
              ** destruct (idle_some (ci_dev i) (ci_t i) n (ci_ax i) p (MQ (negb (u_ld u)) (u_addr u) (u_wd u) (u_f3 u)) B) as [H _]. intros _. exact H.
              ** rewrite (proj2 (idle_none (ci_dev i) (ci_t i) n (ci_ax i) p B)). discriminate.
           ++ rewrite WA, WT. destruct (p_rv p); [intros _; apply RT; reflexivity|intros H; contradiction].
        -- destruct (IB eq_refl) as [LD [tx [PH TX]]]. clear IB IM.
           assert (G : exists tx', bus_phase p' w' n tx' /\ (tx' = true <-> tx = true \/ ax_accepted p (ci_ax i) = true) /\ (ax_accepted p (ci_ax i) = true -> tx = false /\ p_tag p = n)).
           { destruct PH as [B R A T|B R W T A T2|B R T A RD T2|B R A T T2].
             - rewrite (idle_accepted p _ B). destruct (pr_ready w); subst rq.
               + destruct (idle_some (ci_dev i) (ci_t i) n (ci_ax i) p (MQ (negb (u_ld u)) (u_addr u) (u_wd u) (u_f3 u)) B) as [H [_ K]].
                 destruct (K MO) as [B' [R' [W' A']]]. rewrite <- Ep in H, B', R', W', A'. exists false. split; [apply ph_busy; try assumption|].
                 * rewrite W'. cbn [q_wen]. rewrite LD. reflexivity.
                 * rewrite WA, R. reflexivity.
                 * symmetry. exact A'.
                 * subst tx. split; [split; [discriminate|intros [H0|H0]; discriminate H0]|discriminate].
               + destruct (idle_none (ci_dev i) (ci_t i) n (ci_ax i) p B) as [B' R']. rewrite <- Ep in B', R'. exists false. split; [apply ph_start; try assumption; [rewrite WA, R; reflexivity|reflexivity]|].
                 subst tx. split; [split; [discriminate|intros [H0|H0]; discriminate H0]|discriminate].
             - destruct (busy_write (ci_dev i) (ci_t i) rq n (ci_ax i) p B R W) as [H K]. rewrite <- Ep in H, K.
               destruct K as [[B' [R' [W' A']]]|[AC [NA [B' R']]]].
               + exists (p_acc p'). split; [apply ph_busy; try assumption; [rewrite H; exact T|rewrite WA, R; reflexivity|reflexivity]|]. rewrite A'. subst tx.
                 split; [apply orb_true_iff|]. intros AA. split; [exact (acc_fresh _ _ AA)|exact T].
               + exists true. rewrite NA. split; [apply ph_answer; try assumption; [rewrite H; exact T|rewrite WA, R; reflexivity|rewrite Ew; apply ready_write; assumption|reflexivity]|].
                 subst tx. rewrite AC. split; [tauto|discriminate].
             - rewrite (idle_accepted p _ B). rewrite RD in Eq. subst rq. destruct (idle_none (ci_dev i) (ci_t i) n (ci_ax i) p B) as [B' R']. rewrite <- Ep in B', R'.
               exists true. split; [apply ph_shown; try assumption; [rewrite WA, R; discriminate|rewrite WT; exact T|reflexivity]|]. subst tx. split; [tauto|discriminate].
             - exfalso. unfold took in TK. fold u in TK. fold w in TK. rewrite V, LD in TK. cbn [andb negb orb] in TK. destruct (pr_ans w); [discriminate TK|apply A; reflexivity]. }
           destruct G as [tx' [PH' [TX' FR]]]. destruct (ax_accepted p (ci_ax i)) eqn:AA.
           ++ destruct (FR eq_refl) as [T0 TG]. rewrite TG. split; [intros _; split; [discriminate|intros _; split; [exact LD|]]|split; [|split; [|exact Tk]]].
              ** exists tx'. split; [exact PH'|]. split; [intros _; apply TX'; right; reflexivity|intros _; apply in_or_app; right; left; reflexivity].
              ** apply Forall_app. split; [exact It|]. constructor; [lia|constructor].
              ** assert (NI : ~ In n (c_txs s)) by (rewrite TX, T0; discriminate).
                 apply nodup_snoc; assumption.
           ++ split; [intros _; split; [discriminate|intros _; split; [exact LD|]]|split; [exact It|split; assumption]]. exists tx'. split; [exact PH'|]. rewrite TX, TX'. split; [tauto|intros [H|H]; [exact H|discriminate H]].
  - destruct (I0 eq_refl) as [B R]. clear I0 I1. rewrite (idle_accepted p _ B).
    assert (TK : took s = false) by (unfold took; fold u; rewrite V; reflexivity). rewrite TK. cbn [negb andb] in En.
    destruct (u_v u') eqn:V'.
    + subst n'. rewrite (mmio_out_some _ _ V') in Eq. split; [discriminate|].
      assert (WN : pr_ans w' = None) by (rewrite WA, R; reflexivity).
      split; [intros _; split; intros MO|split; [|split; assumption]].
      * split; [|apply not_in_above; exact It]. split; [|split].
        -- destruct (pr_ready w); subst rq; rewrite Ep.
           ++ destruct (idle_some (ci_dev i) (ci_t i) (S n) (ci_ax i) p (MQ (negb (u_ld u')) (u_addr u') (u_wd u') (u_f3 u')) B) as [_ [H _]]. exact (proj1 (H MO)).
           ++ exact (proj1 (idle_none (ci_dev i) (ci_t i) (S n) (ci_ax i) p B)).
        -- destruct (pr_ready w); subst rq; rewrite Ep.
           ++ destruct (idle_some (ci_dev i) (ci_t i) (S n) (ci_ax i) p (MQ (negb (u_ld u')) (u_addr u') (u_wd u') (u_f3 u')) B) as [H _]. intros _. exact H.
           ++ rewrite (proj2 (idle_none (ci_dev i) (ci_t i) (S n) (ci_ax i) p B)). discriminate.
        -- rewrite WN. intros H. contradiction.
      * assert (LD : u_ld u' = false) by (destruct (u_ld u') eqn:E; [rewrite (Co eq_refl E) in MO; discriminate MO|reflexivity]).
        split; [exact LD|]. exists false. split; [|split; [intros H; destruct (not_in_above _ _ It H)|discriminate]].
        destruct (pr_ready w); subst rq.
        -- destruct (idle_some (ci_dev i) (ci_t i) (S n) (ci_ax i) p (MQ (negb (u_ld u')) (u_addr u') (u_wd u') (u_f3 u')) B) as [H [_ K]].
           destruct (K MO) as [B' [R' [W' A']]]. rewrite <- Ep in H, B', R', W', A'. apply ph_busy; try assumption; [|symmetry; exact A']. rewrite W'. cbn [q_wen]. rewrite LD. reflexivity.
        -- destruct (idle_none (ci_dev i) (ci_t i) (S n) (ci_ax i) p B) as [B' R']. rewrite <- Ep in B', R'. apply ph_start; try assumption. reflexivity.
      * eapply Forall_impl; [|exact It]. cbn beta. intros; lia.
    + subst n'. rewrite (mmio_out_none _ _ V') in Eq. subst rq. destruct (idle_none (ci_dev i) (ci_t i) n (ci_ax i) p B) as [B' R']. rewrite <- Ep in B', R'.
      split; [intros _; split; assumption|]; split; [intros H; discriminate H|]; split; [exact It|split; assumption].
Qed.
Lemma creach_inv s : creach covered s -> CINV s.
Proof.
  induction 1 as [|s i R IH Ca St Co]; [|apply cinv_step; assumption].
  split; [intros _; split; reflexivity|]. split; [intros H; discriminate H|]. repeat split; constructor.
Qed.
