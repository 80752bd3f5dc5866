(** C30: translation by the two TLBs with the shared walker, the routing block and the
    data cache behind them. *)
From Verif Require Import Base BaseLemmas MemSpec MemModel DcModel DcSpec DcLemmas DcRound RtModel RtSpec RtProofs RtTrace RtProps PtwModel Sv32Spec PtwSpec PtwProofs PtwMain TlbModel TlbSpec TlbProofs.
Ltac Zify.zify_post_hook ::= Z.div_mod_to_equations.
#[local] Opaque Z.pow Z.land Z.lor Z.shiftl Z.shiftr.

(** ** The walker keeps a request until it is answered and taken *)
Definition busy (c : client) (p : ptw) : Prop := c_pend (pw_c p c) = true \/ c_infl (pw_c p c) = true \/ c_resp (pw_c p c) <> None.
Lemma busy_eq c p p' : pw_c p' c = pw_c p c -> busy c p -> busy c p'.
Proof. unfold busy. intros ->. auto. Qed.
Lemma busy_port c i p : i_wtake i = false -> i_wreq i = None -> busy c p -> busy c (port_in c i p).
Proof. intros T N. rewrite port_in_eq, T, N. cbv zeta iota. destruct (mpart_w c i p) as (W1 & _). apply busy_eq. now rewrite W1. Qed.
Lemma busy_req c i q p : i_wreq i = Some q -> busy c (port_in c i p).
Proof.
  intros N. rewrite port_in_eq, N. cbv zeta. match goal with |- busy c (send_walk c q ?P) => generalize P end. intros z. unfold send_walk, busy. destruct (c_pend (pw_c z c)) eqn:A; [|destruct (c_infl (pw_c z c)) eqn:B]; cbn [orb]; rewrite set_c_same; cbn [c_pend c_infl]; auto.
Qed.
Lemma busy_select c p : busy c p -> busy c (select_owner p).
Proof.
  intros H. unfold select_owner. destruct (pw_act p); auto. destruct (pw_st p); auto.
  assert (G : forall d, busy c (grant_owner d p)).
  { intros d. unfold busy, grant_owner. cbn [set_c pw_c]. destruct (client_eqb c d) eqn:E; [cbn [c_infl]; auto|exact H]. }
  destruct (c_pend (pw_c p (pw_rr p))); auto. destruct (c_pend (pw_c p (other (pw_rr p)))); auto.
Qed.
Lemma busy_finish c g e w p : busy c p -> busy c (comb_finish g e w p).
Proof.
  intros D. unfold comb_finish. assert (W : forall w p, pw_c (apply_wakeups w p) = pw_c p).
  { intros w0 p0. assert (RM : forall d p, pw_c (retry_mem d p) = pw_c p) by (intros d q; unfold retry_mem; destruct (mc_infl _); auto). unfold apply_wakeups. cbv zeta.
    set (q1 := if p_dtlb w0 then retry_mem Dtlb p0 else p0). assert (Q1 : pw_c q1 = pw_c p0) by (unfold q1; destruct (p_dtlb w0); auto).
    set (q2 := if p_itlb w0 then retry_mem Itlb q1 else q1). assert (Q2 : pw_c q2 = pw_c p0) by (unfold q2; destruct (p_itlb w0); rewrite ?RM; auto).
    destruct (p_walk w0); auto. unfold retry_walk. destruct (pw_act q2); auto. }
  eapply busy_eq; [now rewrite W|]. assert (G : pw_c (apply_grant g p) = pw_c p) by (unfold apply_grant; destruct g as [[[] id]|]; auto).
  assert (B : busy c (apply_grant g p)) by (eapply busy_eq; [now rewrite G|exact D]). clear D G. set (p1 := apply_grant g p) in *. clearbody p1.
  unfold apply_event. destruct e as [v|]; auto. destruct (v_owner v); auto. unfold on_walk_resp. cbv zeta.
  assert (PB : forall r, busy c (publish r p1)).
  { intros r. unfold publish, busy. cbn [set_c pw_c]. destruct (client_eqb c (pw_own p1)); [right; right; discriminate|exact B]. }
  destruct ((0 <? pw_drop p1) && _); auto. destruct (negb _); auto. destruct (pw_st p1); auto; repeat (destruct (_ || _)); try destruct (nz _); auto.
Qed.
Lemma busy_seq c f p : f c = false -> busy c p -> busy c (pseq f p).
Proof.
  intros F D. assert (K : forall d p, d <> c -> busy c p -> busy c (flush_client d p)).
  { intros d q N B. assert (X : busy c (set_c d (mkwc false false (c_req (pw_c q d)) None) q)) by (unfold busy; rewrite set_c_other by auto; exact B). unfold flush_client. cbn [set_c pw_act pw_own pw_st]. destruct (_ && _); exact X. }
  unfold pseq. cbv zeta. destruct c; [rewrite F in *|]; destruct (f Dtlb) eqn:F1, (f Itlb) eqn:F2; try discriminate F; auto; try (apply K; [discriminate|auto]).
Qed.
Lemma other_port c d i p : d <> c -> pw_c (port_in d i p) c = pw_c p c.
Proof. intros N. destruct (port_core d i p) as (_ & K & _). apply K. auto. Qed.
Lemma begins_client i p c : (busy c (port_in c (i c) p) -> busy c (begins i p)) /\ (idle c (port_in c (i c) p) -> idle c (begins i p)).
Proof.
  unfold begins. destruct c.
  - split; [apply busy_eq, other_port; discriminate|]. unfold idle. rewrite (other_port Dtlb Itlb) by discriminate. auto.
  - assert (E : forall q, pw_c q Itlb = pw_c p Itlb -> pw_c (port_in Itlb (i Itlb) q) Itlb = pw_c (port_in Itlb (i Itlb) p) Itlb).
    { intros q Q. rewrite !port_in_eq. destruct (mpart_w Itlb (i Itlb) q) as (W1 & _). destruct (mpart_w Itlb (i Itlb) p) as (W2 & _). cbv zeta.
      assert (X : pw_c (mpart Itlb (i Itlb) q) Itlb = pw_c (mpart Itlb (i Itlb) p) Itlb) by (rewrite W1, W2; exact Q).
      set (q2 := mpart Itlb (i Itlb) q) in *. set (p2 := mpart Itlb (i Itlb) p) in *. clearbody q2 p2.
      set (q3 := if i_wtake (i Itlb) then _ else q2). set (p3 := if i_wtake (i Itlb) then _ else p2).
      assert (Y : pw_c q3 Itlb = pw_c p3 Itlb) by (unfold q3, p3; destruct (i_wtake (i Itlb)); [rewrite !set_c_same, X; reflexivity|exact X]). clearbody q3 p3.
      destruct (i_wreq (i Itlb)); [|exact Y]. unfold send_walk. rewrite Y. destruct (_ || _); rewrite !set_c_same; reflexivity. }
    specialize (E (port_in Dtlb (i Dtlb) p) (other_port Itlb Dtlb _ _ ltac:(discriminate))). unfold idle, busy. rewrite E. auto.
Qed.
Lemma flush_idle c f p : f c = true -> idle c (pseq f p).
Proof.
  intros F. assert (K : forall p, idle c (flush_client c p)).
  { intros q. assert (X : idle c (set_c c (mkwc false false (c_req (pw_c q c)) None) q)) by (unfold idle; rewrite set_c_same; auto). unfold flush_client. cbn [set_c pw_act pw_own pw_st]. destruct (_ && _); exact X. }
  unfold pseq. cbv zeta. destruct c; rewrite F; [destruct (f Itlb); auto using idle_flush|auto].
Qed.
Lemma idle_busy c p : idle c p <-> ~ busy c p.
Proof.
  unfold idle, busy. split; [intros (A & B & D) [E|[E|E]]; congruence|]. intros N. destruct (c_pend (pw_c p c)); [exfalso; auto|]. destruct (c_infl (pw_c p c)); [exfalso; auto|]. destruct (c_resp (pw_c p c)); [exfalso; apply N; right; right; discriminate|]. auto.
Qed.
Lemma walker_cycle m0 tr x i x' c : vreach m0 tr x -> vcycle x i x' ->
  (vi_flush i c = true -> idle c (v_p x')) /\
  (vi_flush i c = false -> i_wreq (vi_port i c) <> None -> busy c (v_p x')) /\
  (i_wreq (vi_port i c) = None -> idle c (v_p x) \/ (i_wtake (vi_port i c) = true /\ c_resp (pw_c (v_p x) c) <> None) -> idle c (v_p x')) /\
  (vi_flush i c = false -> i_wreq (vi_port i c) = None -> i_wtake (vi_port i c) = false -> busy c (v_p x) -> busy c (v_p x')).
Proof.
  intros R C. destruct (VI_begin _ _ _ _ _ R C) as (I1 & (I & _)). destruct C as [p1 ro g m' PO P1 MC]. cbn [v_p v_m] in *.
  set (P' := pseq (vi_flush i) (comb_finish g (ro_ev ro) (ro_wake ro) p1)).
  assert (BU : vi_flush i c = false -> busy c (begins (vi_port i) (v_p x)) -> busy c P').
  { intros F B. unfold P'. apply busy_seq; auto. apply busy_finish. rewrite P1. unfold comb_begin. apply busy_select. exact B. }
  destruct (begins_client (vi_port i) (v_p x) c) as [BB BI].
  split; [intros F; apply flush_idle; exact F|]. split; [|split].
  - intros F N. apply BU; auto. apply BB. destruct (i_wreq (vi_port i c)) eqn:E; [eapply busy_req; exact E|congruence].
  - intros N D. assert (X : idle c (begins (vi_port i) (v_p x))).
    { apply BI. destruct D as [D|[T RS]]; [apply idle_port; auto|]. destruct (c_resp (pw_c (v_p x) c)) eqn:E; [|congruence].
      apply idle_take; auto; [destruct (c_pend (pw_c (v_p x) c)) eqn:P|destruct (c_infl (pw_c (v_p x) c)) eqn:P]; auto; rewrite (pi_pr _ _ _ _ I c) in E by auto; discriminate E. }
    assert (Y : idle c (comb_finish g (ro_ev ro) (ro_wake ro) p1)) by (rewrite P1; eapply idle_finish; [exact I1|]; apply idle_select; exact X).
    unfold P', pseq. cbv zeta. destruct (vi_flush i Dtlb), (vi_flush i Itlb); auto using idle_flush.
  - intros F N T B. apply BU; auto. apply BB. apply busy_port; auto.
Qed.

(** ** The invariant *)
Definition vtr (tr : list (usys * uin)) : list (vsys * vin) := map (fun ui => (u_v (fst ui), vin_of (fst ui) (snd ui))) tr.
Definition WF (m0 : Z -> Z) (tr : list (usys * uin)) (u : usys) (c : client) (s va : Z) (o : outcome) : Prop :=
  used tr c s /\ walks (seen m0 tr u c) s va o.
Lemma WF_level m0 tr u c s va p l : WF m0 tr u c s va (Leaf p l) -> l = 0 \/ l = 1.
Proof. intros [_ H]. eapply walks_level; eauto. Qed.
Lemma WF_other m0 tr u c s va va' o : WF m0 tr u c s va o -> vpn1 va' = vpn1 va -> (vpn0 va' = vpn0 va \/ exists p, o = Leaf p 1) -> WF m0 tr u c s va' o.
Proof. intros [A H] E1 E2. split; auto. eapply walks_other; eauto. Qed.
Record UI (m0 : Z -> Z) (tr : list (usys * uin)) (u : usys) : Prop := {
  ui_v : vreach m0 (vtr tr) (u_v u);
  ui_tab : forall c, tab_ok (WF m0 tr u c) (u_t u c);
  ui_used : forall c, w_act (t_wr (u_t u c)) = true -> used tr c (w_satp (t_wr (u_t u c)));
  ui_busy : forall c, busyw (t_wr (u_t u c)) = true -> last_req c (vtr tr) = Some (wreq_of (t_wr (u_t u c))) /\ incl (since c (vtr tr)) (vtr (since_flush c tr)) /\ busy c (v_p (u_v u));
  ui_idle : forall c, busyw (t_wr (u_t u c)) = false -> idle c (v_p (u_v u)) }.

Lemma UI_start m0 tr u c : UI m0 tr u -> start_ok (WF m0 tr u c) (u_t u c) (wready (v_p (u_v u)) c) (c_resp (pw_c (v_p (u_v u)) c)).
Proof.
  intros [V T US B ID]. split; [apply T|]. intros r H. destruct (busyw (t_wr (u_t u c))) eqn:E.
  - split; auto. destruct (B c E) as (L & IN & _). destruct (c29_walk_exact _ _ _ _ _ V H) as (q & o & L2 & K & ->). assert (q = wreq_of (t_wr (u_t u c))) as -> by congruence.
    exists o. split; [|reflexivity]. split; [apply US; unfold busyw in E; apply andb_true_iff in E; tauto|]. cbn [wreq_of q_satp q_va] in K. eapply walks_mono; [|exact K].
    intros a d (z & i & I & WS). apply IN in I. apply in_map_iff in I. destruct I as ([u1 i1] & E1 & I1). cbn [fst snd] in E1. injection E1 as <- <-. exists u1, i1. auto.
  - destruct (ID c E) as (_ & _ & X). congruence.
Qed.
(** what a cycle of each TLB does *)
Lemma UI_cycle m0 tr u i c : UI m0 tr u -> iop_ok (ui_i i) -> (forall c s, csr_in i c = Some s -> csrs_ok s) ->
  cyc (WF m0 tr u c) (wready (v_p (u_v u)) c) (flushes c i) (c_resp (pw_c (v_p (u_v u)) c)) (csr_in i c) (u_t u c) (fst (result u i c)) /\
  (forall k va cs r, answered u i c k va cs r -> answer_ok (WF m0 tr u c) k va cs r).
Proof.
  intros I OK CK. pose proof (UI_start _ _ _ c I) as S. destruct c.
  - destruct (result u i Dtlb) as [b os] eqn:E. unfold result, start in E.
    assert (CD : forall cs l s, ui_d i = DPorts cs l s -> csrs_ok cs) by (intros cs l s D; apply (CK Dtlb); cbn [csr_in]; now rewrite D).
    destruct (dcycle_ok _ (WF_level m0 tr u Dtlb) (WF_other m0 tr u Dtlb) _ _ _ _ _ _ CD S E) as [C A].
    split; [exact C|]. intros k va cs r H. inversion H as [|cs' lds sts n va' r' D N1 N2|cs' lds sts n va' r' D N1 N2]; subst; unfold result, start in N2; rewrite E in N2; cbn [snd] in N2; destruct (A _ _ _ D) as [A1 A2]; eauto.
  - destruct (result u i Itlb) as [b os] eqn:E. unfold result, start in E.
    assert (CI : io_va (ui_i i) <> None -> csrs_ok (io_csr (ui_i i))) by (intros N; apply (CK Itlb); cbn [csr_in]; destruct (io_va (ui_i i)); congruence).
    destruct (icycle_ok _ (WF_level m0 tr u Itlb) (WF_other m0 tr u Itlb) _ _ _ _ _ _ OK CI S E) as [C A].
    split; [exact C|]. intros k va cs r H. inversion H as [va' r' D N1| |]; subst; unfold result, start in N1; rewrite E in N1; cbn [snd] in N1. eauto.
Qed.

Lemma UI_polite m0 tr u i : UI m0 tr u -> iop_ok (ui_i i) -> (forall c s, csr_in i c = Some s -> csrs_ok s) -> polite (v_p (u_v u)) (vin_of u i).
Proof.
  intros I OK CK c N. destruct (UI_cycle _ _ _ i c I OK CK) as [[_ _ M _] _]. cbn [vin_of vi_port vi_flush drive i_wreq] in N |- *.
  destruct M as [K1 K2|R1 K1 K2|R1 K1 K2|K1 K2]; auto; congruence.
Qed.
Lemma used_mono tr c s u i : used tr c s -> flushes c i = false -> used ((u, i) :: tr) c s.
Proof. intros (z & j & cs & A & B) F. exists z, j, cs. cbn [since_flush]. rewrite F. split; [right; exact A|exact B]. Qed.
Lemma WF_mono m0 tr u i u' c s va o : (exists l, y_hist (m_y (v_m (u_v u'))) = y_hist (m_y (v_m (u_v u))) ++ l) -> flushes c i = false -> WF m0 tr u c s va o -> WF m0 ((u, i) :: tr) u' c s va o.
Proof.
  intros H F [A B]. split; [apply used_mono; auto|]. eapply walks_mono; [|exact B]. intros a d (z & j & I & WS). exists z, j. cbn [since_flush]. rewrite F. split; [right; exact I|]. eapply word_mono; eauto.
Qed.
Lemma good_mono (W W' : Z -> Z -> outcome -> Prop) e : (forall s va o, W s va o -> W' s va o) -> good W e -> good W' e.
Proof. intros M G V. destruct (G V) as (s & va & p & l & A & B). exists s, va, p, l. auto. Qed.

Lemma UI_step m0 tr u i u' : UI m0 tr u -> ucycle u i u' -> UI m0 ((u, i) :: tr) u'.
Proof.
  intros I C. destruct C as [p1 ro g m' OK CK P1 MC]. set (U' := mku _ _).
  assert (VC : vcycle (u_v u) (vin_of u i) (u_v U')) by (apply vcycle_intro; auto; eapply UI_polite; eauto).
  assert (HH : exists l, y_hist (m_y (v_m (u_v U'))) = y_hist (m_y (v_m (u_v u))) ++ l) by (destruct MC as [ti o y1 n y2 ro' wait rq g' rt LO ST CL RS RQ E F]; cbn [U' u_v v_m m_y]; destruct (hist_mono _ _ _ _ ST) as [l1 E1]; destruct (fast_hist _ _ _ F) as [l2 E2]; exists (l1 ++ l2); rewrite E2, E1, app_assoc; reflexivity).
  assert (CY : forall c, cyc (WF m0 tr u c) (wready (v_p (u_v u)) c) (flushes c i) (c_resp (pw_c (v_p (u_v u)) c)) (csr_in i c) (u_t u c) (fst (result u i c))) by (intros c; apply (UI_cycle _ _ _ _ c I OK CK)).
  pose proof (fun c => walker_cycle _ _ _ _ _ c (ui_v _ _ _ I) VC) as WC.
  assert (UT : forall c, u_t U' c = tseq (u_t u c) (fst (result u i c))) by (intros []; reflexivity). clearbody U'. clear MC P1.
  assert (WR : forall c, t_wr (tseq (u_t u c) (fst (result u i c))) = if flushes c i then wregs0 else b_walk (fst (result u i c))).
  { intros c. unfold tseq. rewrite (cy_flush _ _ _ _ _ _ _ (CY c)). destruct (flushes c i); [reflexivity|]. destruct (f_valid _); reflexivity. }
  (* what happens to the walk of [c] *)
  assert (FK : forall c, flushes c i = true -> b_kill (fst (result u i c)) = true).
  { intros [] F.
    - cbn [result flushes] in *. destruct (ui_d i); try discriminate F. cbn [dcycle fst]. now rewrite flush_shape.
    - cbn [result flushes] in *. unfold icycle. rewrite F. cbv zeta. destruct (io_va (ui_i i)) eqn:V; [destruct (OK ltac:(congruence)); congruence|]. cbn [fst]. destruct (io_cancel (ui_i i)); [rewrite cancel_shape|rewrite flush_shape]; reflexivity. }
  assert (MV : forall c, let w := b_walk (fst (result u i c)) in
     (busyw (if flushes c i then wregs0 else w) = true -> flushes c i = false /\ last_req c (vtr ((u, i) :: tr)) = Some (wreq_of w) /\ incl (since c (vtr ((u, i) :: tr))) (vtr (since_flush c ((u, i) :: tr))) /\ busy c (v_p (u_v U'))) /\
     (busyw (if flushes c i then wregs0 else w) = false -> idle c (v_p (u_v U')))).
  { intros c w. unfold w. clear w. destruct (WC c) as (W1 & W2 & W3 & W4). cbn [vin_of vi_flush vi_port drive i_wreq i_wtake] in W1, W2, W3, W4. pose proof (cy_moved _ _ _ _ _ _ _ (CY c)) as M. specialize (FK c).
    destruct (flushes c i) eqn:F; [split; [discriminate|]; intros _; apply W1; auto|].
    assert (UB := ui_busy _ _ _ I c). assert (UD := ui_idle _ _ _ I c).
    destruct M as [K1 K2 K3|R1 K1 K2 K3|R1 K1 K2 K3 K4|K1 K2 K3 K4 K5].
    - split; [unfold busyw; rewrite K3; discriminate|]. auto.
    - split; [|rewrite K3; discriminate]. intros _. split; [reflexivity|]. split; [|split].
      + cbn [vtr map last_req fst snd]. cbn [vin_of vi_port drive i_wreq]. rewrite K2. reflexivity.
      + cbn [vtr map since since_flush fst snd]. cbn [vin_of vi_port drive i_wreq]. rewrite K2, F. intros y [Y|[]]. left. exact Y.
      + apply W2; auto. rewrite K2. discriminate.
    - split; [rewrite K4; discriminate|]. intros _. apply W3; auto.
    - split; rewrite K4.
      + intros B. destruct (UB B) as (U1 & U2 & U3). rewrite (K5 B). split; [reflexivity|]. split; [|split].
        * cbn [vtr map last_req fst snd]. cbn [vin_of vi_port drive i_wreq]. rewrite K2. exact U1.
        * cbn [vtr map since since_flush fst snd]. cbn [vin_of vi_port drive i_wreq]. rewrite K2, F. apply incl_cons; [left; reflexivity|]. intros y Y. right. apply U2. exact Y.
        * apply W4; auto.
      + intros B. apply W3; auto. }
  split.
  - cbn [vtr map fst snd]. econstructor; [apply (ui_v _ _ _ I)|exact VC].
  - intros c. pose proof (ui_tab _ _ _ I c) as T. assert (S : tab_ok (WF m0 tr u c) (tseq (u_t u c) (fst (result u i c)))) by (eapply seq_tab; [apply WF_level|apply WF_other|exact T|exact (CY c)]). rewrite UT. pose proof (cy_flush _ _ _ _ _ _ _ (CY c)) as FL. destruct (flushes c i) eqn:F.
    + unfold tseq in *. rewrite FL in *. destruct S as (S1 & S2). split; [|exact S2]. apply Forall_forall. intros e E. apply repeat_spec in E. subst e. intros X. discriminate X.
    + destruct S as (S1 & S2). split; [|exact S2]. eapply Forall_impl; [|exact S1]. intros e. apply good_mono. intros s va o. apply WF_mono; auto.
  - intros c. rewrite UT, WR. destruct (flushes c i) eqn:F; [discriminate|]. intros A. destruct (cy_satp _ _ _ _ _ _ _ (CY c) A) as [[X1 X2]|(cs & X1 & X2)]; rewrite X2.
    + apply used_mono; auto. apply (ui_used _ _ _ I); auto.
    + exists u, i, cs. cbn [since_flush]. rewrite F. split; [left; reflexivity|auto].
  - intros c. rewrite UT, WR. intros B. destruct (MV c) as [M1 _]. destruct (M1 B) as (F & M2 & M3 & M4). rewrite F. auto.
  - intros c. rewrite UT, WR. intros B. apply MV. exact B.
Qed.
Lemma UI0 m0 : UI m0 [] (usys0 m0).
Proof.
  split; cbn [usys0 u_v u_t vtr map]; try (intros c X; discriminate X).
  - constructor.
  - intros c. split; [|split; [reflexivity|unfold ENTRIES; cbn; lia]]. apply Forall_forall. intros e E. apply repeat_spec in E. subst e. intros X. discriminate X.
  - intros c _. repeat split.
Qed.
Lemma ureach_UI m0 tr u : ureach m0 tr u -> UI m0 tr u.
Proof. induction 1 as [|tr u i u' R IH C]; [apply UI0|]. eapply UI_step; eauto. Qed.

(** ** Theorems *)
(** An answer other than "retry" is the identity (machine mode or translation off), or
    what a walk found for this very address over words seen since the last flush, under
    a satp used since then, with the same ASID unless the mapping is global; with the
    permissions checked for the access at hand. *)
Theorem c30_answers_come_from_walks m0 tr u i u' c k va cs r : ureach m0 tr u -> ucycle u i u' -> answered u i c k va cs r ->
  po_valid r = true /\
  (po_result r <> 2 ->
   if (eff (ctx_of cs) k =? 3) || negb (mode (s_satp cs)) then po_result r = 0 /\ po_pa r = va
   else exists s o, used tr c s /\ walks (seen m0 tr u c) s va o /\ (asid s = asid (s_satp cs) \/ global o) /\
        agrees r (translation o (ctx_of cs) k (s_satp cs) va)).
Proof.
  intros R C A. destruct C as [p1 ro g m' OK CK P1 MC]. destruct (UI_cycle _ _ _ i c (ureach_UI _ _ _ R) OK CK) as [_ H]. destruct (H _ _ _ _ A) as [V B]. split; [exact V|]. intros N. specialize (B N).
  destruct (_ || _); [exact B|]. destruct B as (s & o & [W1 W2] & G & X). exists s, o. auto.
Qed.

Lemma global_same o o' : same_outcome o o' -> global o -> global o'.
Proof. destruct o as [|p l], o' as [|p' l']; unfold same_outcome, global; try tauto. intros [E _] G. unfold pG in *. rewrite <- (w32_bit _ 5) in G by lia. rewrite E, w32_bit in G by lia. exact G. Qed.
Lemma same_trans o1 o2 o3 : same_outcome o1 o2 -> same_outcome o2 o3 -> same_outcome o1 o3.
Proof. destruct o1, o2, o3; unfold same_outcome; try tauto. intros [A B] [C D]. split; congruence. Qed.
Lemma permits_w32 p k priv sum mxr : permits (w32 p) k priv sum mxr = permits p k priv sum mxr.
Proof. unfold permits, pX, pR, pW, pU, pA, pD. now rewrite !w32_bit by lia. Qed.
Lemma translation_same o o' cx k satp va : same_outcome o o' -> translation o cx k satp va = translation o' cx k satp va.
Proof.
  unfold translation. destruct (_ || _); auto. destruct o as [|p l], o' as [|p' l']; unfold same_outcome; try tauto. intros [E ->]. rewrite <- (permits_w32 p), E, permits_w32. unfold phys. rewrite <- (ppn_w32 p), E, ppn_w32. reflexivity.
Qed.
Lemma seen_walk m0 tr u c f s va o : tables m0 tr u c f s va -> walks (seen m0 tr u c) s va o -> same_outcome o (walk f s va).
Proof.
  intros T (p1 & R1 & W). apply walks_same. pose proof (T _ _ (or_introl eq_refl) R1) as E1. exists p1. split; auto.
  destruct (judge 1 p1); auto. destruct W as (p0 & R0 & ->). exists p0. split; auto. pose proof (pte0_eq _ _ va E1) as P. rewrite P in R0 |- *. apply T; auto.
Qed.
(** With the tables unchanged since the flush and ASIDs and global mappings kept
    consistent by software, the answer is that of a fresh Sv32 walk: address and
    permission verdict. *)
Theorem c30_same_as_fresh_walk m0 tr u i u' c k va cs r f : ureach m0 tr u -> ucycle u i u' -> answered u i c k va cs r -> po_result r <> 2 -> 0 <= va < 2 ^ 32 ->
  (forall s, used tr c s -> tables m0 tr u c f s va /\ consistent f (s_satp cs) va s) ->
  agrees r (translation (walk f (s_satp cs) va) (ctx_of cs) k (s_satp cs) va).
Proof.
  intros R C A N V H. destruct (c30_answers_come_from_walks _ _ _ _ _ _ _ _ _ _ R C A) as [_ B]. specialize (B N). destruct ((eff (ctx_of cs) k =? 3) || negb (mode (s_satp cs))) eqn:E.
  - unfold translation. rewrite E. destruct B as [B1 B2]. split; [exact B1|]. rewrite B2. unfold w32. now rewrite Z.mod_small.
  - destruct B as (s & o & U & W & G & X). destruct (H s U) as [T K]. pose proof (seen_walk _ _ _ _ _ _ _ _ T W) as S.
    rewrite (translation_same _ _ _ _ _ _ (same_trans _ _ _ S (K (match G with or_introl e => or_introl e | or_intror g => or_intror (global_same _ _ S g) end)))) in X. exact X.
Qed.
(** When that hypothesis holds: tables never changed, or changed only before the flush
    with no fetch of those lines under way since. *)
Theorem c30_tables_unchanged m0 tr u c f satp va :
  unchanged m0 (u_v u) f (fun a => a = pte1_addr satp va \/ a = pte0_addr (f (pte1_addr satp va)) va) -> tables m0 tr u c f satp va.
Proof. intros U a d A (z & i & _ & (j & J1 & J2 & _)). eapply word_eq; [exact J2|]. apply U; auto. Qed.
Theorem c30_tables_settled m0 tr u c f satp va :
  (forall a z i, a = pte1_addr satp va \/ a = pte0_addr (f (pte1_addr satp va)) va -> In (z, i) (since_flush c tr) ->
     (forall j, (length (y_hist (m_y (v_m (u_v z)))) <= j <= length (y_hist (m_y (v_m (u_v u)))))%nat ->
        is_word (after_stores (bytes_of m0) (firstn j (y_hist (m_y (v_m (u_v u)))))) (w32 a) (f a)) /\
     (forall e, (e < 8)%nat -> me_valid (ms_ent (d_ms (y_d (m_y (v_m (u_v z))))) e) = true -> me_addr (ms_ent (d_ms (y_d (m_y (v_m (u_v z))))) e) / 64 <> w32 a / 64)) ->
  tables m0 tr u c f satp va.
Proof.
  intros H a d A (z & i & I & (j & J1 & J2 & J3)). destruct (H a z i A I) as [H1 H2]. destruct J3 as [J3|(e & E1 & E2 & E3)]; [|destruct (H2 e E1 E2 E3)]. eapply word_eq; [exact J2|]. apply H1. lia.
Qed.

(** A TLB asks only when it is shown ready. *)
Theorem c30_asks_when_ready m0 tr u i u' : ureach m0 tr u -> ucycle u i u' -> vcycle (u_v u) (vin_of u i) (u_v u') /\
  forall c, b_req (fst (result u i c)) <> None -> wready (v_p (u_v u)) c = true /\ b_kill (fst (result u i c)) = false.
Proof.
  intros R C. pose proof (ureach_UI _ _ _ R) as I. destruct C as [p1 ro g m' OK CK P1 MC]. split; [apply vcycle_intro; auto; eapply UI_polite; eauto|].
  intros c N. destruct (UI_cycle _ _ _ i c I OK CK) as [[_ _ M _] _]. destruct M as [K1 K2|R1 K1 K2|R1 K1 K2|K1 K2]; auto; congruence.
Qed.
(** The walk a TLB has under way is the walker's newest request from it, and the walker
    has it waiting, in progress or answered: neither is without the other. *)
Theorem c30_walk_never_lost m0 tr u c : ureach m0 tr u ->
  let w := t_wr (u_t u c) in let s := pw_c (v_p (u_v u)) c in
  if w_act w && w_sent w
  then last_req c (vtr tr) = Some (mkwq (w_va w) (w_satp w) (w_type w)) /\ (c_pend s = true \/ c_infl s = true \/ exists r, c_resp s = Some r /\ r_va r = w_va w)
  else c_pend s = false /\ c_infl s = false /\ c_resp s = None.
Proof.
  intros R w s. pose proof (ureach_UI _ _ _ R) as I. destruct (w_act w && w_sent w) eqn:E.
  - destruct (ui_busy _ _ _ I c E) as (L & _ & B). split; [exact L|]. destruct B as [B|[B|B]]; auto. right. right. destruct (c_resp s) as [r|] eqn:RS; [|unfold s in RS; congruence]. exists r. split; [reflexivity|].
    destruct (c29_walk_exact _ _ _ _ _ (ui_v _ _ _ I) RS) as (q & o & L2 & _ & ->). rewrite L in L2. injection L2 as <-. destruct o; reflexivity.
  - exact (ui_idle _ _ _ I c E).
Qed.
(** A flush leaves no entry and no walk. *)
Theorem c30_flush_empties m0 tr u i u' c : ureach m0 tr u -> ucycle u i u' -> flushes c i = true ->
  (forall e, In e (t_tab (u_t u' c)) -> e_valid e = false) /\ w_act (t_wr (u_t u' c)) = false /\ wready (v_p (u_v u')) c = true /\ c_resp (pw_c (v_p (u_v u')) c) = None.
Proof.
  intros R C F. pose proof (ureach_UI _ _ _ R) as I. pose proof (ureach_UI _ _ _ (ureachS _ _ _ _ _ R C)) as I'.
  assert (E : u_t u' c = tlb0). { destruct C as [p1 ro g m' OK CK P1 MC]. cbn [u_t]. transitivity (tseq (u_t u c) (fst (result u i c))); [destruct c; reflexivity|]. unfold tseq. destruct (UI_cycle _ _ _ i c I OK CK) as [K _]. rewrite (cy_flush _ _ _ _ _ _ _ K), F. reflexivity. }
  split; [|split].
  - rewrite E. intros e X. apply repeat_spec in X. now subst.
  - now rewrite E.
  - destruct (ui_idle _ _ _ I' c) as (A & B & D); [now rewrite E|]. unfold wready. rewrite A, B. auto.
Qed.
(** An answer the walker shows is used by a request for that page under that satp:
    instruction side ... *)
Theorem c30_fetch_answered m0 tr u i u' va w r : ureach m0 tr u -> ucycle u i u' -> io_va (ui_i i) = Some va -> c_resp (pw_c (v_p (u_v u)) Itlb) = Some w ->
  va / 2 ^ 12 = w_va (t_wr (u_t u Itlb)) / 2 ^ 12 -> s_satp (io_csr (ui_i i)) = w_satp (t_wr (u_t u Itlb)) ->
  nth_error (snd (result u i Itlb)) 0 = Some r -> po_result r <> 2.
Proof.
  intros R C V RS PG SA N. pose proof (ureach_UI _ _ _ R) as I. destruct (UI_start _ _ _ Itlb I) as [_ ST]. destruct (ST w RS) as [B (o & _ & ->)]. clear ST.
  destruct C as [p1 ro g m' OK CK P1 MC]. destruct (OK ltac:(congruence)) as [F1 F2]. unfold result, start, icycle in N. rewrite F1, F2, V in N. cbv zeta iota in N. unfold tlb_translate, top in N. cbn [snd common_in ti_flush ti_cancel ti_ports] in N.
  cbn [lanes port_of snd fst to_ports nth_error] in N. injection N as <-. cbn [port_out po_result].
  unfold core. cbv zeta. cbn [lane_in ci_valid ci_va ci_type ci_satp ci_priv ci_mxr ci_sum ci_mprv ci_mpp ci_look ci_walk ci_refill ci_repl ci_cap ci_ready ci_rv ci_resp pp_valid pp_va pp_type pp_look a_walk a_refill a_ready a_rv ti_walk ti_refill ti_repl ti_ready ti_rv ti_resp ti_csr common_in comb0 b_walk b_refill b_ready b_resp negb].
  unfold busyw in B. apply andb_true_iff in B. destruct B as [B1 B2]. rewrite RS, B1. cbv iota. rewrite !Z.shiftr_div_pow2 by lia. rewrite SA, PG, !Z.eqb_refl, B2. cbn [andb negb].
  destruct ((_ =? 3) || _); [discriminate|]. destruct (hit_of _) as [e|]; [destruct (negb (check_perm _ _ _ _ _)); discriminate|].
  destruct o as [|p l]; cbn [resp_of r_va wreq_of q_va r_fault]; rewrite ?Z.eqb_refl; cbn [negb]; [discriminate|]. destruct (negb (check_perm _ _ _ _ _)); discriminate.
Qed.
Ltac lane := cbn [lane_in ci_valid ci_va ci_type ci_satp ci_priv ci_mxr ci_sum ci_mprv ci_mpp ci_look ci_walk ci_refill ci_repl ci_cap ci_ready ci_rv ci_resp].
Ltac accd := cbn [accumulate co_walk co_refill co_rq co_cons orb a_walk a_refill a_rv].
(** without an answer no lane touches the refill *)
Lemma lane_refill t p s : a_rv s = false -> let s' := accumulate s (core (lane_in ENTRIES t p s)) in a_refill s' = a_refill s /\ a_rv s' = false.
Proof.
  intros V. cbv zeta. unfold core. cbv zeta. lane. destruct (negb (pp_valid p)); [accd; auto|]. destruct (_ || _); [accd; auto|]. destruct (hit_of _) as [e|]; [destruct (negb (check_perm _ _ _ _ _)); accd; auto|].
  destruct (w_act (a_walk s) && _); [accd; auto|]. destruct (negb (w_sent _)); [destruct (negb (a_ready s)); accd; auto|]. rewrite V. accd. auto.
Qed.
Lemma lane_other t p s : w_act (a_walk s) = true -> (pp_valid p = true -> Z.shiftr (w_va (a_walk s)) 12 <> Z.shiftr (pp_va p) 12) -> let s' := accumulate s (core (lane_in ENTRIES t p s)) in a_walk s' = a_walk s /\ a_rv s' = a_rv s.
Proof.
  intros A N. cbv zeta. unfold core. cbv zeta. lane. destruct (pp_valid p); cbn [negb]; [|accd; auto]. destruct (_ || _); [accd; auto|]. destruct (hit_of _) as [e|]; [destruct (negb (check_perm _ _ _ _ _)); accd; auto|].
  rewrite A. specialize (N eq_refl). apply Z.eqb_neq in N. rewrite N. cbn [andb negb]. accd. auto.
Qed.
Lemma lane_hit t p s : pp_valid p = true -> f_valid (a_refill s) = true -> entry_matches (f_entry (a_refill s)) (pp_va p) (sv32_asid (s_satp (ti_csr t))) = true -> co_result (core (lane_in ENTRIES t p s)) <> 2.
Proof.
  intros V F M. unfold core. cbv zeta. lane. rewrite V. cbn [negb]. destruct (_ || _); [discriminate|]. unfold hit_of. lane. rewrite F, M. cbn [andb]. destruct (negb (check_perm _ _ _ _ _)); discriminate.
Qed.
Lemma lane_takes t p s : pp_valid p = true -> busyw (a_walk s) = true -> a_rv s = true -> Z.shiftr (w_va (a_walk s)) 12 = Z.shiftr (pp_va p) 12 -> w_satp (a_walk s) = s_satp (ti_csr t) -> Z.shiftr (r_va (ti_resp t)) 12 = Z.shiftr (w_va (a_walk s)) 12 ->
  co_result (core (lane_in ENTRIES t p s)) <> 2.
Proof.
  intros V B RV E1 E2 E3. unfold busyw in B. apply andb_true_iff in B. destruct B as [B1 B2]. unfold core. cbv zeta. lane. rewrite V, B1. cbv iota. rewrite E3, E1, E2, RV, B2, !Z.eqb_refl. cbn [negb andb]. destruct (_ || _); [discriminate|].
  destruct (hit_of _) as [e|]; [destruct (negb (check_perm _ _ _ _ _)); discriminate|]. destruct (r_fault _); [discriminate|]. destruct (negb (check_perm _ _ _ _ _)); discriminate.
Qed.
Lemma lanes_hit t n : forall ps s p r, a_rv s = false -> f_valid (a_refill s) = true -> nth_error ps n = Some p -> pp_valid p = true -> entry_matches (f_entry (a_refill s)) (pp_va p) (sv32_asid (s_satp (ti_csr t))) = true ->
  nth_error (snd (lanes ENTRIES t ps s)) n = Some r -> po_result r <> 2.
Proof.
  induction n as [|n IH]; intros [|q ps] s p r RV F N V M H; try discriminate N; cbn [nth_error] in N; cbn [lanes] in H; destruct (lanes ENTRIES t ps (accumulate s (core (lane_in ENTRIES t q s)))) as [s2 os] eqn:E; cbn [snd nth_error] in H.
  - injection N as ->. injection H as <-. cbn [port_out po_result]. apply lane_hit; auto.
  - destruct (lane_refill t q s RV) as [R1 R2]. eapply (IH ps _ p); [exact R2|rewrite R1; exact F|exact N|exact V|rewrite R1; exact M|]. rewrite E. exact H.
Qed.
Lemma lanes_take t n : forall ps s p r, busyw (a_walk s) = true -> a_rv s = true -> w_satp (a_walk s) = s_satp (ti_csr t) -> Z.shiftr (r_va (ti_resp t)) 12 = Z.shiftr (w_va (a_walk s)) 12 ->
  nth_error ps n = Some p -> pp_valid p = true -> Z.shiftr (w_va (a_walk s)) 12 = Z.shiftr (pp_va p) 12 ->
  (forall m q, (m < n)%nat -> nth_error ps m = Some q -> pp_valid q = true -> Z.shiftr (w_va (a_walk s)) 12 <> Z.shiftr (pp_va q) 12) ->
  nth_error (snd (lanes ENTRIES t ps s)) n = Some r -> po_result r <> 2.
Proof.
  induction n as [|n IH]; intros [|q ps] s p r B RV E1 E2 N V E3 O H; try discriminate N; cbn [nth_error] in N; cbn [lanes] in H; destruct (lanes ENTRIES t ps (accumulate s (core (lane_in ENTRIES t q s)))) as [s2 os] eqn:E; cbn [snd nth_error] in H.
  - injection N as ->. injection H as <-. cbn [port_out po_result]. apply lane_takes; auto.
  - assert (A : w_act (a_walk s) = true) by (unfold busyw in B; apply andb_true_iff in B; tauto). destruct (lane_other t q s A (O 0%nat q ltac:(lia) eq_refl)) as [R1 R2].
    apply (IH ps (accumulate s (core (lane_in ENTRIES t q s))) p); rewrite ?R1, ?R2, ?E; auto. intros m z M Z. apply (O (S m) z); auto. lia.
Qed.
(** ... data side: the first port asking for that page. *)
Theorem c30_access_answered m0 tr u i u' cs lds sts n va w r : ureach m0 tr u -> ucycle u i u' -> ui_d i = DPorts cs lds sts -> c_resp (pw_c (v_p (u_v u)) Dtlb) = Some w ->
  nth_error (lds ++ sts) n = Some (Some va) -> va / 2 ^ 12 = w_va (t_wr (u_t u Dtlb)) / 2 ^ 12 -> s_satp cs = w_satp (t_wr (u_t u Dtlb)) ->
  (forall m va', (m < n)%nat -> nth_error (lds ++ sts) m = Some (Some va') -> va' / 2 ^ 12 <> va / 2 ^ 12) ->
  nth_error (snd (result u i Dtlb)) n = Some r -> po_result r <> 2.
Proof.
  intros R C D RS N PG SA FI H. pose proof (ureach_UI _ _ _ R) as I. destruct (UI_start _ _ _ Dtlb I) as [_ ST]. destruct (ST w RS) as [B (o & OW & WE)]. clear ST. unfold result, start in H. rewrite D in H. cbn [dcycle] in H. unfold tlb_ports in H.
  set (t := u_t u Dtlb) in *. set (ps := map (port_of t cs) (map (pair 1) lds ++ map (pair 2) sts)) in *.
  assert (PN : forall m v, nth_error (lds ++ sts) m = Some v -> exists ty, nth_error ps m = Some (port_of t cs (ty, v))).
  { intros m v M. unfold ps. destruct (Nat.lt_ge_cases m (length lds)) as [L|L].
    - exists 1. rewrite nth_error_app1 in M by exact L. apply map_nth_error. rewrite nth_error_app1 by (rewrite map_length; exact L). apply map_nth_error. exact M.
    - exists 2. rewrite nth_error_app2 in M by exact L. apply map_nth_error. rewrite nth_error_app2 by (rewrite map_length; exact L). rewrite map_length. apply map_nth_error. exact M. }
  assert (NP : forall m p, nth_error ps m = Some p -> pp_valid p = true -> exists v, nth_error (lds ++ sts) m = Some (Some v) /\ pp_va p = v).
  { intros m p M V. destruct (nth_error (lds ++ sts) m) as [v|] eqn:E.
    - destruct (PN m v E) as [ty T]. rewrite M in T. injection T as ->. destruct v as [v|]; [exists v; auto|discriminate V].
    - exfalso. apply nth_error_None in E. assert (X : nth_error ps m <> None) by congruence. apply nth_error_Some in X. unfold ps in X. rewrite map_length, app_length, !map_length, <- app_length in X. lia. }
  destruct (PN n (Some va) N) as [ty T]. destruct (consume false t (comb0 t _ _)) as [b got] eqn:CE. unfold consume in CE. cbn [comb0 b_resp b_walk] in CE. rewrite RS in CE.
  assert (RV : r_va w = w_va (t_wr t)) by (rewrite WE; destruct o; reflexivity). rewrite RV, Z.eqb_refl in CE. change (w_act (t_wr t) && w_sent (t_wr t)) with (busyw (t_wr t)) in CE. rewrite B in CE. cbn [andb] in CE. cbv zeta in CE.
  unfold top in H. cbn [snd common_in ti_flush ti_cancel ti_ports] in H. match type of H with context [lanes ENTRIES ?TT ps ?SS] => set (ss := SS) in *; set (tt := TT) in * end.
  assert (H2 : nth_error (snd (lanes ENTRIES tt ps ss)) n = Some r) by (destruct (lanes ENTRIES tt ps ss) as [s2 os]; exact H). clear H.
  destruct ((r_fault w || _) && negb false) eqn:G.
  - injection CE as <- <-. eapply (lanes_take tt n ps ss); [| | | |exact T|reflexivity| | |exact H2].
    + exact B.
    + unfold ss, tt. cbn [a_rv common_in ti_rv comb0 b_resp]. rewrite ?RS. reflexivity.
    + unfold ss, tt. cbn. symmetry. exact SA.
    + unfold ss, tt. cbn [a_walk common_in ti_walk ti_resp comb0 b_resp b_walk]. rewrite ?RS, RV. reflexivity.
    + unfold ss, tt. cbn [a_walk common_in ti_walk comb0 b_walk port_of snd pp_va]. rewrite !Z.shiftr_div_pow2 by lia. auto.
    + intros m q M MQ QV. destruct (NP m q MQ QV) as (v & V1 & ->). unfold ss, tt. cbn [a_walk common_in ti_walk comb0 b_walk]. rewrite !Z.shiftr_div_pow2 by lia. rewrite <- PG. intros X. eapply FI; eauto.
  - injection CE as <- <-. cbn [negb] in G. rewrite andb_true_r in G. apply orb_false_iff in G. destruct G as [G1 G2]. eapply (lanes_hit tt n ps ss); [| |exact T|reflexivity| |exact H2].
    + reflexivity.
    + unfold ss, tt. cbn [a_refill common_in ti_refill a_take b_refill]. rewrite G1. apply negb_false_iff in G2. rewrite G2. reflexivity.
    + unfold ss, tt. cbn [a_refill common_in ti_refill a_take b_refill ti_csr]. rewrite G1. apply negb_false_iff in G2. rewrite G2. cbn [negb andb f_entry port_of snd pp_va]. unfold entry_matches, walk_entry. cbn [e_valid e_glob e_asid e_vpn1 e_vpn0 e_level negb].
      rewrite !vpn1_of, !vpn0_of, SA, Z.eqb_refl, orb_true_r. cbn [negb]. destruct (pages_vpn va (w_va (t_wr t))) as [V1 V0]; [rewrite !Z.shiftr_div_pow2 by lia; exact PG|]. rewrite V1, V0, !Z.eqb_refl. cbn [negb]. apply orb_true_r.
Qed.
(** The status fields the TLBs look at. *)
Theorem c30_status_fields satp mstatus priv : 0 <= mstatus < 2 ^ 32 -> 0 <= satp < 2 ^ 32 -> 0 <= priv < 4 ->
  csrs_ok (csrs_of satp mstatus priv) /\ s_satp (csrs_of satp mstatus priv) = satp /\
  ctx_of (csrs_of satp mstatus priv) = mkctx priv (Z.testbit mstatus 18) (Z.testbit mstatus 19) (Z.testbit mstatus 17) (mstatus / 2 ^ 11 mod 4).
Proof.
  intros M S P. unfold csrs_ok, ctx_of, csrs_of. cbn [s_satp s_priv s_mxr s_sum s_mprv s_mpp]. change 3 with (2 ^ 2 - 1). rewrite land_ones, Z.shiftr_div_pow2 by lia. change (2 ^ 2) with 4. change (2 ^ 11) with 2048.
  assert (B : forall n, 0 <= n -> nz (Z.land mstatus (Z.shiftl 1 n)) = Z.testbit mstatus n) by (intros n N; rewrite Z.shiftl_mul_pow2, Z.mul_1_l by lia; apply nz_bit; auto). rewrite !B by lia. repeat split; auto; lia.
Qed.
