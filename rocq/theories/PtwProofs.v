From Verif Require Import Base BaseLemmas MemSpec DcModel DcSpec DcLemmas DcRound RtModel RtSpec RtProofs RtProps PtwModel Sv32Spec PtwSpec.
Ltac Zify.zify_post_hook ::= Z.div_mod_to_equations.
#[local] Opaque Z.pow Z.land Z.lor Z.shiftl Z.shiftr.

Lemma ceq_refl c : client_eqb c c = true. Proof. now destruct c. Qed.
Lemma ceq_true a b : client_eqb a b = true <-> a = b. Proof. destruct a, b; cbn; split; congruence. Qed.
Lemma ceq_false a b : client_eqb a b = false <-> a <> b. Proof. destruct a, b; cbn; split; congruence. Qed.
Definition other_ne c : other c <> c. Proof. now destruct c. Qed.

(** ** Addresses *)
Lemma land_low n x : 0 <= n -> Z.land x (2 ^ n - 1) = x mod 2 ^ n.
Proof. intros. replace (2 ^ n - 1) with (Z.ones n) by (rewrite Z.ones_equiv; lia). now apply Z.land_ones. Qed.
Lemma l1_addr_spec q : l1_addr q = w32 (pte1_addr (q_satp q) (q_va q)).
Proof.
  unfold l1_addr, pte1_addr, root, vpn1, w32. change 4194303 with (2 ^ 22 - 1). change 1023 with (2 ^ 10 - 1). rewrite !land_low by lia.
  rewrite !Z.shiftl_mul_pow2, Z.shiftr_div_pow2 by lia. change (2 ^ 12) with 4096. change (2 ^ 2) with 4. rewrite Zplus_mod_idemp_l. reflexivity.
Qed.
Lemma l2_addr_spec p q : l2_addr p q = w32 (pte0_addr p (q_va q)).
Proof.
  unfold l2_addr, pte0_addr, ppn, vpn0, w32. change 4194303 with (2 ^ 22 - 1). change 1023 with (2 ^ 10 - 1). rewrite !land_low by lia.
  rewrite !Z.shiftl_mul_pow2, !Z.shiftr_div_pow2 by lia. change (2 ^ 12) with 4096. change (2 ^ 2) with 4. rewrite Zplus_mod_idemp_l. reflexivity.
Qed.
Lemma low10 p : Z.land (Z.shiftr p 10) 1023 = ppn p mod 2 ^ 10.
Proof.
  change 1023 with (2 ^ 10 - 1). rewrite land_low, Z.shiftr_div_pow2 by lia. unfold ppn.
  change (2 ^ 22) with (2 ^ 10 * 2 ^ 12). rewrite Z.rem_mul_r by (change (2 ^ 10) with 1024; change (2 ^ 12) with 4096; lia).
  change (2 ^ 10) with 1024. rewrite Z.mul_comm, Z.mod_add by lia. now rewrite Z.mod_mod by lia.
Qed.

(** ** The walker alone.  [ok c]: client [c] is not being flushed in this cycle.
    [lr c]: its newest request.  [rd c a d]: a read of [a] since then returned [d]. *)
Definition waits_st (s : wstate) : bool := match s with L1Wait | L2Wait => true | _ => false end.
Definition second (s : wstate) : bool := match s with L2Req | L2Wait => true | _ => false end.
Record PI (ok : client -> bool) (lr : client -> option wreq) (rd : client -> Z -> Z -> Prop) (p : ptw) : Prop := mkPI {
  pi_req : forall c, ok c = true -> (c_pend (pw_c p c) = true \/ c_infl (pw_c p c) = true \/ c_resp (pw_c p c) <> None) -> lr c = Some (c_req (pw_c p c));
  pi_pr : forall c, c_pend (pw_c p c) = true \/ c_infl (pw_c p c) = true -> c_resp (pw_c p c) = None;
  pi_ex : forall c, c_infl (pw_c p c) = true -> c_pend (pw_c p c) = false;
  pi_act : pw_act p = true <-> pw_st p <> WIdle;
  pi_own : forall c, c_infl (pw_c p c) = true <-> (pw_act p = true /\ pw_own p = c);
  pi_id : pw_id p = None <-> waits_st (pw_st p) = false;
  pi_l2 : ok (pw_own p) = true -> second (pw_st p) = true -> judge 1 (pw_l1 p) = VNext /\
          rd (pw_own p) (pte1_addr (q_satp (c_req (pw_c p (pw_own p)))) (q_va (c_req (pw_c p (pw_own p))))) (pw_l1 p);
  pi_resp : forall c r, ok c = true -> c_resp (pw_c p c) = Some r -> exists o, walks (rd c) (q_satp (c_req (pw_c p c))) (q_va (c_req (pw_c p c))) o /\ r = resp_of (c_req (pw_c p c)) o;
  pi_drop : 0 <= pw_drop p }.

Lemma PI_weak ok ok' lr lr' (rd rd' : client -> Z -> Z -> Prop) p : (forall c, ok' c = true -> ok c = true /\ lr' c = lr c) -> (forall c a d, ok' c = true -> rd c a d -> rd' c a d) -> PI ok lr rd p -> PI ok' lr' rd' p.
Proof.
  intros E R [A B EX C D F G H J]. constructor; auto.
  - intros c O X. destruct (E c O) as [E1 ->]. auto.
  - intros O S. destruct (E _ O) as [E1 _]. destruct (G E1 S). auto.
  - intros c r O X. destruct (E c O) as [E1 _]. destruct (H c r E1 X) as (o & W & ->). exists o. split; auto. eapply walks_mono; [|exact W]. auto.
Qed.

Definition wpart (p p' : ptw) : Prop :=
  (forall c, pw_c p' c = pw_c p c) /\ pw_st p' = pw_st p /\ pw_act p' = pw_act p /\ pw_own p' = pw_own p /\ pw_l1 p' = pw_l1 p /\ pw_drop p' = pw_drop p /\ pw_id p' = pw_id p.
Lemma PI_wpart ok lr rd p p' : wpart p p' -> PI ok lr rd p -> PI ok lr rd p'.
Proof.
  intros (E1 & E2 & E3 & E4 & E5 & E6 & E7) [A B EX C D F G H J]. constructor; rewrite ?E2, ?E3, ?E4, ?E5, ?E6, ?E7; auto; intros c; rewrite ?E1; auto.
Qed.
Lemma set_m_w c v p : wpart p (set_m c v p). Proof. repeat split. Qed.
Lemma wpart_refl p : wpart p p. Proof. repeat split. Qed.
Lemma wpart_trans p q r : wpart p q -> wpart q r -> wpart p r.
Proof. intros (A1 & A2 & A3 & A4 & A5 & A6 & A7) (B1 & B2 & B3 & B4 & B5 & B6 & B7). repeat split; intros; congruence. Qed.

(** client [c] changes *)
Lemma PI_set ok lr rd p c w : PI ok lr rd p -> c_infl w = c_infl (pw_c p c) ->
  (c_pend w = true \/ c_infl w = true -> c_resp w = None) ->
  (c_infl w = true -> c_req w = c_req (pw_c p c)) -> (c_infl w = true -> c_pend w = false) ->
  (ok c = true -> (c_pend w = true \/ c_infl w = true \/ c_resp w <> None) -> lr c = Some (c_req w)) ->
  (forall r, ok c = true -> c_resp w = Some r -> exists o, walks (rd c) (q_satp (c_req w)) (q_va (c_req w)) o /\ r = resp_of (c_req w) o) ->
  PI ok lr rd (set_c c w p).
Proof.
  intros [A B EX C D F G H J] I P Q X0 R S. constructor; cbn [set_c pw_c pw_st pw_act pw_own pw_id pw_l1 pw_drop]; auto.
  - intros d O. destruct (client_eqb d c) eqn:E; [apply ceq_true in E; subst d|]; auto.
  - intros d. destruct (client_eqb d c) eqn:E; [apply ceq_true in E; subst d|]; auto.
  - intros d. destruct (client_eqb d c) eqn:E; [apply ceq_true in E; subst d|]; auto.
  - intros d. destruct (client_eqb d c) eqn:E; [apply ceq_true in E; subst d; rewrite I|]; auto.
  - intros O X. destruct (G O X) as [G1 G2]. split; auto. destruct (client_eqb (pw_own p) c) eqn:E; [apply ceq_true in E|]; auto. rewrite Q; [rewrite <- E; auto|].
    rewrite I. apply D. split; auto. apply C. intros Z. rewrite Z in X. discriminate.
  - intros d r O. destruct (client_eqb d c) eqn:E; [apply ceq_true in E; subst d|]; auto.
Qed.
Lemma set_c_same c p w : pw_c (set_c c w p) c = w.
Proof. cbn [set_c pw_c]. now rewrite ceq_refl. Qed.
Lemma set_c_other c d p w : d <> c -> pw_c (set_c c w p) d = pw_c p d.
Proof. intros. cbn [set_c pw_c]. apply ceq_false in H. now rewrite H. Qed.

(** comb_begin *)
Definition lr_upd (lr : client -> option wreq) (c : client) (i : pin) : client -> option wreq :=
  fun d => if client_eqb d c then match i_wreq i with Some q => Some q | None => lr d end else lr d.
Lemma PI_take ok lr rd p c (b : bool) : PI ok lr rd p -> PI ok lr rd (if b then set_c c (mkwc (c_pend (pw_c p c)) (c_infl (pw_c p c)) (c_req (pw_c p c)) None) p else p).
Proof. intros I. destruct b; auto. apply PI_set; auto; cbn [c_pend c_infl c_req c_resp]; auto; try discriminate. 1: apply (pi_ex _ _ _ _ I). intros O [X|[X|X]]; [| |congruence]; apply (pi_req _ _ _ _ I); auto. Qed.
Definition mpart (c : client) (i : pin) (p : ptw) : ptw :=
  let p := if i_mtake i then set_m c (mkmc (mc_pend (pw_m p c)) (mc_infl (pw_m p c)) (mc_addr (pw_m p c)) None) p else p in
  match i_mreq i with Some a => send_mem c a p | None => p end.
Lemma port_in_eq c i p : port_in c i p =
  (let p := mpart c i p in
   let p := if i_wtake i then set_c c (mkwc (c_pend (pw_c p c)) (c_infl (pw_c p c)) (c_req (pw_c p c)) None) p else p in
   match i_wreq i with Some q => send_walk c q p | None => p end).
Proof. reflexivity. Qed.
Lemma mpart_w c i p : wpart p (mpart c i p).
Proof.
  unfold mpart, send_mem. destruct (i_mtake i), (i_mreq i); try destruct (_ || _); repeat first [apply wpart_refl | eapply wpart_trans; [|apply set_m_w]].
Qed.
Lemma PI_port ok lr rd rd' p c i : PI ok lr rd p -> (forall d, d <> c -> rd' d = rd d) ->
  (forall a d, rd c a d -> i_wreq i = None -> rd' c a d) ->
  (i_wreq i <> None -> wready p c = true \/ ok c = false) -> PI ok (lr_upd lr c i) rd' (port_in c i p).
Proof.
  intros I RO RC P.
  rewrite port_in_eq. assert (W2 := mpart_w c i p). set (p2 := mpart c i p) in *.
  clearbody p2. assert (I2 := PI_wpart _ _ _ _ _ W2 I). assert (WR : wready p2 c = wready p c) by (unfold wready; now rewrite (proj1 W2 c)). cbv zeta.
  set (p3 := if i_wtake i then _ else p2). assert (I3 : PI ok lr rd p3) by (unfold p3; apply PI_take; auto).
  assert (E3 : c_pend (pw_c p3 c) = c_pend (pw_c p2 c) /\ c_infl (pw_c p3 c) = c_infl (pw_c p2 c)) by (unfold p3; destruct (i_wtake i); auto; rewrite set_c_same; auto).
  clearbody p3. destruct (i_wreq i) as [q|] eqn:Q.
  - assert (LR : forall d, d <> c -> lr_upd lr c i d = lr d) by (intros d N; unfold lr_upd; apply ceq_false in N; now rewrite N).
    assert (LC : lr_upd lr c i c = Some q) by (unfold lr_upd; rewrite ceq_refl, Q; auto).
    unfold send_walk. destruct E3 as [E4 E5]. destruct (P ltac:(discriminate)) as [Y|N].
    + rewrite <- WR in Y. unfold wready in Y. rewrite <- E4, <- E5 in Y. destruct (c_pend (pw_c p3 c)) eqn:EP; [discriminate|]. destruct (c_infl (pw_c p3 c)) eqn:EI; [discriminate|]. cbn [orb].
      assert (IN : ~ (pw_act p3 = true /\ pw_own p3 = c)) by (intros X; apply (pi_own _ _ _ _ I3) in X; congruence).
      destruct I3 as [A B EX C D F G H J]. constructor; cbn [set_c pw_c pw_st pw_act pw_own pw_id pw_l1 pw_drop]; auto.
      * intros d O. destruct (client_eqb d c) eqn:E; [apply ceq_true in E; subst d; auto|]. apply ceq_false in E. rewrite LR by auto. auto.
      * intros d. destruct (client_eqb d c) eqn:E; [apply ceq_true in E; subst d; auto|]. auto.
      * intros d. destruct (client_eqb d c) eqn:E; [apply ceq_true in E; subst d; discriminate|auto].
      * intros d. destruct (client_eqb d c) eqn:E; [apply ceq_true in E; subst d; cbn [c_infl]; split; [discriminate|intros X; now destruct IN]|auto].
      * intros O X. destruct (G O X) as [G1 G2]. assert (NO : pw_own p3 <> c) by (intros Z; apply IN; split; auto; apply C; intros Y'; rewrite Y' in X; discriminate).
        pose proof NO as E. apply ceq_false in E. rewrite E. rewrite RO by auto. auto.
      * intros d r O. destruct (client_eqb d c) eqn:E; [apply ceq_true in E; subst d; discriminate|]. apply ceq_false in E. rewrite RO by auto. auto.
    + assert (OK : forall d, ok d = true -> d <> c) by (intros d O Z; subst; congruence).
      assert (I4 : PI ok (lr_upd lr c i) rd' p3).
      { eapply PI_weak; [| |exact I3]; [intros d O; split; auto; apply LR; auto|]. intros d a v O X. rewrite RO; auto. }
      destruct (_ || _) eqn:EO.
      * apply PI_set; auto; cbn [c_pend c_infl c_req c_resp]; auto; try discriminate. 1: apply (pi_ex _ _ _ _ I4). intros O. congruence.
      * apply orb_false_iff in EO. destruct EO as [EP EI]. rewrite EI. apply PI_set; auto; cbn [c_pend c_infl c_req c_resp]; auto; try discriminate; intros; congruence.
  - eapply PI_weak; [| |exact I3].
    + intros d O. split; auto. unfold lr_upd. destruct (client_eqb d c); rewrite ?Q; auto.
    + intros d a v O X. destruct (client_eqb d c) eqn:E; [apply ceq_true in E; subst d; auto|apply ceq_false in E; rewrite RO; auto].
Qed.
Lemma PI_select ok lr rd p : PI ok lr rd p -> PI ok lr rd (select_owner p).
Proof.
  intros I. unfold select_owner. destruct (pw_act p) eqn:A; auto. destruct (pw_st p) eqn:S; auto.
  assert (GR : forall c, c_pend (pw_c p c) = true -> PI ok lr rd (grant_owner c p)).
  { intros c P. destruct I as [A1 B EX C D F G H J]. unfold grant_owner. constructor; cbn [set_c pw_c pw_st pw_act pw_own pw_id pw_l1 pw_drop waits_st second]; auto.
    - intros d O. destruct (client_eqb d c) eqn:E; [apply ceq_true in E; subst d; cbn [c_pend c_infl c_req]; auto|]. auto.
    - intros d. destruct (client_eqb d c) eqn:E; [apply ceq_true in E; subst d; cbn [c_pend c_infl c_resp]; auto|]. auto.
    - intros d. destruct (client_eqb d c) eqn:E; [reflexivity|auto].
    - split; intros; [discriminate|auto].
    - intros d. destruct (client_eqb d c) eqn:E; [apply ceq_true in E; subst d; cbn [c_infl]; split; auto|]. apply ceq_false in E. rewrite D, A. split; [intros []; discriminate|intros []; congruence].
    - rewrite F, S. cbn [waits_st]. split; auto.
    - discriminate.
    - intros d r O. destruct (client_eqb d c) eqn:E; [apply ceq_true in E; subst d; cbn [c_req c_resp]|]; auto. }
  destruct (c_pend (pw_c p (pw_rr p))) eqn:P1; [apply GR; auto|]. destruct (c_pend (pw_c p (other (pw_rr p)))) eqn:P2; auto.
Qed.
(** comb_finish *)
Lemma PI_grant ok lr rd g p : PI ok lr rd p -> (forall id, g = Some (OWalk, id) -> walk_read p <> None) -> PI ok lr rd (apply_grant g p).
Proof.
  intros I H. unfold apply_grant. destruct g as [[[] id]|]; auto.
  - eapply PI_wpart; [|exact I]. apply set_m_w.
  - eapply PI_wpart; [|exact I]. apply set_m_w.
  - specialize (H id eq_refl). unfold walk_read in H. destruct (pw_act p) eqn:A; [|congruence].
    destruct I as [A1 B EX C D F G Hh J]. unfold on_walk_granted.
    assert (S : pw_st p = L1Req \/ pw_st p = L2Req) by (destruct (pw_st p); auto; congruence).
    constructor; cbn [set_st pw_c pw_st pw_act pw_own pw_id pw_l1 pw_drop]; auto.
    + rewrite A. destruct S as [S|S]; rewrite S; split; auto; discriminate.
    + split; [discriminate|destruct S as [S|S]; rewrite S; discriminate].
    + intros O X. apply G; auto. destruct S as [S|S]; rewrite S in *; auto.
Qed.
Lemma PI_publish ok lr rd p q o : PI ok lr rd p -> pw_act p = true -> q = c_req (pw_c p (pw_own p)) ->
  (ok (pw_own p) = true -> walks (rd (pw_own p)) (q_satp q) (q_va q) o) -> PI ok lr rd (publish (resp_of q o) p).
Proof.
  intros [A B EX C D F G H J] Ac -> W. assert (IN : c_infl (pw_c p (pw_own p)) = true) by (apply D; auto).
  unfold publish. constructor; cbn [set_c pw_c pw_st pw_act pw_own pw_id pw_l1 pw_drop waits_st second]; auto; try discriminate.
  - intros c O. destruct (client_eqb c (pw_own p)) eqn:E; [apply ceq_true in E; subst c; cbn [c_req]; intros _; apply A; auto|]. auto.
  - intros c. destruct (client_eqb c (pw_own p)) eqn:E; [apply ceq_true in E; subst c; cbn [c_pend c_infl c_resp]|auto].
    intros [X|X]; [|discriminate]. rewrite EX in X by auto. discriminate.
  - intros c. destruct (client_eqb c (pw_own p)) eqn:E; [discriminate|auto].
  - split; [discriminate|congruence].
  - intros c. destruct (client_eqb c (pw_own p)) eqn:E; [cbn [c_infl]; split; [discriminate|intros []; discriminate]|].
    apply ceq_false in E. rewrite D. split; [intros []; congruence|intros []; discriminate].
  - tauto.
  - intros c r O. destruct (client_eqb c (pw_own p)) eqn:E; [apply ceq_true in E; subst c; cbn [c_req c_resp]; intros X; injection X as <-; eauto|auto].
Qed.

Lemma PI_event ok lr rd e p : PI ok lr rd p ->
  (forall v, e = Some v -> v_owner v = OWalk -> waits_st (pw_st p) = true -> ok (pw_own p) = true ->
     let q := c_req (pw_c p (pw_own p)) in rd (pw_own p) (if second (pw_st p) then pte0_addr (pw_l1 p) (q_va q) else pte1_addr (q_satp q) (q_va q)) (v_data v)) ->
  PI ok lr rd (apply_event e p).
Proof.
  intros I H. unfold apply_event. destruct e as [v|]; auto. destruct (v_owner v) eqn:O; auto.
  - eapply PI_wpart; [|exact I]. apply set_m_w.
  - eapply PI_wpart; [|exact I]. apply set_m_w.
  - specialize (H v eq_refl O). cbv zeta in H. unfold on_walk_resp. cbv zeta.
    set (pte := v_data v) in *. destruct (pw_act p && _) eqn:A; cbn [andb negb].
    2:{ rewrite andb_true_r. destruct (0 <? pw_drop p) eqn:E; auto. apply Z.ltb_lt in E. destruct I as [A1 B EX C D F G Hh J]. constructor; cbn [pw_c pw_st pw_act pw_own pw_id pw_l1 pw_drop]; auto; lia. }
    apply andb_true_iff in A. destruct A as [A ID].
    rewrite andb_false_r. assert (WS : waits_st (pw_st p) = true).
    { destruct (waits_st (pw_st p)) eqn:W; auto. apply (pi_id _ _ _ _ I) in W. rewrite W in ID. discriminate. }
    set (q := c_req (pw_c p (pw_own p))) in *. specialize (H WS).
    change (mkwr true (q_va q) 0 0) with (resp_of q Fault). change (mkwr false (q_va q) pte 1) with (resp_of q (Leaf pte 1)). change (mkwr false (q_va q) pte 0) with (resp_of q (Leaf pte 0)).
    destruct (pw_st p) eqn:S; try discriminate WS; cbn [second] in H.
    + assert (JD : judge 1 pte = if negb (Z.testbit pte 0) || (negb (Z.testbit pte 1) && Z.testbit pte 2) then VFault else if Z.testbit pte 1 || Z.testbit pte 3 then (if nz (Z.land (Z.shiftr pte 10) 1023) then VFault else VLeaf) else VNext).
      { unfold judge, pV, pR, pW, pX. change (1 =? 1) with true. change (1 =? 0) with false. cbn [andb]. rewrite low10. reflexivity. }
      destruct (_ || _) in JD |- *; [apply PI_publish; auto; intros O1; exists pte; rewrite JD; auto|].
      destruct (_ || _) in JD |- *; [destruct (nz _) in JD |- *; apply PI_publish; auto; intros O1; exists pte; rewrite JD; auto|].
      destruct I as [A1 B EX C D F G Hh J]. constructor; cbn [pw_c pw_st pw_act pw_own pw_id pw_l1 pw_drop waits_st second]; auto; split; auto; intros; discriminate.
    + assert (JD : judge 0 pte = if negb (Z.testbit pte 0) || (negb (Z.testbit pte 1) && Z.testbit pte 2) then VFault else if Z.testbit pte 1 || Z.testbit pte 3 then VLeaf else VFault).
      { unfold judge, pV, pR, pW, pX. change (0 =? 1) with false. change (0 =? 0) with true. reflexivity. }
      assert (W : forall o, o = (if match judge 0 pte with VLeaf => true | _ => false end then Leaf pte 0 else Fault) -> ok (pw_own p) = true -> walks (rd (pw_own p)) (q_satp q) (q_va q) o).
      { intros o -> O1. destruct (pi_l2 _ _ _ _ I O1) as [J1 J2]; [rewrite S; auto|]. exists (pw_l1 p). split; auto. rewrite J1. exists pte. auto. }
      destruct (_ || _) in JD, W |- *; cbn [orb]; [apply PI_publish; auto; apply W; now rewrite JD|].
      destruct (_ || _) in JD, W |- *; cbn [negb]; apply PI_publish; auto; apply W; now rewrite JD.
Qed.
Lemma PI_wake ok lr rd w p : PI ok lr rd p -> PI ok lr rd (apply_wakeups w p).
Proof.
  intros I. unfold apply_wakeups.
  assert (R : forall c p, PI ok lr rd p -> PI ok lr rd (retry_mem c p)) by (intros c q Q; unfold retry_mem; destruct (mc_infl _); auto; eapply PI_wpart; [apply set_m_w|auto]).
  set (p1 := if p_dtlb w then retry_mem Dtlb p else p). assert (I1 : PI ok lr rd p1) by (unfold p1; destruct (p_dtlb w); auto). clearbody p1.
  set (p2 := if p_itlb w then retry_mem Itlb p1 else p1). assert (I2 : PI ok lr rd p2) by (unfold p2; destruct (p_itlb w); auto). clearbody p2.
  cbv zeta. destruct (p_walk w); auto. unfold retry_walk. destruct (pw_act p2) eqn:A; auto.
  destruct I2 as [A1 B EX C D F G Hh J]. constructor; cbn [set_st pw_c pw_st pw_act pw_own pw_id pw_l1 pw_drop]; auto.
  - rewrite C. destruct (pw_st p2); split; auto; congruence.
  - destruct (pw_st p2); cbn [waits_st]; tauto.
  - intros O X. apply G; auto. destruct (pw_st p2); auto.
Qed.
Lemma PI_finish ok lr rd g e w p : PI ok lr rd p -> (forall id, g = Some (OWalk, id) -> walk_read p <> None) ->
  (forall v, e = Some v -> v_owner v = OWalk -> waits_st (pw_st (apply_grant g p)) = true -> ok (pw_own p) = true ->
     let q := c_req (pw_c p (pw_own p)) in rd (pw_own p) (if second (pw_st p) then pte0_addr (pw_l1 p) (q_va q) else pte1_addr (q_satp q) (q_va q)) (v_data v)) ->
  PI ok lr rd (comb_finish g e w p).
Proof.
  intros I G E. unfold comb_finish. apply PI_wake. apply PI_event; [apply PI_grant; auto|]. intros v V O W K. cbv zeta.
  assert (X : pw_own (apply_grant g p) = pw_own p /\ pw_c (apply_grant g p) = pw_c p /\ pw_l1 (apply_grant g p) = pw_l1 p /\ second (pw_st (apply_grant g p)) = second (pw_st p)).
  { unfold apply_grant. destruct g as [[[] id]|]; auto. cbn [on_walk_granted set_st pw_own pw_c pw_l1 pw_st]. repeat split; auto. now destruct (pw_st p). }
  destruct X as (X1 & X2 & X3 & X4). rewrite X1, X2, X3, X4. rewrite X1 in K. apply (E v V O W K).
Qed.
Lemma PI_flush ok lr rd c p : PI ok lr rd p -> PI (fun d => client_eqb d c || ok d) lr rd (flush_client c p).
Proof.
  intros [A B EX C D F G H J]. unfold flush_client. cbn [set_c pw_act pw_own pw_st].
  assert (CC : forall d, pw_c (set_c c (mkwc false false (c_req (pw_c p c)) None) p) d = if client_eqb d c then mkwc false false (c_req (pw_c p c)) None else pw_c p d) by reflexivity.
  assert (L1 : forall d, (client_eqb d c || ok d)%bool = true -> client_eqb d c = false -> ok d = true) by (intros d X Y; rewrite Y in X; auto).
  destruct (pw_act p && client_eqb (pw_own p) c) eqn:E.
  - apply andb_true_iff in E. destruct E as [E1 E2]. apply ceq_true in E2.
    constructor; cbn [set_c pw_c pw_st pw_act pw_own pw_id pw_l1 pw_drop waits_st second]; try discriminate.
    + intros d O. destruct (client_eqb d c) eqn:E; [cbn; intros [X|[X|X]]; congruence|]. auto.
    + intros d. destruct (client_eqb d c) eqn:E; auto.
    + intros d. destruct (client_eqb d c) eqn:E; auto.
    + split; [discriminate|congruence].
    + intros d. destruct (client_eqb d c) eqn:E; [split; [discriminate|intros []; discriminate]|]. apply ceq_false in E. rewrite D. split; [intros []; congruence|intros []; discriminate].
    + tauto.
    + intros d r O. destruct (client_eqb d c) eqn:E; [discriminate|]. auto.
    + destruct (pw_st p); auto; apply w32_range.
  - assert (NO : pw_act p = true -> pw_own p <> c) by (intros X Y; rewrite X in E; cbn in E; apply ceq_false in E; auto).
    constructor; cbn [set_c pw_c pw_st pw_act pw_own pw_id pw_l1 pw_drop]; auto.
    + intros d O. destruct (client_eqb d c) eqn:E3; [cbn; intros [X|[X|X]]; congruence|]. auto.
    + intros d. destruct (client_eqb d c) eqn:E3; auto.
    + intros d. destruct (client_eqb d c) eqn:E3; auto.
    + intros d. destruct (client_eqb d c) eqn:E3; auto. apply ceq_true in E3. subst d. cbn [c_infl]. split; [discriminate|]. intros [X Y]. now destruct (NO X).
    + intros O X. assert (N : pw_own p <> c) by (apply NO, C; intros Z; rewrite Z in X; discriminate). apply ceq_false in N. rewrite N in *. cbn [orb] in O. auto.
    + intros d r O. destruct (client_eqb d c) eqn:E3; [discriminate|]. auto.
Qed.
Lemma PI_seq lr rd f p : PI (fun c => negb (f c)) lr rd p -> PI (fun _ => true) lr rd (pseq f p).
Proof.
  intros I. unfold pseq. cbv zeta.
  set (p1 := if f Dtlb then flush_client Dtlb p else p). assert (I1 : PI (fun d => client_eqb d Dtlb || negb (f d)) lr rd p1).
  { unfold p1. destruct (f Dtlb) eqn:E; [now apply PI_flush|]. eapply PI_weak; [| |exact I]; auto. intros c. destruct c; cbn; rewrite ?E; auto. }
  clearbody p1. destruct (f Itlb) eqn:E.
  - eapply PI_weak; [| |apply PI_flush; exact I1]; auto. intros c _. destruct c; auto.
  - eapply PI_weak; [| |exact I1]; auto. intros c _. destruct c; cbn; rewrite ?E; auto.
Qed.

(** ** With the routing block *)
Definition cur_addr (p : ptw) : Z :=
  let q := c_req (pw_c p (pw_own p)) in if second (pw_st p) then pte0_addr (pw_l1 p) (q_va q) else pte1_addr (q_satp q) (q_va q).
Definition pcore (p p' : ptw) : Prop :=
  pw_st p' = pw_st p /\ pw_act p' = pw_act p /\ pw_own p' = pw_own p /\ pw_l1 p' = pw_l1 p /\ pw_drop p' = pw_drop p /\ pw_id p' = pw_id p.
Lemma port_core c i p : pcore p (port_in c i p) /\ (forall d, d <> c -> pw_c (port_in c i p) d = pw_c p d) /\
  (forall d, c_infl (pw_c p d) = true -> c_req (pw_c (port_in c i p) d) = c_req (pw_c p d)) /\ (forall d, c_infl (pw_c (port_in c i p) d) = c_infl (pw_c p d)).
Proof.
  rewrite port_in_eq. destruct (mpart_w c i p) as (W1 & W2 & W3 & W4 & W5 & W6 & W7). set (p2 := mpart c i p) in *. clearbody p2. cbv zeta. unfold pcore, send_walk.
  destruct (i_wtake i), (i_wreq i) as [q|]; try (destruct (_ || _) eqn:E);
    (split; [repeat split; auto|split; [intros d N; apply ceq_false in N; cbn [set_c pw_c]; rewrite ?N; auto|split]]);
    intros d; cbn [set_c pw_c]; (destruct (client_eqb d c) eqn:X; [apply ceq_true in X; subst d|now rewrite W1]); cbn [c_req c_infl]; rewrite ?ceq_refl; cbn [c_req c_infl]; rewrite ?W1; auto.
  - intros I. cbn [set_c pw_c] in E. rewrite ceq_refl in E. cbn [c_pend c_infl] in E. rewrite W1, I, orb_true_r in E. discriminate.
  - intros I. rewrite W1, I, orb_true_r in E. discriminate.
Qed.
Definition begins (i : client -> pin) (p : ptw) : ptw := port_in Itlb (i Itlb) (port_in Dtlb (i Dtlb) p).
Lemma begins_core i p : pcore p (begins i p) /\ (forall d, c_infl (pw_c p d) = true -> c_req (pw_c (begins i p) d) = c_req (pw_c p d)).
Proof.
  unfold begins. destruct (port_core Dtlb (i Dtlb) p) as ((A1 & A2 & A3 & A4 & A5 & A6) & A7 & A8 & A9). destruct (port_core Itlb (i Itlb) (port_in Dtlb (i Dtlb) p)) as ((B1 & B2 & B3 & B4 & B5 & B6) & B7 & B8 & B9).
  split; [repeat split; congruence|]. intros d I. rewrite B8 by (now rewrite A9). auto.
Qed.
Lemma begin_wait i p : (pw_act p = true <-> pw_st p <> WIdle) -> (forall c, c_infl (pw_c p c) = true <-> (pw_act p = true /\ pw_own p = c)) ->
  waits_st (pw_st (comb_begin i p)) = true ->
  waits_st (pw_st p) = true /\ pw_id (comb_begin i p) = pw_id p /\ cur_addr (comb_begin i p) = cur_addr p /\ pw_own (comb_begin i p) = pw_own p.
Proof.
  intros A O W. unfold comb_begin in *. fold (begins i p) in *. destruct (begins_core i p) as ((B1 & B2 & B3 & B4 & B5 & B6) & B7). unfold select_owner in *.
  destruct (pw_act (begins i p)) eqn:E.
  - rewrite B1 in W. split; auto. split; auto. split; auto. unfold cur_addr. rewrite B1, B3, B4, B7; auto. apply O; split; congruence.
  - exfalso. assert (pw_st (begins i p) = WIdle) as S by (rewrite B1; destruct (pw_st p); auto; assert (pw_act p = true) by (apply A; discriminate); congruence).
    rewrite S in W. destruct (c_pend (pw_c (begins i p) (pw_rr (begins i p)))); [discriminate W|]. destruct (c_pend _); [discriminate W|]. rewrite S in W. discriminate.
Qed.

Lemma word_mono m0 x0 x x' a d : (exists l, y_hist (m_y x') = y_hist (m_y x) ++ l) -> word_since m0 x0 x a d -> word_since m0 x0 x' a d.
Proof.
  intros (l & E) (j & J1 & J2 & J3). exists j. rewrite E, app_length, firstn_app. replace (j - length (y_hist (m_y x)))%nat with 0%nat by lia. rewrite firstn_O, app_nil_r. repeat split; auto. lia.
Qed.
Lemma entry_mono m0 tr x i x' c a d : (exists l, y_hist (m_y (v_m x')) = y_hist (m_y (v_m x)) ++ l) -> i_wreq (vi_port i c) = None ->
  entry_read m0 tr x c a d -> entry_read m0 ((x, i) :: tr) x' c a d.
Proof. intros H N (z & k & I & W). exists z, k. cbn [since]. rewrite N. split; [now right|]. eapply word_mono; eauto. Qed.
Lemma vreach_m m0 tr x : vreach m0 tr x -> mreach m0 (v_m x).
Proof. induction 1; [constructor|]. destruct H0. econstructor; eauto. Qed.

Definition LK (x : vsys) : Prop :=
  t_owner (m_rt (v_m x)) = OWalk -> waits_st (pw_st (v_p x)) = true -> pw_id (v_p x) = Some (t_id (m_rt (v_m x))) /\ t_addr (m_rt (v_m x)) = w32 (cur_addr (v_p x)).
Definition VI (m0 : Z -> Z) (tr : list (vsys * vin)) (x : vsys) : Prop :=
  PI (fun _ => true) (fun c => last_req c tr) (entry_read m0 tr x) (v_p x) /\ LK x.

Lemma PI0 ok lr rd : PI ok lr rd ptw0.
Proof. constructor; cbn; try discriminate; try tauto; try lia; try (intros c _ [H|[H|H]]; congruence); try (split; [discriminate|congruence]); try (intros c; split; [discriminate|intros []; discriminate]). Qed.

Lemma walk_read_addr p a : walk_read p = Some a -> a = w32 (cur_addr p) /\ pw_act p = true /\ (pw_st p = L1Req \/ pw_st p = L2Req).
Proof.
  unfold walk_read, cur_addr. destruct (pw_act p); [|discriminate]. destruct (pw_st p) eqn:S; try discriminate; intros H; injection H as <-; cbn [second]; rewrite ?l1_addr_spec, ?l2_addr_spec; auto.
Qed.
(** The rest of the cycle, after the grant, seen from a walk that still waits. *)
Lemma event_wait e p : waits_st (pw_st (apply_event e p)) = true -> wpart p (apply_event e p) \/ (pw_st (apply_event e p) = pw_st p /\ pw_c (apply_event e p) = pw_c p /\ pw_own (apply_event e p) = pw_own p /\ pw_l1 (apply_event e p) = pw_l1 p /\ pw_id (apply_event e p) = pw_id p).
Proof.
  unfold apply_event. destruct e as [v|]; [|left; apply wpart_refl]. destruct (v_owner v); try (intros; left; apply wpart_refl); try (intros; left; apply set_m_w).
  unfold on_walk_resp. cbv zeta. destruct (_ && negb _); [intros; right; cbn; auto|]. destruct (negb _); [intros; left; apply wpart_refl|].
  destruct (pw_st p); try discriminate; repeat (destruct (_ || _)); try destruct (nz _); discriminate.
Qed.
Lemma wake_wait w p : waits_st (pw_st (apply_wakeups w p)) = true -> wpart p (apply_wakeups w p).
Proof.
  unfold apply_wakeups. assert (R : forall c p, wpart p (retry_mem c p)) by (intros c q; unfold retry_mem; destruct (mc_infl _); [apply set_m_w|apply wpart_refl]).
  set (p1 := if p_dtlb w then retry_mem Dtlb p else p). assert (W1 : wpart p p1) by (unfold p1; destruct (p_dtlb w); auto using wpart_refl). clearbody p1.
  set (p2 := if p_itlb w then retry_mem Itlb p1 else p1). assert (W2 : wpart p p2) by (unfold p2; destruct (p_itlb w); eauto using wpart_trans). clearbody p2.
  cbv zeta. destruct (p_walk w); auto. unfold retry_walk. destruct (pw_act p2) eqn:E; auto. cbn [set_st pw_st]. destruct (pw_st p2); discriminate.
Qed.
Lemma flush_wait c p : waits_st (pw_st (flush_client c p)) = true -> (pw_act p = true) -> wpart (set_c c (mkwc false false (c_req (pw_c p c)) None) p) (flush_client c p) /\ pw_own p <> c.
Proof.
  unfold flush_client. cbn [set_c pw_act pw_own pw_st]. intros W A. rewrite A in *. cbn [andb] in *. destruct (client_eqb (pw_own p) c) eqn:E; [discriminate W|]. apply ceq_false in E. split; auto. apply wpart_refl.
Qed.
Lemma flush_keep c p : waits_st (pw_st (flush_client c p)) = true -> pw_act p = true ->
  pw_act (flush_client c p) = true /\ pw_st (flush_client c p) = pw_st p /\ pw_own (flush_client c p) = pw_own p /\ pw_id (flush_client c p) = pw_id p /\ cur_addr (flush_client c p) = cur_addr p.
Proof.
  intros W A. destruct (flush_wait c p W A) as ((W1 & W2 & W3 & W4 & W5 & W6 & W7) & N). cbn [set_c pw_c pw_st pw_act pw_own pw_id pw_l1 pw_drop] in *. repeat split; try congruence.
  unfold cur_addr. rewrite W2, W4, W5, W1. apply ceq_false in N. rewrite N. reflexivity.
Qed.
Lemma flush_st c p : waits_st (pw_st (flush_client c p)) = true -> waits_st (pw_st p) = true.
Proof. unfold flush_client. cbn [set_c pw_act pw_own pw_st]. destruct (_ && _); [discriminate|auto]. Qed.
Lemma pseq_keep f p : waits_st (pw_st (pseq f p)) = true -> pw_act p = true ->
  waits_st (pw_st p) = true /\ pw_st (pseq f p) = pw_st p /\ pw_own (pseq f p) = pw_own p /\ pw_id (pseq f p) = pw_id p /\ cur_addr (pseq f p) = cur_addr p.
Proof.
  unfold pseq. cbv zeta. intros W A. set (p1 := if f Dtlb then flush_client Dtlb p else p) in *.
  assert (W1 : waits_st (pw_st p1) = true) by (destruct (f Itlb); [apply flush_st in W|]; auto).
  assert (K : pw_act p1 = true /\ pw_st p1 = pw_st p /\ pw_own p1 = pw_own p /\ pw_id p1 = pw_id p /\ cur_addr p1 = cur_addr p) by (unfold p1 in *; destruct (f Dtlb); [apply flush_keep; auto|auto 10]).
  clearbody p1. destruct K as (K1 & K2 & K3 & K4 & K5). split; [congruence|]. destruct (f Itlb); [|auto 10].
  destruct (flush_keep Itlb p1 W K1) as (L1 & L2 & L3 & L4 & L5). repeat split; congruence.
Qed.

Lemma VI_begin0 m0 tr x i x' : vreach m0 tr x -> VI m0 tr x -> vcycle x i x' ->
  PI (fun c => negb (vi_flush i c)) (fun c => last_req c ((x, i) :: tr)) (entry_read m0 ((x, i) :: tr) x') (comb_begin (vi_port i) (v_p x)).
Proof.
  intros R [I L] C. destruct C as [p1 ro g m' PO P1 MC]. cbn [v_m v_p] in *. set (ok := fun c => negb (vi_flush i c)).
  set (X' := mkv m' (pseq (vi_flush i) (comb_finish g (ro_ev ro) (ro_wake ro) p1))).
  assert (HH : exists l, y_hist (m_y (v_m X')) = y_hist (m_y (v_m x)) ++ l) by (destruct MC as [ti o y1 n y2 ro' wait rq g' rt LO ST CL RS RQ E F]; cbn [X' v_m m_y]; destruct (hist_mono _ _ _ _ ST) as [l1 E1]; destruct (fast_hist _ _ _ F) as [l2 E2]; exists (l1 ++ l2); rewrite E2, E1, app_assoc; reflexivity).
  pose proof (c57_served_exact _ _ _ _ _ MC) as [SV GE].
  assert (GW : forall id, g = Some (OWalk, id) -> exists a, walk_read p1 = Some a /\ t_owner (m_rt (v_m x)) <> OWalk /\ t_owner (m_rt m') = OWalk /\ t_addr (m_rt m') = a /\ t_id (m_rt m') = id).
  { intros id ->. destruct (served m') as [[o a]|] eqn:S; [|discriminate GE]. destruct o; try discriminate GE. injection GE as ->. symmetry in SV. apply winner_not_none in SV; [|apply requests_owners].
    destruct SV as (_ & N & IN). exists a. apply served_owner in S. destruct S as (S1 & S2 & _). repeat split; auto. unfold requests, asks in IN. cbn [rr_ic rr_walk rr_dtlb rr_itlb In] in IN. destruct IN as [E|[E|[E|[E|[]]]]]; try discriminate E. injection E as E. auto. }
  assert (TW : t_owner (m_rt m') = OWalk -> exists id, g = Some (OWalk, id)).
  { intros T. assert (S : served m' = Some (OWalk, t_addr (m_rt m'))) by (apply served_owner; repeat split; auto; discriminate). rewrite S in GE. eauto. }
  clear GE SV.
  (* comb_begin *)
  assert (I0 : PI ok (fun c => last_req c tr) (entry_read m0 tr x) (v_p x)) by (eapply PI_weak; [| |exact I]; auto).
  set (nw := entry_read m0 ((x, i) :: tr) X').
  assert (NM : forall c a d, entry_read m0 tr x c a d -> i_wreq (vi_port i c) = None -> nw c a d) by (intros c a d E N; eapply entry_mono; eauto).
  set (rd1 := fun c => match c with Dtlb => nw Dtlb | Itlb => entry_read m0 tr x Itlb end).
  assert (I1 : PI ok (lr_upd (fun c => last_req c tr) Dtlb (vi_port i Dtlb)) rd1 (port_in Dtlb (vi_port i Dtlb) (v_p x))).
  { eapply PI_port; [exact I0| | |].
    - intros d N. destruct d; [congruence|reflexivity].
    - intros a d E N. cbn [rd1]. auto.
    - intros N. destruct (PO Dtlb N) as [Y|Y]; auto. right. unfold ok. now rewrite Y. }
  assert (I2 : PI ok (lr_upd (lr_upd (fun c => last_req c tr) Dtlb (vi_port i Dtlb)) Itlb (vi_port i Itlb)) nw (begins (vi_port i) (v_p x))).
  { unfold begins. eapply PI_port; [exact I1| | |].
    - intros d N. destruct d; [reflexivity|congruence].
    - intros a d E N. auto.
    - intros N. destruct (PO Itlb N) as [Y|Y]; [left|right; unfold ok; now rewrite Y].
      unfold wready in *. destruct (port_core Dtlb (vi_port i Dtlb) (v_p x)) as (_ & K & _). rewrite K by discriminate. auto. }
  assert (I3 : PI ok (fun c => last_req c ((x, i) :: tr)) nw p1).
  { rewrite P1. unfold comb_begin. apply PI_select. eapply PI_weak; [| |exact I2]; auto. intros c O. split; auto. destruct c; cbn [last_req]; unfold lr_upd; cbn [client_eqb]; destruct (i_wreq _); auto. } rewrite <- P1. exact I3.
Qed.
Lemma VI_step m0 tr x i x' : vreach m0 tr x -> VI m0 tr x -> vcycle x i x' -> VI m0 ((x, i) :: tr) x'.
Proof.
  intros R [I L] C. destruct C as [p1 ro g m' PO P1 MC]. cbn [v_m v_p] in *. set (ok := fun c => negb (vi_flush i c)).
  set (X' := mkv m' (pseq (vi_flush i) (comb_finish g (ro_ev ro) (ro_wake ro) p1))).
  assert (HH : exists l, y_hist (m_y (v_m X')) = y_hist (m_y (v_m x)) ++ l) by (destruct MC as [ti o y1 n y2 ro' wait rq g' rt LO ST CL RS RQ E F]; cbn [X' v_m m_y]; destruct (hist_mono _ _ _ _ ST) as [l1 E1]; destruct (fast_hist _ _ _ F) as [l2 E2]; exists (l1 ++ l2); rewrite E2, E1, app_assoc; reflexivity).
  pose proof (c57_served_exact _ _ _ _ _ MC) as [SV GE].
  assert (GW : forall id, g = Some (OWalk, id) -> exists a, walk_read p1 = Some a /\ t_owner (m_rt (v_m x)) <> OWalk /\ t_owner (m_rt m') = OWalk /\ t_addr (m_rt m') = a /\ t_id (m_rt m') = id).
  { intros id ->. destruct (served m') as [[o a]|] eqn:S; [|discriminate GE]. destruct o; try discriminate GE. injection GE as ->. symmetry in SV. apply winner_not_none in SV; [|apply requests_owners].
    destruct SV as (_ & N & IN). exists a. apply served_owner in S. destruct S as (S1 & S2 & _). repeat split; auto. unfold requests, asks in IN. cbn [rr_ic rr_walk rr_dtlb rr_itlb In] in IN. destruct IN as [E|[E|[E|[E|[]]]]]; try discriminate E. injection E as E. auto. }
  assert (TW : t_owner (m_rt m') = OWalk -> exists id, g = Some (OWalk, id)).
  { intros T. assert (S : served m' = Some (OWalk, t_addr (m_rt m'))) by (apply served_owner; repeat split; auto; discriminate). rewrite S in GE. eauto. }
  clear GE SV.
  (* comb_begin *)
  assert (I0 : PI ok (fun c => last_req c tr) (entry_read m0 tr x) (v_p x)) by (eapply PI_weak; [| |exact I]; auto).
  set (nw := entry_read m0 ((x, i) :: tr) X').
  assert (NM : forall c a d, entry_read m0 tr x c a d -> i_wreq (vi_port i c) = None -> nw c a d) by (intros c a d E N; eapply entry_mono; eauto).
  set (rd1 := fun c => match c with Dtlb => nw Dtlb | Itlb => entry_read m0 tr x Itlb end).
  assert (I1 : PI ok (lr_upd (fun c => last_req c tr) Dtlb (vi_port i Dtlb)) rd1 (port_in Dtlb (vi_port i Dtlb) (v_p x))).
  { eapply PI_port; [exact I0| | |].
    - intros d N. destruct d; [congruence|reflexivity].
    - intros a d E N. cbn [rd1]. auto.
    - intros N. destruct (PO Dtlb N) as [Y|Y]; auto. right. unfold ok. now rewrite Y. }
  assert (I2 : PI ok (lr_upd (lr_upd (fun c => last_req c tr) Dtlb (vi_port i Dtlb)) Itlb (vi_port i Itlb)) nw (begins (vi_port i) (v_p x))).
  { unfold begins. eapply PI_port; [exact I1| | |].
    - intros d N. destruct d; [reflexivity|congruence].
    - intros a d E N. auto.
    - intros N. destruct (PO Itlb N) as [Y|Y]; [left|right; unfold ok; now rewrite Y].
      unfold wready in *. destruct (port_core Dtlb (vi_port i Dtlb) (v_p x)) as (_ & K & _). rewrite K by discriminate. auto. }
  assert (I3 : PI ok (fun c => last_req c ((x, i) :: tr)) nw p1).
  { rewrite P1. unfold comb_begin. apply PI_select. eapply PI_weak; [| |exact I2]; auto. intros c O. split; auto. destruct c; cbn [last_req]; unfold lr_upd; cbn [client_eqb]; destruct (i_wreq _); auto. }
  (* comb_finish *)
  assert (I4 : PI ok (fun c => last_req c ((x, i) :: tr)) nw (comb_finish g (ro_ev ro) (ro_wake ro) p1)).
  { apply PI_finish; auto.
    - intros id G. destruct (GW id G) as (a & W & _). congruence.
    - intros v V OW WT K. cbv zeta. change (nw (pw_own p1) (cur_addr p1) (v_data v)).
      inversion R as [E1 E2|tr0 x0 i0 x1 R0 C0 E1 E2]; subst.
      + exfalso. cbn [vsys0 v_m] in MC. destruct MC as [ti o y1 n y2 ro' wait rq g' rt LO ST CL RS RQ E F]. unfold comb_response in RS. cbn [msys0 m_rt rst0 t_owner owner_eqb negb andb] in RS.
        destruct (la_ld1 _); injection RS as <- <-; discriminate V.
      + destruct C0 as [p0 ro0 g0 m1 PO0 P0 MC0]. subst p0. cbn [v_m v_p] in *.
        destruct (c57_event_exact m0 _ _ _ _ _ _ _ _ _ _ (vreach_m _ _ _ R0) MC0 MC V) as (S & _ & WS). rewrite OW in S. apply served_owner in S. destruct S as (S1 & S2 & _).
        assert (NG : apply_grant g (comb_begin (vi_port i) (pseq (vi_flush i0) (comb_finish g0 (ro_ev ro0) (ro_wake ro0) (comb_begin (vi_port i0) (v_p x0))))) = comb_begin (vi_port i) (pseq (vi_flush i0) (comb_finish g0 (ro_ev ro0) (ro_wake ro0) (comb_begin (vi_port i0) (v_p x0)))) \/ pw_st (apply_grant g (comb_begin (vi_port i) (pseq (vi_flush i0) (comb_finish g0 (ro_ev ro0) (ro_wake ro0) (comb_begin (vi_port i0) (v_p x0)))))) = pw_st (comb_begin (vi_port i) (pseq (vi_flush i0) (comb_finish g0 (ro_ev ro0) (ro_wake ro0) (comb_begin (vi_port i0) (v_p x0)))))).
        { unfold apply_grant. destruct g as [[[] id]|]; auto. destruct (GW id eq_refl) as (a & _ & N & _). congruence. }
        set (pz := pseq (vi_flush i0) (comb_finish g0 (ro_ev ro0) (ro_wake ro0) (comb_begin (vi_port i0) (v_p x0)))) in *.
        assert (WB : waits_st (pw_st (comb_begin (vi_port i) pz)) = true) by (destruct NG as [NG|NG]; rewrite NG in WT; auto).
        destruct (begin_wait (vi_port i) pz (pi_act _ _ _ _ I) (pi_own _ _ _ _ I) WB) as (B1 & B2 & B3 & B4). rewrite B4 in *.
        destruct (L S1 B1) as [L1 L2]. rewrite B3. cbn [v_m v_p] in *. unfold nw, entry_read. rewrite <- L2, S2.
        assert (NR : i_wreq (vi_port i (pw_own pz)) = None).
        { destruct (i_wreq (vi_port i (pw_own pz))) eqn:Q; auto. exfalso. destruct (PO (pw_own pz)) as [Y|Y]; [congruence| |unfold ok in K; rewrite Y in K; discriminate].
          unfold wready in Y. assert (c_infl (pw_c pz (pw_own pz)) = true) as X by (apply (pi_own _ _ _ _ I); split; auto; apply (pi_act _ _ _ _ I); intros Z; rewrite Z in B1; discriminate). rewrite X in Y. rewrite andb_false_r in Y. discriminate. }
        exists x0, i0. cbn [since]. rewrite NR. split; [right; now left|exact WS]. }
  split; [apply PI_seq; exact I4|].
  (* the link *)
  intros T W. cbn [X' v_m v_p] in *. destruct (TW T) as [id G]. destruct (GW id G) as (a & WR & TN & _ & TA & TI).
  apply walk_read_addr in WR. destruct WR as (WA & AC & RQ).
  assert (NE : match ro_ev ro with Some v => v_owner v <> OWalk | None => True end).
  { destruct (ro_ev ro) as [v|] eqn:V; auto. intros OW. destruct MC as [ti o y1 n y2 ro' wait rq g' rt LO ST CL RS RQ' E F]. unfold comb_response in RS.
    destruct (la_ld1 _) as [q|]; [destruct (_ && _); [destruct (lp_replay q)|]|]; injection RS as <- <-; cbn [ro_ev] in V; try discriminate V; destruct (owner_eqb _ OIcache); try discriminate V; injection V as <-; cbn [v_owner] in OW; congruence. }
  assert (EV : wpart (apply_grant g p1) (apply_event (ro_ev ro) (apply_grant g p1))).
  { unfold apply_event. destruct (ro_ev ro) as [v|]; [|apply wpart_refl]. destruct (v_owner v); try apply wpart_refl; try apply set_m_w. congruence. }
  destruct (pseq_keep _ _ W) as (K0 & K1 & K2 & K3 & K4).
  { apply (pi_act _ _ _ _ I4). unfold pseq in W. intros Z. assert (X : forall c p, pw_st p = WIdle -> pw_st (flush_client c p) = WIdle) by (intros c p Y; unfold flush_client; cbn [set_c pw_act pw_own pw_st]; destruct (_ && _); auto).
    cbv zeta in W. destruct (vi_flush i Dtlb), (vi_flush i Itlb); rewrite ?X in W by (rewrite ?X; auto); try discriminate W; rewrite Z in W; discriminate W. }
  unfold comb_finish in *. pose proof (wake_wait _ _ K0) as WK. destruct (wpart_trans _ _ _ EV WK) as (V1 & V2 & V3 & V4 & V5 & V6 & V7).
  split; [rewrite K3, V7, G; cbn [apply_grant on_walk_granted set_st pw_id]; congruence|]. rewrite K4, TA, WA. apply (f_equal w32). unfold cur_addr. rewrite V1, V2, V4, V5, G. cbn [apply_grant on_walk_granted set_st pw_c pw_own pw_l1 pw_st].
  destruct RQ as [-> | ->]; reflexivity.
Qed.
Lemma vreach_VI m0 tr x : vreach m0 tr x -> VI m0 tr x.
Proof. induction 1; [split; [apply PI0|intros T; discriminate T]|eapply VI_step; eauto]. Qed.
Lemma VI_begin m0 tr x i x' : vreach m0 tr x -> vcycle x i x' ->
  PI (fun c => negb (vi_flush i c)) (fun c => last_req c ((x, i) :: tr)) (entry_read m0 ((x, i) :: tr) x') (comb_begin (vi_port i) (v_p x)) /\ VI m0 tr x.
Proof. intros R C. split; [|now apply vreach_VI]. eapply VI_begin0; eauto. now apply vreach_VI. Qed.
