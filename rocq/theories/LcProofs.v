(** C77: the joint invariant of the reorder buffer, the store queue and the load queue. *)
From Verif Require Import Base BaseLemmas Ring ExecModel RobModel RobSpec RobProofs RobProps MemModel MemSpec MemProofs LsuModel LsuStq LsuQ LsuRun LsuSpec LsuHist LsuSquashProps LdqInv LdqPhase LdqPhase2 LdqPhase3 LdqMain LdqProps LsuCycle LvStab LvLoads LvStores LvMem LvMain RlLsu RlModel RlProofs LcSc LcModel.
Local Open Scope nat_scope.
Ltac Zify.zify_post_hook ::= Z.div_mod_to_equations.

(** *** The place of an instruction among the stores *)
Lemma before_le i q : before i q <= length (stores q).
Proof. induction q as [|e t IH]; [cbn; lia|]. cbn [before]. rewrite stores_cons. destruct (q_idx e =? i); [lia|]. destruct (is_st (q_uop e)); cbn [length]; lia. Qed.
Lemma before_map f i q : (forall e, q_idx (f e) = q_idx e /\ q_uop (f e) = q_uop e) -> before i (map f q) = before i q.
Proof. intros H. induction q as [|e t IH]; [reflexivity|]. cbn [map before]. destruct (H e) as [-> ->]. now rewrite IH. Qed.
Lemma before_app_r i a b : ~ In i (map q_idx a) -> before i (a ++ b) = length (stores a) + before i b.
Proof.
  induction a as [|e t IH]; intros H; [reflexivity|]. cbn [app before map] in *. rewrite stores_cons. assert (N : (q_idx e =? i) = false) by (apply Nat.eqb_neq; intros X; apply H; now left). rewrite N, IH by (intros X; apply H; now right).
  destruct (is_st (q_uop e)); cbn [length]; lia.
Qed.
Lemma before_app_l i a b : In i (map q_idx a) -> before i (a ++ b) = before i a.
Proof. induction a as [|e t IH]; intros H; [destruct H|]. cbn [app before map] in *. destruct (q_idx e =? i) eqn:E; [reflexivity|]. rewrite IH; [reflexivity|]. destruct H as [H|H]; [apply Nat.eqb_neq in E; contradiction|exact H]. Qed.
Lemma before_upto i x q : In i (map q_idx (upto x q)) -> before i (upto x q) = before i q.
Proof.
  induction q as [|e t IH]; intros H; [reflexivity|]. cbn [upto before map] in *. destruct (q_idx e =? x).
  - cbn [map q_idx before] in *. destruct H as [H|[]]. now rewrite H, Nat.eqb_refl.
  - cbn [map before] in *. destruct (q_idx e =? i) eqn:E; [reflexivity|]. rewrite IH; [reflexivity|]. destruct H as [H|H]; [apply Nat.eqb_neq in E; contradiction|exact H].
Qed.
Lemma hit_in i q : existsb (fun x => q_idx x =? i) q = true <-> In i (map q_idx q).
Proof. rewrite existsb_exists, in_map_iff. split; intros (x & A & B); exists x; [apply Nat.eqb_eq in B|]; split; auto. now apply Nat.eqb_eq. Qed.
Lemma NoDup_in q a b : NoDup (map q_idx q) -> In a q -> In b q -> q_idx a = q_idx b -> a = b.
Proof. intros N A B E. apply In_nth_error in A as (i & A). apply In_nth_error in B as (j & B). pose proof (idx_inj q i j a b N A B E). subst j. congruence. Qed.
Lemma nodup_r {A} (a b : list A) : NoDup (a ++ b) -> NoDup b. Proof. induction a as [|x a IH]; intros H; [exact H|]. inversion H; auto. Qed.
Lemma loads_in q e : In e (loads q) <-> In e q /\ is_ld (q_uop e) = true. Proof. apply filter_In. Qed.
Lemma ld_not_sc u : is_ld u = true -> is_sc u = false.
Proof. unfold is_ld, is_sc, it_eqb. destruct (u_type u); cbn; try discriminate; try reflexivity. intros H. now apply negb_true_iff in H. Qed.
Lemma upto_keeps x q e : In e (upto x q) -> exists e0, In e0 q /\ q_idx e = q_idx e0 /\ q_uop e = q_uop e0 /\ q_reports e = q_reports e0.
Proof. intros H. apply In_nth_error in H as (j & H). destruct (upto_same x q) as (_ & _ & C). destruct (C j e H) as (e0 & A & B). exists e0. split; [eapply nth_error_In; exact A|exact B]. Qed.

(** *** The instructions in flight after a cycle *)
Definition kept (q : list qent) (r : rob) (ri : rob_in) : list qent := match RobModel.i_mispred ri with Some x => upto x q | None => skipn (length (committed r ri)) q end.
Lemma q_shape gt r q l g ri li : JI r q l g -> jbase gt r q l g ri li -> b_flush (broadcast r ri) = false ->
  q_step q r ri = map (add_reports (i_wb ri)) (kept q r ri) ++ arrivals (enq_ptr r) 0 (i_fire ri) /\
  (forall x, RobModel.i_mispred ri = Some x -> committed r ri = [] /\ arrivals (enq_ptr r) 0 (i_fire ri) = []).
Proof.
  intros J E F. assert (MM : forall x, RobModel.i_mispred ri = Some x -> committed r ri = [] /\ arrivals (enq_ptr r) 0 (i_fire ri) = []).
  { intros x M. split; [now apply (c04_mispredict_holds_commit r q ri x (ji_r _ _ _ _ J) M)|]. apply no_arrivals, (tk_no_fire _ _ (je_traffic _ _ _ _ _ _ _ E)). unfold is_mis. now rewrite M. }
  split; [|exact MM]. unfold q_step, kept. rewrite F. destruct (RobModel.i_mispred ri) as [x|] eqn:M.
  - destruct (MM x eq_refl) as [C A]. rewrite C, A. cbn [length skipn]. rewrite upto_map, app_nil_r. now destruct (rob_ready r).
  - destruct (rob_ready r) eqn:RR; [reflexivity|]. rewrite (no_arrivals _ _ _ (je_ready _ _ _ _ _ _ _ E RR)). now rewrite app_nil_r.
Qed.
Lemma q_flush q r ri : b_flush (broadcast r ri) = true -> q_step q r ri = []. Proof. intros F. unfold q_step. now rewrite F. Qed.
Lemma kept_from q r ri e : In e (kept q r ri) -> exists e0, In e0 q /\ q_idx e = q_idx e0 /\ q_uop e = q_uop e0 /\ q_reports e = q_reports e0.
Proof. unfold kept. destruct (RobModel.i_mispred ri) as [x|]; [apply upto_keeps|]. intros H. exists e. split; [|auto]. rewrite <- (firstn_skipn (length (committed r ri)) q). apply in_app_iff. now right. Qed.

Section Step.
Variable (r : rob) (q : list qent) (l : lsu) (g : gs) (ri : rob_in) (li : lin).
Hypothesis (J : JI r q l g) (E : jenv r q l g ri li).
Notation n := (length (commits r ri)).
Notation new := (arrivals (enq_ptr r) 0 (i_fire ri)).
Lemma q_nodup : NoDup (map q_idx q). Proof. apply (c03_indices_unique r q (ji_r _ _ _ _ J)). Qed.
Lemma q'_nodup : NoDup (map q_idx (q_step q r ri)). Proof. apply (c03_indices_unique (rob_step r ri)). apply reach_step; [exact (ji_r _ _ _ _ J)|exact (je_traffic _ _ _ _ _ _ _ E)]. Qed.
Lemma n_len : length (stores (firstn (length (committed r ri)) q)) = n.
Proof. destruct (commit_facts r q l g ri li J E) as (A & _ & NL & _). rewrite A, firstn_length. lia. Qed.
(** An instruction of the next cycle is an old one with the new reports at the same place, or a new one. *)
Lemma q'_in e' : In e' (q_step q r ri) -> b_flush (broadcast r ri) = false /\
  ((exists e, In e q /\ ~ In e (firstn (length (committed r ri)) q) /\ q_idx e' = q_idx e /\ q_uop e' = q_uop e /\ q_reports e' = q_reports e ++ filter (fun w => w_idx w =? q_idx e) (i_wb ri) /\
      before (q_idx e) q = n + before (q_idx e) (q_step q r ri)) \/
   (In e' new /\ q_reports e' = [] /\ n + before (q_idx e') (q_step q r ri) = length (stores q) + before (q_idx e') new)).
Proof.
  intros H. destruct (b_flush (broadcast r ri)) eqn:F; [rewrite (q_flush _ _ _ F) in H; destruct H|]. split; [reflexivity|]. pose proof q_nodup as ND. pose proof q'_nodup as ND'. destruct (q_shape _ r q l g ri li J E F) as [QE MM]. rewrite QE in *.
  assert (BM : forall i x, before i (map (add_reports (i_wb ri)) x) = before i x) by (intros; apply before_map; intros; split; reflexivity).
  destruct (commit_facts r q l g ri li J E) as (_ & B & NL & _). pose proof n_len as NN.
  apply in_app_iff in H as [H|H].
  - left. apply in_map_iff in H as (k & <- & K). assert (IK : In (q_idx k) (map q_idx (map (add_reports (i_wb ri)) (kept q r ri)))) by (rewrite map_map; apply in_map_iff; exists k; split; [reflexivity|exact K]).
    unfold kept in K. destruct (RobModel.i_mispred ri) as [x|] eqn:M.
    + destruct (upto_keeps _ _ _ K) as (e & I & E1 & E2 & E3). exists e. destruct (MM x eq_refl) as [C0 _]. split; [exact I|]. split; [rewrite C0; intros []|]. cbn [add_reports q_idx q_uop q_reports]. split; [exact E1|]. split; [exact E2|]. split; [now rewrite E3, E1|].
      rewrite <- E1, before_app_l, BM by exact IK. unfold kept. rewrite M, before_upto; [|now apply in_map]. unfold commits. now rewrite C0.
    + exists k. assert (I : In k q) by (rewrite <- (firstn_skipn (length (committed r ri)) q); apply in_app_iff; now right).
      assert (NI : ~ In (q_idx k) (map q_idx (firstn (length (committed r ri)) q))).
      { intros X. rewrite <- (firstn_skipn (length (committed r ri)) q), map_app in ND. apply (in_map q_idx) in K. clear - ND X K. induction (map q_idx (firstn _ q)) as [|a t IH]; [destruct X|]. cbn in ND. inversion ND; subst. destruct X as [->|X]; [apply H1, in_app_iff; now right|now apply IH]. }
      split; [exact I|]. split; [intros X; apply NI; now apply in_map|]. do 3 (split; [reflexivity|]). rewrite before_app_l, BM by exact IK. unfold kept. rewrite M. rewrite <- (firstn_skipn (length (committed r ri)) q) at 1. rewrite before_app_r by exact NI. lia.
  - right. split; [exact H|]. split; [exact (arrivals_fresh _ _ _ _ H)|]. rewrite before_app_r.
    + unfold kept. destruct (RobModel.i_mispred ri) as [x|] eqn:M; [destruct (MM x eq_refl) as [_ C0]; rewrite C0 in H; destruct H|]. rewrite (stores_map (add_reports (i_wb ri))), map_length, B, skipn_length by reflexivity. lia.
    + intros X. rewrite map_app in ND'. apply (in_map q_idx) in H. clear - ND' X H. induction (map q_idx (map _ (kept q r ri))) as [|a t IH]; [destruct X|]. cbn in ND'. inversion ND'; subst. destruct X as [->|X]; [apply H2, in_app_iff; now right|now apply IH].
Qed.
Lemma q'_old e : In e q -> b_flush (broadcast r ri) = false -> ~ In e (firstn (length (committed r ri)) q) -> (forall x, RobModel.i_mispred ri = Some x -> existsb (fun y => q_idx y =? q_idx e) (upto x q) = true) ->
  exists k, In k (kept q r ri) /\ q_idx k = q_idx e /\ q_uop k = q_uop e /\ q_reports k = q_reports e /\ In (add_reports (i_wb ri) k) (q_step q r ri).
Proof.
  intros I F NC K. destruct (q_shape _ r q l g ri li J E F) as [QE MM]. rewrite QE.
  assert (X : exists k, In k (kept q r ri) /\ q_idx k = q_idx e /\ q_uop k = q_uop e /\ q_reports k = q_reports e).
  { unfold kept. destruct (RobModel.i_mispred ri) as [x|] eqn:M.
    - specialize (K x eq_refl). apply hit_in in K. apply in_map_iff in K as (k & K1 & K2). destruct (upto_keeps _ _ _ K2) as (e0 & I0 & E1 & E2 & E3). assert (e0 = e) by (apply (NoDup_in q); [exact q_nodup|exact I0|exact I|congruence]). subst e0. exists k. auto.
    - exists e. split; [|auto]. rewrite <- (firstn_skipn (length (committed r ri)) q) in I. apply in_app_iff in I as [I|I]; [contradiction|exact I]. }
  destruct X as (k & K1 & K2 & K3 & K4). exists k. do 4 (split; [assumption|]). apply in_app_iff. left. now apply in_map.
Qed.
Lemma q'_new e : In e new -> b_flush (broadcast r ri) = false -> In e (q_step q r ri).
Proof. intros I F. destruct (q_shape _ r q l g ri li J E F) as [-> _]. apply in_app_iff. now right. Qed.
Lemma new_fresh e e0 : In e new -> In e0 (kept q r ri) -> b_flush (broadcast r ri) = false -> q_idx e <> q_idx e0.
Proof.
  intros A B F X. pose proof q'_nodup as ND. destruct (q_shape _ r q l g ri li J E F) as [QE _]. rewrite QE, map_app in ND. apply (in_map q_idx) in A.
  assert (B' : In (q_idx e0) (map q_idx (map (add_reports (i_wb ri)) (kept q r ri)))) by (rewrite map_map; apply in_map_iff; exists e0; split; [reflexivity|exact B]). rewrite X in A. clear - ND A B'.
  induction (map q_idx (map _ (kept q r ri))) as [|a t IH]; [destruct B'|]. cbn in ND. inversion ND; subst. destruct B' as [->|B']; [apply H1, in_app_iff; now right|now apply IH].
Qed.
Lemma kept_place k : In k (kept q r ri) -> b_flush (broadcast r ri) = false -> before (q_idx k) q = n + before (q_idx k) (q_step q r ri).
Proof.
  intros K F. destruct (q_shape _ r q l g ri li J E F) as [QE _]. assert (I : In (add_reports (i_wb ri) k) (q_step q r ri)) by (rewrite QE; apply in_app_iff; left; now apply in_map).
  destruct (q'_in _ I) as [_ [(e & _ & _ & X & _ & _ & Y)|(X & _)]]; cbn [add_reports q_idx] in *; [now rewrite X|]. exfalso. exact (new_fresh _ k X K F eq_refl).
Qed.
Lemma before_ge e : In e q -> ~ In e (firstn (length (committed r ri)) q) -> n <= before (q_idx e) q.
Proof.
  intros I NI. rewrite <- n_len. rewrite <- (firstn_skipn (length (committed r ri)) q) at 2. rewrite before_app_r; [lia|]. intros X. apply in_map_iff in X as (x & X1 & X2). apply NI. assert (x = e) by (apply (NoDup_in q); [exact q_nodup|exact (in_firstn _ _ _ X2)|exact I|exact X1]). now subst x.
Qed.
Lemma before_in e : In e (firstn (length (committed r ri)) q) -> before (q_idx e) q <= n.
Proof. intros I. rewrite <- n_len. rewrite <- (firstn_skipn (length (committed r ri)) q) at 1. rewrite before_app_l by now apply in_map. apply before_le. Qed.
End Step.
Lemma int_flush r q ri : reach r q -> b_interrupt (broadcast r ri) = true -> b_flush (broadcast r ri) = true.
Proof.
  intros R BI. destruct (RobProofs.reach_inv r _ R) as (m & WF & _). clear R. unfold broadcast in *. pose proof (decide_decided r m ri WF) as D. destruct D as [|M IR FS DH A|k v M IR Fv|k v M IR Fv C G]; cbn [b_interrupt] in BI; try discriminate.
  - rewrite orb_true_r. repeat match goal with |- context [if ?x then _ else _] => destruct x end; reflexivity.
  - exfalso. revert BI. repeat match goal with |- context [if ?x then _ else _] => destruct x end; cbn; discriminate.
Qed.

(** *** The invariant *)
Definition busyl (l : lsu) (j : nat) : Prop := l_st (lq (ld l) j) <> LEmpty.
Record KI (W : Z -> Z) (r : rob) (q : list qent) (l : lsu) (g : gs) (pend : list dlreq) (pos : nat -> nat) (c : nat) (acc : nat -> bool * Z * Z) : Prop := {
  ki_j : JI r q l g; ki_c : length (g_hist g) = c; ki_l : lreach l pend; ki_v : VI W l g pend pos;
  ki_q : forall j, busyl l j -> exists e, In e (loads q) /\ q_idx e = l_rob (lq (ld l) j) /\ have e = false;
  ki_inj : forall j j', busyl l j -> busyl l j' -> l_rob (lq (ld l) j) = l_rob (lq (ld l) j') -> j = j';
  ki_p : forall j, LvLoads.live (lq (ld l) j) = true -> pos j = nth_store c q l j;
  ki_s : forall e, In e (loads q) -> let p := c + before (q_idx e) q in stq_of (q_uop e) = p mod 16 /\ flag_of (q_uop e) = Nat.odd (p / 16) /\ Z.testbit (u_expect (q_uop e)) 0 = true;
  ki_x : forall j e, nth_error (stores q) j = Some e -> s_lrsc (ent (st l) (scc (st l) + j)) = true -> is_sc (q_uop e) = true;
  ki_d : forall e w, In e (loads q) -> In w (q_reports e) -> group (w_port w) = 0 -> kind (w_port w) = P_load /\
    (w_pf_load w = false -> forall pa f3, acc (q_idx e) = (false, pa, f3) -> src W g (st l) (c + before (q_idx e) q) pa f3 (w_result w)) }.

Section Cycle.
Variable (W : Z -> Z) (r : rob) (q : list qent) (l : lsu) (g : gs) (pend : list dlreq) (pos : nat -> nat) (c : nat) (acc : nat -> bool * Z * Z) (ri : rob_in) (li : lin).
Hypothesis (I : KI W r q l g pend pos c acc) (E : kenv W r q l g pend pos c ri li).
Notation n := (length (commits r ri)).
Notation np := (nth_store c q l).
Let J := ki_j _ _ _ _ _ _ _ _ _ I.
Lemma k_nodup : NoDup (map q_idx q). Proof. apply (c03_indices_unique r q (ji_r _ _ _ _ J)). Qed.
Lemma load_is e e' : In e (loads q) -> In e' q -> q_idx e = q_idx e' -> e = e'.
Proof. intros A B X. apply loads_in in A as [A _]. exact (NoDup_in q e e' k_nodup A B X). Qed.
Lemma sc_no_load e j : In e (stores q) -> is_sc (q_uop e) = true -> busyl l j -> l_rob (lq (ld l) j) <> q_idx e.
Proof. intros A SC B X. destruct (ki_q _ _ _ _ _ _ _ _ _ I j B) as (x & X1 & X2 & _). apply stores_in in A as [A _]. assert (x = e) by (apply load_is; [exact X1|exact A|congruence]). subst x. apply loads_in in X1 as [_ X1]. apply ld_not_sc in X1. congruence. Qed.
Lemma kjenv : jenv r q l g ri li.
Proof. constructor; [exact (ke_base _ _ _ _ _ _ _ _ _ _ E)|]. intros e x A B C. exact (sc_no_load e x A B C). Qed.
Let JE := kjenv.
Lemma c_at : c = g_b g + scc (st l).
Proof. destruct (gi_hist _ _ (vi_g _ _ _ _ _ (ki_v _ _ _ _ _ _ _ _ _ I))) as (a & H & _). rewrite <- (ki_c _ _ _ _ _ _ _ _ _ I). exact (hi_len _ _ _ _ _ H). Qed.
Lemma uncommitted e : In e (loads q) -> have e = false -> b_flush (broadcast r ri) = false -> ~ In e (firstn (length (committed r ri)) q).
Proof.
  intros A B F IC. pose proof (ji_r _ _ _ _ J) as R. destruct (b_interrupt (broadcast r ri)) eqn:BI; [rewrite (int_flush r q ri R BI) in F; discriminate|].
  destruct (ki_s _ _ _ _ _ _ _ _ _ I e A) as (_ & _ & X). destruct (c04_committed_is_complete r q ri e R IC BI 0 X) as (w & W1 & W2). assert (Y : have e = true) by (unfold have, reported; apply existsb_exists; exists w; split; [exact W1|now apply Nat.eqb_eq]). congruence.
Qed.
Lemma busy_lt j : busyl l j -> j < 16.
Proof. intros B. destruct (le_lt_dec 16 j) as [L|L]; [|exact L]. exfalso. apply B. exact (LI_hi [] _ j (iv_l _ _ (vi_l _ _ _ _ _ (ki_v _ _ _ _ _ _ _ _ _ I))) L). Qed.
Lemma live_busyl j : LvLoads.live (lq (ld l) j) = true -> busyl l j. Proof. intros L X. unfold LvLoads.live in L. rewrite X in L. discriminate. Qed.
Lemma asks_busyl j : asks li j = true -> busyl l j /\ exists x, In x (i_ldr li) /\ lr_idx x = j /\ lr_rob x = l_rob (lq (ld l) j).
Proof. intros A. apply asks_in in A as (x & X & <-). destruct (proj2 (ev_lr _ _ _ (ke_lenv _ _ _ _ _ _ _ _ _ _ E)) x X) as (_ & Y & Z0 & _). split; [unfold busyl; congruence|]. exists x. auto. Qed.
Lemma np_bounds j : busyl l j -> g_b g + scc (st l) <= np j <= g_b g + sn (st l) /\ (LsuModel.i_flush li = false -> g_b g + scc (st l) + n <= np j).
Proof.
  intros B. destruct (ki_q _ _ _ _ _ _ _ _ _ I j B) as (e & E1 & E2 & E3). unfold nth_store. rewrite <- E2, c_at. pose proof (before_le (q_idx e) q). pose proof (ji_len _ _ _ _ J). split; [lia|]. intros F. rewrite (je_flush _ _ _ _ _ _ _ JE) in F.
  pose proof (before_ge r q l g ri li J JE e (proj1 (proj1 (loads_in _ _) E1)) (uncommitted e E1 E3 F)). lia.
Qed.
Lemma koenv : oenv W g l pend pos li n np.
Proof.
  constructor.
  - exact (ke_once _ _ _ _ _ _ _ _ _ _ E).
  - intros x X. cbv zeta. assert (AS : asks li (lr_idx x) = true) by (apply asks_in; eauto). destruct (asks_busyl _ AS) as (B & _). destruct (np_bounds _ B) as [B1 B2]. split; [exact B1|]. split; [exact B2|].
    destruct (proj2 (ev_lr _ _ _ (ke_lenv _ _ _ _ _ _ _ _ _ _ E)) x X) as (_ & _ & Z0 & _). destruct (ki_q _ _ _ _ _ _ _ _ _ I _ B) as (e & E1 & E2 & _). destruct (ke_req _ _ _ _ _ _ _ _ _ _ E x e X E1 ltac:(congruence)) as [-> ->].
    destruct (ki_s _ _ _ _ _ _ _ _ _ I e E1) as (S1 & S2 & _). unfold nth_store. rewrite <- E2. split; assumption.
  - intros F j _ L. rewrite (ki_p _ _ _ _ _ _ _ _ _ I j L). now apply np_bounds; [apply live_busyl|].
  - intros M j _ LA NH k Kk. rewrite (je_mis _ _ _ _ _ _ _ JE) in M. unfold is_mis in M. destruct (RobModel.i_mispred ri) as [x|] eqn:MI; [clear M|discriminate].
    assert (B : busyl l j) by (destruct LA as [L|A]; [now apply live_busyl|now apply asks_busyl]).
    assert (PE : pos1 li np pos j = np j) by (unfold pos1; destruct (asks li j) eqn:A; [reflexivity|]; destruct LA as [L|A']; [now apply (ki_p _ _ _ _ _ _ _ _ _ I)|congruence]). rewrite PE in Kk.
    pose proof (ke_kill _ _ _ _ _ _ _ _ _ _ E x j MI B) as KL. rewrite NH in KL. symmetry in KL. apply negb_false_iff in KL. apply hit_in in KL.
    destruct (je_kill _ _ _ _ _ _ _ JE x MI) as [K1 K2]. destruct (Nat.lt_ge_cases k (scc (st l))) as [L|L]; [now apply K1|].
    unfold nth_store in Kk. rewrite <- (before_upto _ _ _ KL), c_at in Kk. pose proof (before_le (l_rob (lq (ld l) j)) (upto x q)) as BL. destruct (upto_stores x q) as [UL _].
    assert (KL2 : k - scc (st l) < length (stores q)) by lia. apply nth_error_Some in KL2. destruct (nth_error (stores q) (k - scc (st l))) as [s|] eqn:NS; [|congruence].
    pose proof (K2 _ s NS) as Y. replace (scc (st l) + (k - scc (st l))) with k in Y by lia. rewrite Y, (upto_hit x q k_nodup _ s NS). apply negb_false_iff, Nat.ltb_lt. lia.
  - exact (ke_mem _ _ _ _ _ _ _ _ _ _ E).
  - exact (ke_plain _ _ _ _ _ _ _ _ _ _ E).
Qed.
(** What a report without the store-address flag is. *)
Lemma report_is o : In o (o_wb (snd (lsu_cycle l li))) -> w_sta o = false -> (exists e, In e (stores q) /\ is_sc (q_uop e) = true /\ q_idx e = w_rob o) \/
  (exists j, busyl l j /\ l_rob (lq (ld l) j) = w_rob o /\ ~ busyl (fst (lsu_cycle l li)) j /\
    (w_pfl o = false -> l_mmio (lq (ld l) j) = false -> src W g (st l) (np j) (l_pa (lq (ld l) j)) (l_f3 (lq (ld l) j)) (w_res o))).
Proof.
  intros IO SF. pose proof (ki_v _ _ _ _ _ _ _ _ _ I) as VV. pose proof (ke_lenv _ _ _ _ _ _ _ _ _ _ E) as EV. pose proof koenv as OE. pose proof (senv_of r q l g ri li J JE) as SE. destruct (commit_facts r q l g ri li J JE) as (_ & _ & NL & _ & _ & TK).
  destruct (cyc l pend li (vi_l _ _ _ _ _ VV) EV) as (d3 & is & C). pose proof (cy_w _ _ _ _ _ _ C) as CW. rewrite CW in IO. apply in_app_iff in IO as [IO|IO].
  - left. destruct (store_wbs_names g l li n o (vi_g _ _ _ _ _ VV) SE (ji_w _ _ _ _ J) IO) as (k & K1 & K2 & K3). rewrite TK in K1. specialize (K3 SF). pose proof (ji_len _ _ _ _ J) as LN.
    assert (KL : k - scc (st l) < length (stores q)) by lia. apply nth_error_Some in KL. destruct (nth_error (stores q) (k - scc (st l))) as [e|] eqn:NS; [|congruence]. replace k with (scc (st l) + (k - scc (st l))) in K2, K3 by lia. exists e.
    split; [eapply nth_error_In; exact NS|]. split; [exact (ki_x _ _ _ _ _ _ _ _ _ I _ e NS K3)|]. destruct (ji_e _ _ _ _ J _ e NS) as (_ & Y & _). congruence.
  - right. apply in_map_iff in IO as (j & EO & IJ). destruct (cy_o _ _ _ _ _ _ C) as (ND & O1 & _). destruct (O1 j IJ) as [D _]. pose proof (chainC _ _ _ _ _ (vi_l _ _ _ _ _ VV) EV C j) as AN.
    assert (L2 : LvLoads.live (lq (ld (LdqMain.answered l li)) j) = true) by (unfold LvLoads.live; destruct D as [[-> _]|[-> _]]; reflexivity). pose proof (ans_live _ _ _ _ _ AN L2) as L. pose proof (live_busyl j L) as B.
    assert (SM : let e := lq (ld l) j in let e2 := lq (ld (LdqMain.answered l li)) j in l_rob e2 = l_rob e /\ l_preg e2 = l_preg e /\ l_pa e2 = l_pa e /\ l_f3 e2 = l_f3 e /\ l_mmio e2 = l_mmio e) by (cbv zeta; destruct AN as [X|m' r0 q0 B1 B2 B3 B4 B5 X|rp B1 X|v B1 X]; rewrite X; repeat split).
    cbv zeta in SM. pose proof (fun X Y Z0 => answered_src W l g pend pos li n np d3 is j VV EV OE C X Y Z0) as AS. cbv zeta in AS. destruct SM as (S1 & S2 & S3 & S4 & S5).
    exists j. split; [exact B|]. assert (RO : w_rob o = l_rob (lq (ld l) j)) by (rewrite <- EO, <- S1; reflexivity). split; [now symmetry|]. split.
    + destruct (c75_cycle l pend li (ki_l _ _ _ _ _ _ _ _ _ I) EV) as (is' & ws & C1 & C2 & C3 & C4 & _). cbv zeta in *. rewrite CW in C1. apply app_inv_head in C1. apply In_nth_error in IJ as (m & IJ). 
      assert (M2 : nth_error ws m = Some o) by (rewrite <- C1, nth_error_map, IJ; cbn [option_map]; now rewrite EO).
      assert (ML : m < length is') by (rewrite <- C3; apply nth_error_Some; congruence). apply nth_error_Some in ML. destruct (nth_error is' m) as [j'|] eqn:M1; [|congruence]. destruct (C4 m j' o M1 M2) as (X1 & X2 & X3). destruct X2 as (X2 & _).
      assert (j' = j) by (apply (ki_inj _ _ _ _ _ _ _ _ _ I); [exact X1|exact B|congruence]). now subst j'.
    + intros PF NM. set (e2 := lq (ld (LdqMain.answered l li)) j) in *. rewrite <- EO in *. cbn [wb_of w_pfl w_res] in *. assert (VA : LvLoads.valued e2 = true) by (unfold LvLoads.valued; destruct D as [[-> D]|[_ D]]; [now rewrite D|exfalso; rewrite PF in D; discriminate]).
      destruct (AS (busy_lt j B) VA (eq_trans S5 NM)) as [_ SR]. rewrite S3, S4, (ki_p _ _ _ _ _ _ _ _ _ I j L) in SR. rewrite PF. exact SR.
Qed.
(** A load's value arriving this cycle. *)
Lemma value_from e w : In e (loads q) -> In w (i_wb ri) -> w_idx w = q_idx e -> group (w_port w) = 0 -> kind (w_port w) = P_load /\
  exists j, busyl l j /\ l_rob (lq (ld l) j) = q_idx e /\ ~ busyl (fst (lsu_cycle l li)) j /\
    (w_pf_load w = false -> l_mmio (lq (ld l) j) = false -> src W g (st l) (np j) (l_pa (lq (ld l) j)) (l_f3 (lq (ld l) j)) (w_result w)).
Proof.
  intros IE IW WE G0. destruct (memory_report w) eqn:MR; [|exfalso; exact (ke_other _ _ _ _ _ _ _ _ _ _ E w e IW MR IE WE G0)].
  assert (KP : kind (w_port w) = P_load) by (unfold memory_report in MR; unfold group in G0; destruct (kind (w_port w)); try discriminate; reflexivity). split; [exact KP|].
  destruct (ke_wb _ _ _ _ _ _ _ _ _ _ E w IW KP) as (o & O1 & O2 & O3 & O4 & O5). destruct (report_is o O1 O3) as [(x & X1 & X2 & X3)|(j & X1 & X2 & X3 & X4)].
  - exfalso. apply stores_in in X1 as [X1 _]. assert (e = x) by (apply load_is; [exact IE|exact X1|congruence]). subst x. apply loads_in in IE as [_ IE]. apply ld_not_sc in IE. congruence.
  - exists j. split; [exact X1|]. split; [congruence|]. split; [exact X3|]. rewrite <- O4, <- O5. exact X4.
Qed.
Lemma held_some idx j : busyl l j -> l_rob (lq (ld l) j) = idx -> held l idx = Some j.
Proof.
  intros B R. unfold held. destruct (find _ _) as [j'|] eqn:F.
  - apply find_some in F as [_ F]. apply andb_true_iff in F as [F1 F2]. apply Nat.eqb_eq in F2. f_equal. apply (ki_inj _ _ _ _ _ _ _ _ _ I); [|exact B|congruence]. intros X. rewrite X in F1. discriminate.
  - exfalso. pose proof (busy_lt j B) as JL. pose proof (find_none _ _ F j ltac:(apply in_seq; unfold LDQ_SIZE; lia)) as X. cbn beta in X. rewrite R, Nat.eqb_refl, andb_true_r in X. apply negb_false_iff, lst_eqb_eq in X. contradiction.
Qed.
Lemma held_none e : In e (loads q) -> have e = true -> held l (q_idx e) = None.
Proof.
  intros IE H. unfold held. destruct (find _ _) as [j'|] eqn:F; [|reflexivity]. exfalso. apply find_some in F as [_ F]. apply andb_true_iff in F as [F1 F2]. apply Nat.eqb_eq in F2.
  assert (B : busyl l j') by (intros X; rewrite X in F1; discriminate). destruct (ki_q _ _ _ _ _ _ _ _ _ I j' B) as (x & X1 & X2 & X3). assert (x = e) by (apply load_is; [exact X1|now apply loads_in in IE|congruence]). subst x. congruence.
Qed.
(** A load that stays in flight stays in the reorder buffer, not done, at the same place. *)
Lemma stays j : busyl l j -> busyl (fst (lsu_cycle l li)) j -> b_flush (broadcast r ri) = false /\ l_rob (lq (ld (fst (lsu_cycle l li))) j) = l_rob (lq (ld l) j) /\
  exists k, In k (kept q r ri) /\ q_idx k = l_rob (lq (ld l) j) /\ is_ld (q_uop k) = true /\ In (add_reports (i_wb ri) k) (q_step q r ri) /\ have (add_reports (i_wb ri) k) = false.
Proof.
  intros B B'. pose proof (ke_lenv _ _ _ _ _ _ _ _ _ _ E) as EV. destruct (c75_cycle l pend li (ki_l _ _ _ _ _ _ _ _ _ I) EV) as (is & ws & C1 & C2 & C3 & C4 & C5 & C6 & _). cbv zeta in *.
  assert (NI : ~ In j is). { intros X. apply In_nth_error in X as (m & M1). assert (ML : m < length ws) by (rewrite C3; apply nth_error_Some; congruence). apply nth_error_Some in ML. destruct (nth_error ws m) as [w|] eqn:M2; [|congruence]. destruct (C4 m j w M1 M2) as (_ & _ & X). apply X. exact B'. }
  assert (NS : ~ squashed li (lq (ld l) j)) by (apply (C5 j B NI); exact B'). unfold squashed in NS. destruct (ki_q _ _ _ _ _ _ _ _ _ I j B) as (e & E1 & E2 & E3).
  assert (F : b_flush (broadcast r ri) = false). { rewrite <- (je_flush _ _ _ _ _ _ _ JE). destruct (LsuModel.i_flush li); [exfalso; apply NS; now left|reflexivity]. }
  split; [exact F|]. split; [apply (C6 j B B')|]. pose proof (loads_in q e) as LI0. apply LI0 in E1 as E4. destruct E4 as [E4 E5].
  destruct (q'_old r q l g ri li J JE e E4 F (uncommitted e E1 E3 F)) as (k & K1 & K2 & K3 & K4 & K5).
  { intros x M. pose proof (ke_kill _ _ _ _ _ _ _ _ _ _ E x j M B) as KL. rewrite E2. destruct (existsb _ _); [reflexivity|]. exfalso. apply NS. right. split; [rewrite (je_mis _ _ _ _ _ _ _ JE); unfold is_mis; now rewrite M|]. now apply hits_meet. }
  exists k. split; [exact K1|]. split; [congruence|]. split; [now rewrite K3|]. split; [exact K5|].
  unfold have, reported in E3 |- *. cbn [add_reports q_reports]. rewrite existsb_app, K4, E3. cbn [orb]. match goal with |- ?t = false => destruct t eqn:X; [|reflexivity] end. exfalso. apply existsb_exists in X as (w & W1 & W2). apply filter_In in W1 as [W1 W3]. apply Nat.eqb_eq in W2, W3.
  destruct (value_from e w E1 W1 ltac:(congruence) W2) as (_ & j' & X1 & X2 & X3 & _). assert (j' = j) by (apply (ki_inj _ _ _ _ _ _ _ _ _ I); [exact X1|exact B|congruence]). subst j'. contradiction.
Qed.
Lemma comes j : ~ busyl l j -> busyl (fst (lsu_cycle l li)) j -> b_flush (broadcast r ri) = false /\
  exists x, In x (i_la li) /\ la_idx x = j /\ l_st (lq (ld (fst (lsu_cycle l li))) j) = LAllocated /\ l_rob (lq (ld (fst (lsu_cycle l li))) j) = la_rob x /\ exists e, In e (loads (arrivals (enq_ptr r) 0 (i_fire ri))) /\ q_idx e = la_rob x.
Proof.
  intros B B'. pose proof (ke_lenv _ _ _ _ _ _ _ _ _ _ E) as EV. destruct (c75_cycle l pend li (ki_l _ _ _ _ _ _ _ _ _ I) EV) as (is & ws & _ & _ & _ & _ & _ & _ & C7 & C8). cbv zeta in *.
  apply (C7 j B) in B' as X. destruct X as (x & X1 & X2 & X3 & _). split; [now rewrite <- (je_flush _ _ _ _ _ _ _ JE)|]. exists x. split; [exact X1|]. split; [exact X2|]. subst j. destruct (C8 x X1 B') as (Y0 & Y & _). split; [exact Y0|]. split; [exact Y|].
  apply (in_map la_rob) in X1. rewrite (ke_la _ _ _ _ _ _ _ _ _ _ E) in X1. apply in_map_iff in X1 as (e & Z1 & Z2). now exists e.
Qed.
Variable (n0 : nat).
Hypothesis LN0 : n0 + sn (st (fst (lsu_cycle l li))) = length (squash li (scc (st l) + taken (st l) n) (g_ord g ++ map galloc (i_sa li))).
Theorem KI_step : KI W (rob_step r ri) (q_step q r ri) (fst (lsu_cycle l li)) (jstep_g r l g ri li n0) (o_dl (snd (lsu_cycle l li))) (pos1 li np pos) (c + n) (accs l acc).
Proof.
  pose proof (ki_v _ _ _ _ _ _ _ _ _ I) as VV. pose proof (ke_lenv _ _ _ _ _ _ _ _ _ _ E) as EV. pose proof koenv as OE. pose proof (senv_of r q l g ri li J JE) as SE. destruct (commit_facts r q l g ri li J JE) as (_ & _ & NL & _ & _ & TK).
  pose proof (JI_step r q l g ri li n0 J JE LN0) as J'. pose proof (step_stores W l g pend pos li n np _ n0 (vi_g _ _ _ _ _ VV) SE OE eq_refl LN0) as SS. cbv zeta in SS. fold (jstep_g r l g ri li n0) in SS. destruct SS as (_ & CA & HL & _ & GB & BS & _).
  assert (VI' : VI W (fst (lsu_cycle l li)) (jstep_g r l g ri li n0) (o_dl (snd (lsu_cycle l li))) (pos1 li np pos)) by (apply (vstep_VI W l g pend pos li); [exact VV|]; apply (Vstep _ _ _ _ _ _ _ _ _ _ n np n0); auto).
  pose proof (sc_cycle g l li n (vi_g _ _ _ _ _ VV) SE (ke_once _ _ _ _ _ _ _ _ _ _ E)) as SC. cbv zeta in SC. destruct SC as [SC1 SC2].
  pose proof c_at as CE. rewrite TK in HL. assert (HC : length (g_hist (jstep_g r l g ri li n0)) = c + n) by lia.
  pose proof (q_step_stores r q l g ri li J JE) as QS. cbv zeta in QS. destruct QS as [_ QE]. pose proof (ji_len _ _ _ _ J) as LN. pose proof (ji_len _ _ _ _ J') as LN'.
  set (l' := fst (lsu_cycle l li)) in *. set (g' := jstep_g r l g ri li n0) in *. set (q' := q_step q r ri) in *.
  assert (NEWB : forall e, In e (loads (arrivals (enq_ptr r) 0 (i_fire ri))) -> b_flush (broadcast r ri) = false -> In e (loads q') /\ have e = false).
  { intros e X F. apply loads_in in X as [X1 X2]. split; [apply loads_in; split; [exact (q'_new r q l g ri li J JE e X1 F)|exact X2]|]. unfold have, reported. now rewrite (arrivals_fresh _ _ _ _ X1). }
  assert (SHE : forall j, (sh (st l') + (scc (st l') + j)) mod 16 = (sh (st l) + (scc (st l) + n + j)) mod 16).
  { intros j. pose proof (v_sh _ _ (gi_inv _ _ (vi_g _ _ _ _ _ VI'))) as V'. pose proof (v_sh _ _ (gi_inv _ _ (vi_g _ _ _ _ _ VV))) as V. unfold STQ_SIZE in *. lia. }
  constructor.
  - exact J'.
  - exact HC.
  - apply (lreach1 l pend li); [exact (ki_l _ _ _ _ _ _ _ _ _ I)|exact EV].
  - exact VI'.
  - intros j B'. destruct (lst_eqb (l_st (lq (ld l) j)) LEmpty) eqn:B.
    + apply lst_eqb_eq in B. destruct (comes j (fun X => X B) B') as (F & x & _ & _ & _ & X2 & e & X3 & X4). exists e. destruct (NEWB e X3 F) as [Y1 Y2]. split; [exact Y1|]. split; [fold l' in X2; congruence|exact Y2].
    + assert (BB : busyl l j) by (intros X; rewrite X in B; discriminate). destruct (stays j BB B') as (F & X1 & k & X2 & X3 & X4 & X5 & X6). exists (add_reports (i_wb ri) k). split; [apply loads_in; split; [exact X5|exact X4]|]. split; [|exact X6]. fold l' in X1. cbn [add_reports q_idx]. congruence.
  - intros j j' B1 B2 RE. destruct (lst_eqb (l_st (lq (ld l) j)) LEmpty) eqn:D1; destruct (lst_eqb (l_st (lq (ld l) j')) LEmpty) eqn:D2.
    + apply lst_eqb_eq in D1, D2. destruct (comes j (fun X => X D1) B1) as (F & x & X0 & X1 & _ & X2 & _). destruct (comes j' (fun X => X D2) B2) as (_ & y & Y0 & Y1 & _ & Y2 & _). fold l' in X2, Y2.
      assert (ND : NoDup (map la_rob (i_la li))). { rewrite (ke_la _ _ _ _ _ _ _ _ _ _ E). pose proof (q'_nodup r q l g ri li J JE) as ND. destruct (q_shape _ r q l g ri li J (je_base _ _ _ _ _ _ _ JE) F) as [QQ _]. rewrite QQ, map_app in ND. apply nodup_r in ND. clear - ND. induction (arrivals _ _ _) as [|a t IH]; [constructor|]. cbn [map] in ND. inversion ND; subst. unfold loads in *. cbn [filter]. destruct (is_ld (q_uop a)); [|auto]. cbn [map]. constructor; [|auto]. intros X. apply in_map_iff in X as (z & Z1 & Z2). apply filter_In in Z2 as [Z2 _]. apply H1. rewrite <- Z1. now apply in_map. }
      assert (XY : x = y). { apply In_nth_error in X0 as (a & A). apply In_nth_error in Y0 as (b & Bb). rewrite NoDup_nth_error in ND. assert (a = b); [|congruence]. apply ND; [rewrite map_length; apply nth_error_Some; congruence|]. rewrite (map_nth_error la_rob _ _ A), (map_nth_error la_rob _ _ Bb). congruence. }
      congruence.
    + exfalso. apply lst_eqb_eq in D1. destruct (comes j (fun X => X D1) B1) as (F & x & _ & _ & _ & X2 & e & X3 & X4). assert (BB : busyl l j') by (intros X; rewrite X in D2; discriminate). destruct (stays j' BB B2) as (_ & Y1 & k & Y2 & Y3 & _).
      apply loads_in in X3 as [X3 _]. apply (new_fresh r q l g ri li J JE e k X3 Y2 F). fold l' in X2, Y1. congruence.
    + exfalso. apply lst_eqb_eq in D2. destruct (comes j' (fun X => X D2) B2) as (F & x & _ & _ & _ & X2 & e & X3 & X4). assert (BB : busyl l j) by (intros X; rewrite X in D1; discriminate). destruct (stays j BB B1) as (_ & Y1 & k & Y2 & Y3 & _).
      apply loads_in in X3 as [X3 _]. apply (new_fresh r q l g ri li J JE e k X3 Y2 F). fold l' in X2, Y1. congruence.
    + assert (BB : busyl l j) by (intros X; rewrite X in D1; discriminate). assert (BB' : busyl l j') by (intros X; rewrite X in D2; discriminate). destruct (stays j BB B1) as (_ & Y1 & _). destruct (stays j' BB' B2) as (_ & Y2 & _). fold l' in Y1, Y2. apply (ki_inj _ _ _ _ _ _ _ _ _ I); auto. congruence.
  - intros j L'. assert (B' : busyl l' j) by (intros X; unfold LvLoads.live in L'; rewrite X in L'; discriminate). destruct (cyc l pend li (vi_l _ _ _ _ _ VV) EV) as (d3 & is & C). destruct (back _ _ _ _ _ _ (vi_l _ _ _ _ _ VV) EV C L') as [LL|AS].
    + pose proof (live_busyl j LL) as B. destruct (stays j B B') as (F & X1 & k & X2 & X3 & _). pose proof (kept_place r q l g ri li J JE k X2 F) as KP. unfold nth_store. fold l' in X1. fold q' in KP. rewrite X1, <- X3. unfold pos1. destruct (asks li j); [|rewrite (ki_p _ _ _ _ _ _ _ _ _ I j LL)]; unfold nth_store; rewrite <- X3; lia.
    + destruct (asks_busyl j AS) as [B _]. destruct (stays j B B') as (F & X1 & k & X2 & X3 & _). pose proof (kept_place r q l g ri li J JE k X2 F) as KP. unfold nth_store. fold l' in X1. fold q' in KP. rewrite X1, <- X3. unfold pos1. rewrite AS. unfold nth_store. rewrite <- X3. lia.
  - intros e' IE. cbv zeta. apply loads_in in IE as [IE LD]. destruct (q'_in r q l g ri li J JE e' IE) as [F [(e & X1 & X2 & X3 & X4 & X5 & X6)|(X1 & X2 & X3)]].
    + destruct (ki_s _ _ _ _ _ _ _ _ _ I e) as (S1 & S2 & S3); [apply loads_in; split; [exact X1|now rewrite <- X4]|]. fold q' in X6. rewrite X3, X4. replace (c + n + before (q_idx e) q') with (c + before (q_idx e) q) by lia. auto.
    + destruct (ke_ldi _ _ _ _ _ _ _ _ _ _ E e') as (S1 & S2 & S3); [apply loads_in; now split|]. fold q' in X3. cbv zeta in *. replace (c + n + before (q_idx e') q') with (g_b g + sn (st l) + before (q_idx e') (arrivals (enq_ptr r) 0 (i_fire ri))) by lia. auto.
  - intros j e H LR. unfold ent in LR. unfold STQ_SIZE in LR. rewrite SHE in LR. destruct (QE j e H) as [(e0 & N1 & N2 & N3 & N4)|(m & M1 & M2 & M3)].
    + rewrite N3. destruct (ji_e _ _ _ _ J (n + j) e0 N1) as (Y & _). destruct (SC1 _ LR) as [O|(x & X1 & X2 & X3)].
      * apply (ki_x _ _ _ _ _ _ _ _ _ I (n + j) e0 N1). unfold ent, STQ_SIZE. rewrite (Nat.add_assoc (scc (st l)) n j). exact O.
      * apply (ke_sc _ _ _ _ _ _ _ _ _ _ E x e0 X1 X3); [eapply nth_error_In; exact N1|]. rewrite Y, X2, (Nat.add_assoc (scc (st l)) n j). reflexivity.
    + exfalso. assert (ML : m < length (i_sa li)). { rewrite <- (map_length sl_rob), (je_sa _ _ _ _ _ _ _ JE), map_length. apply nth_error_Some. congruence. }
      pose proof (SC2 (sn (st l) + m) ltac:(lia)) as Y. unfold STQ_SIZE in Y. replace (scc (st l) + n + j) with (sn (st l) + m) in LR by lia. congruence.
  - intros e' w IE IW G0. apply loads_in in IE as [IE LD]. destruct (q'_in r q l g ri li J JE e' IE) as [F [(e & X1 & X2 & X3 & X4 & X5 & X6)|(X1 & X2 & X3)]]; [|rewrite X2 in IW; destruct IW].
    assert (IL : In e (loads q)) by (apply loads_in; split; [exact X1|now rewrite <- X4]). fold q' in X6. pose proof (before_le (q_idx e) q') as BL.
    assert (ST : forall pa f3 v, src W g (st l) (c + before (q_idx e) q) pa f3 v -> src W g' (st l') (c + n + before (q_idx e') q') pa f3 v).
    { intros pa f3 v SR. rewrite X3. replace (c + n + before (q_idx e) q') with (c + before (q_idx e) q) by lia. apply (src_step W (LsuModel.i_flush li) g (st l)); [exact CA|exact SR|lia|]. rewrite (je_flush _ _ _ _ _ _ _ JE), F. discriminate. }
    rewrite X5 in IW. apply in_app_iff in IW as [IW|IW].
    + destruct (ki_d _ _ _ _ _ _ _ _ _ I e w IL IW G0) as [KP KD]. split; [exact KP|]. intros PF pa f3 AC. apply ST, KD; [exact PF|]. unfold accs in AC. rewrite X3, (held_none e IL) in AC; [exact AC|]. unfold have, reported. apply existsb_exists. exists w. split; [exact IW|now apply Nat.eqb_eq].
    + apply filter_In in IW as [IW WI]. apply Nat.eqb_eq in WI. destruct (value_from e w IL IW WI G0) as (KP & j & Y1 & Y2 & Y3 & Y4). split; [exact KP|]. intros PF pa f3 AC. unfold accs in AC. rewrite X3, (held_some (q_idx e) j Y1 Y2) in AC. cbv zeta in AC. injection AC as A1 A2 A3.
      specialize (Y4 PF A1). rewrite A2, A3 in Y4. unfold nth_store in Y4. rewrite Y2 in Y4. now apply ST.
Qed.
End Cycle.
Lemma KI0 W acc : KI W rob_init [] lsu0 g0 [] (fun _ => 0) 0 acc.
Proof.
  constructor; try reflexivity.
  - constructor; [constructor|constructor|exact WQ0|reflexivity|]. intros [|j] e X; discriminate.
  - constructor.
  - apply VI0.
  - intros j B. exfalso. apply B. reflexivity.
  - intros j j' B. exfalso. apply B. reflexivity.
  - intros e [].
  - intros [|j] e X; discriminate.
  - intros e w [].
Qed.
Theorem kreach_KI W r q l g pend pos c acc : kreach W r q l g pend pos c acc -> KI W r q l g pend pos c acc.
Proof. induction 1 as [acc|r q l g pend pos c acc ri li n H IH E LN]; [apply KI0|]. exact (KI_step _ _ _ _ _ _ _ _ _ _ _ IH E n LN). Qed.
