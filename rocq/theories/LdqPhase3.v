(** The store check of the loads; allocation; squash; issue to the cache. *)
From Verif Require Import Base BaseLemmas Ring MemModel MemProofs MemProps LsuModel LsuStq LsuQ LdqInv LdqPhase.
Local Open Scope nat_scope.
Ltac Zify.zify_post_hook ::= Z.div_mod_to_equations.

(** *** comb_stlf *)
Record Hr (d d' : ldqs) : Prop := { h_k : K d d'; h_a : AL d d'; h_e : EM d d'; h_w : wml d' = wml d; h_d : forall i, l_st (lq d' i) = LWaitDcacheResp -> lq d' i = lq d i; h_b : lbad d = true -> lbad d' = true }.
Lemma Hr_refl d : Hr d d. Proof. constructor; auto using K_refl, AL_refl, EM_refl. Qed.
Lemma Hr_trans a b c : Hr a b -> Hr b c -> Hr a c.
Proof.
  intros [A1 A2 A3 A4 A5 A6] [B1 B2 B3 B4 B5 B6]. constructor; [now apply (K_trans a b)|now apply (AL_trans a b)|now apply (EM_trans a b)|congruence| |auto].
  intros i X. pose proof (B5 i X) as Y. rewrite Y in X |- *. now apply A5.
Qed.
Lemma Hr_one d d' i e : (forall j, lq d' j = fupd (lq d) i e j) -> settled (l_st (lq d i)) = false -> l_st (lq d i) <> LEmpty ->
  l_rob e = l_rob (lq d i) -> l_robf e = l_robf (lq d i) -> l_brm e = l_brm (lq d i) -> l_st e <> LEmpty -> l_st e <> LAllocated -> l_st e <> LWaitDcacheResp -> wml d' = wml d -> lbad d' = lbad d -> Hr d d'.
Proof.
  intros E N1 N2 R1 R2 R3 N3 N4 N5 W B. constructor; [| | |exact W| |congruence].
  - intros j J. rewrite E. unfold fupd. destruct (Nat.eqb_spec j i) as [->|]; [|now repeat split]. repeat (split; [assumption|]). intros X. congruence.
  - intros j J. rewrite E in J. unfold fupd in J. destruct (Nat.eqb j i); [contradiction|exact J].
  - intros j J. rewrite E. apply fupd_ne. intros ->. contradiction.
  - intros j J. rewrite E in J |- *. unfold fupd in *. destruct (Nat.eqb j i); [contradiction|reflexivity].
Qed.
Lemma LI_retry R d k f : LI R d -> qv (stl d) k = true -> let i := qi (stl d) k in l_st (f (lq d i)) = LCheckStlf -> l_pf (f (lq d i)) = false -> LI (R ++ [i]) (set_stl (kill (stl d) k) (upd_l i f d)).
Proof.
  intros H V i S P. change (qv (qof d QS) k = true) in V. destruct (LI_at _ _ _ _ H V) as (I & N & _). change (qi (qof d QS) k) with i in I, N. destruct H as (loc & A & B). exists (fupd loc i None). split.
  - apply (QL_ext _ (setq QS (kill (qof d QS) k) d)); [now intros []|]. exact (QL_kill loc d QS k A V).
  - destruct B as [B1 B2 B3 B4]. constructor.
    + intros j J. assert (j <> i /\ ~ In j R) as [N1 N2] by (split; intros X; apply J, in_or_app; [right; now left|now left]). cbn [set_stl upd_l set_lq lq]. rewrite !fupd_ne by assumption. now apply B1.
    + intros j J. cbn [set_stl upd_l set_lq lq]. unfold fupd. destruct (Nat.eqb_spec j i) as [->|NE]; [now repeat split|]. apply in_app_or in J as [J|[J|[]]]; [now apply B2|congruence].
    + intros j J. cbn [set_stl upd_l set_lq lq]. rewrite fupd_ne by lia. now apply B3.
    + apply NoDup_app_intro; [exact B4|repeat constructor; auto|]. intros x X [Y|[]]. congruence.
Qed.
Lemma LI_requeue i R d : LI (i :: R) d -> qn (stl d) < 16 -> LI R (set_stl (enq (stl d) i) d).
Proof.
  intros (loc & A & B) N. destruct (sl_r _ _ _ B i (or_introl eq_refl)) as (I & L & S & P). exists (fupd loc i (Some (QS, slot (stl d) (qn (stl d))))). split; [exact (QL_enq loc d QS i A N L)|].
  destruct B as [B1 B2 B3 B4]. inversion B4 as [|? ? N1 N2]; subst. constructor; [| |exact B3|exact N2].
  - intros j J. unfold fupd. destruct (Nat.eqb_spec j i) as [->|NE].
    + cbn [set_stl lq]. unfold okb. rewrite S, P. reflexivity.
    + apply B1. intros [X|X]; [congruence|contradiction].
  - intros j J. assert (j <> i) by (intros ->; contradiction). rewrite fupd_ne by assumption. apply B2. now right.
Qed.
Lemma requeues_ok R : forall d, LI R d -> qn (stl d) + length R <= 16 -> let d' := fold_left requeue R d in LI [] d' /\ (forall i, lq d' i = lq d i) /\ wml d' = wml d /\ lbad d' = lbad d.
Proof.
  induction R as [|i R IH]; intros d H N; cbv zeta; cbn [fold_left]; [now repeat split|]. cbn [length] in N. unfold requeue at 2 4 6 8. assert (X : (qn (stl d) <? LDQ_SIZE) = true) by (apply Nat.ltb_lt; unfold LDQ_SIZE; lia). rewrite X.
  apply (IH (set_stl (enq (stl d) i) d)); [apply LI_requeue; [exact H|lia]|]. cbn [set_stl stl enq qn]. lia.
Qed.
Lemma stlf_check_cases s head i n u e : let '(e', u') := stlf_check s head i n u e in
  l_rob e' = l_rob e /\ l_robf e' = l_robf e /\ l_brm e' = l_brm e /\ l_pf e' = l_pf e /\ l_mmio e' = l_mmio e /\
  (l_st e' = LWaitMmioResp /\ u_v u = false /\ u_v u' = true /\ u_ld u' = true /\ u_idx u' = i \/ u' = u /\ (l_st e' = LCheckStlfRetry \/ l_st e' = LWaitFinish \/ l_st e' = LWaitDcache /\ l_mmio e = false)).
Proof.
  unfold stlf_check. destruct (l_mmio e) eqn:M.
  - destruct (_ && negb (u_v u)) eqn:B; (do 4 (split; [reflexivity|])); (split; [exact M|]); [left|right; now auto]. apply andb_true_iff in B as [_ B]. apply negb_true_iff in B. now repeat split.
  - destruct (stlf_scan _ _ _); (do 4 (split; [reflexivity|])); (split; [exact M|]); right; auto.
Qed.
Lemma stlf_loop_ok s head ks : forall d u np rt, LI rt d -> MI d u -> ks = map (slot (stl d)) (seq np (length ks)) -> np + length ks <= qn (stl d) -> (forall j, j < np -> qv (stl d) (slot (stl d) j) = false) -> length rt <= np ->
  let '(d', u', np', rt') := stlf_loop s head ks d u np rt in
  LI rt' d' /\ MI d' u' /\ qh (stl d') = qh (stl d) /\ qn (stl d') = qn (stl d) /\ np' <= qn (stl d) /\ (forall j, j < np' -> qv (stl d') (slot (stl d') j) = false) /\ length rt' <= np' /\ Hr d d'.
Proof.
  induction ks as [|k t IH]; intros d u np rt H M EK NP PF LR; cbn [stlf_loop].
  { cbn [length] in NP. split; [exact H|]. split; [exact M|]. split; [reflexivity|]. split; [reflexivity|]. split; [lia|]. split; [exact PF|]. split; [exact LR|apply Hr_refl]. }
  cbn [length] in NP, EK. cbn [seq map] in EK. injection EK as EK ET.
  (* the two ways to go on *)
  assert (STOP : forall d1 u1, LI rt d1 -> MI d1 u1 -> stl d1 = stl d -> Hr d d1 -> LI rt d1 /\ MI d1 u1 /\ qh (stl d1) = qh (stl d) /\ qn (stl d1) = qn (stl d) /\ np <= qn (stl d) /\ (forall j, j < np -> qv (stl d1) (slot (stl d1) j) = false) /\ length rt <= np /\ Hr d d1).
  { intros d1 u1 L1 M1 E1 H1. rewrite E1. split; [exact L1|]. split; [exact M1|]. do 2 (split; [reflexivity|]). split; [lia|]. split; [exact PF|]. split; [exact LR|exact H1]. }
  assert (TAIL : forall d1 u1 rt1, LI rt1 d1 -> MI d1 u1 -> qh (stl d1) = qh (stl d) -> qn (stl d1) = qn (stl d) -> (forall j, qv (stl d1) j = true -> qv (stl d) j = true /\ j <> k) -> length rt1 <= S np -> Hr d d1 ->
    let '(d', u', np', rt') := stlf_loop s head t d1 u1 (S np) rt1 in
    LI rt' d' /\ MI d' u' /\ qh (stl d') = qh (stl d) /\ qn (stl d') = qn (stl d) /\ np' <= qn (stl d) /\ (forall j, j < np' -> qv (stl d') (slot (stl d') j) = false) /\ length rt' <= np' /\ Hr d d').
  { intros d1 u1 rt1 L1 M1 E1 E2 V1 LR1 H1. assert (SE : forall j, slot (stl d1) j = slot (stl d) j) by (intros j; unfold slot; now rewrite E1). specialize (IH d1 u1 (S np) rt1 L1 M1).
    destruct (stlf_loop s head t d1 u1 (S np) rt1) as [[[d' u'] np'] rt']. destruct IH as (A & B & C & D & E & F & I & J); [rewrite ET at 1; apply map_ext; intros j; now rewrite SE|rewrite E2; lia| |exact LR1|].
    - intros j J. rewrite SE. destruct (qv (stl d1) (slot (stl d) j)) eqn:X; [|reflexivity]. destruct (V1 _ X) as [Y Z]. destruct (Nat.eq_dec j np) as [->|]; [congruence|]. rewrite PF in Y by lia. discriminate.
    - split; [exact A|]. split; [exact B|]. split; [congruence|]. split; [congruence|]. split; [lia|]. split; [exact F|]. split; [exact I|now apply (Hr_trans _ d1)]. }
  destruct (qv (stl d) k) eqn:V; cbn [negb].
  2:{ apply TAIL; auto; [|now apply Hr_refl]. intros j J. split; [exact J|]. intros ->. congruence. }
  change (qv (qof d QS) k = true) in V. destruct (LI_at _ _ _ _ H V) as (A & B & C & OK). set (i := qi (stl d) k) in *. change (qi (qof d QS) k) with i in *.
  assert (KV : forall j, qv (kill (stl d) k) j = true -> qv (stl d) j = true /\ j <> k) by (intros j; cbn [kill qv]; unfold fupd; destruct (Nat.eqb_spec j k); [discriminate|auto]).
  assert (S0 : l_st (lq d i) = LCheckStlf \/ l_st (lq d i) = LWaitFinish \/ l_st (lq d i) = LWaitDcache /\ l_mmio (lq d i) = false).
  { unfold okb in OK. destruct (l_st (lq d i)); try discriminate OK; auto. apply andb_true_iff in OK as [_ X]. apply negb_true_iff in X. auto. }
  assert (P0 : l_pf (lq d i) = false). { unfold okb in OK. destruct (l_st (lq d i)); try discriminate OK; try (apply andb_true_iff in OK as [OK _]); now apply negb_true_iff. }
  assert (NW : settled (l_st (lq d i)) = false) by (destruct S0 as [-> |[-> |[-> _]]]; reflexivity).
  assert (NE : l_st (lq d i) <> LEmpty) by (destruct S0 as [-> |[-> |[-> _]]]; discriminate).
  assert (AFTER : forall de ue e, (forall j, lq de j = fupd (lq d) i e j) -> (forall Q, qof de Q = qof d Q) -> lbad de = lbad d ->
    l_rob e = l_rob (lq d i) -> l_robf e = l_robf (lq d i) -> l_brm e = l_brm (lq d i) -> l_pf e = false ->
    (l_st e = LWaitMmioResp /\ u_v u = false /\ u_v ue = true /\ u_ld ue = true /\ u_idx ue = i \/ ue = u /\ (l_st e = LCheckStlfRetry \/ l_st e = LWaitFinish \/ l_st e = LWaitDcache /\ l_mmio e = false)) ->
    let '(d', u', np', rt') := (let pop d := set_stl (kill (stl d) k) d in match l_st (lq de i) with
      | LEmpty => stlf_loop s head t (pop de) ue (S np) rt
      | LWaitDcache => if qn (wdl de) <? LDQ_SIZE then stlf_loop s head t (pop (upd_l i (set_l_st LReadyToIssue) (set_wdl (enq (wdl de) i) de))) ue (S np) rt else (de, ue, np, rt)
      | LWaitFinish => if qn (fin de) <? LDQ_SIZE then stlf_loop s head t (pop (upd_l i (set_l_st LReadyToWb) (set_fin (enq (fin de) i) de))) ue (S np) rt else (de, ue, np, rt)
      | LWaitMmioResp => stlf_loop s head t (pop de) ue (S np) rt
      | LCheckStlfRetry => stlf_loop s head t (pop (upd_l i (set_l_st LCheckStlf) de)) ue (S np) (rt ++ [i])
      | _ => (de, ue, np, rt) end) in
    LI rt' d' /\ MI d' u' /\ qh (stl d') = qh (stl d) /\ qn (stl d') = qn (stl d) /\ np' <= qn (stl d) /\ (forall j, j < np' -> qv (stl d') (slot (stl d') j) = false) /\ length rt' <= np' /\ Hr d d').
  { intros de ue e EL EQ EB R1 R2 R3 PE CS. cbv zeta. assert (EI : lq de i = e) by (rewrite EL; apply fupd_eq).
    pose proof (EQ QS) as QS'. pose proof (EQ QD) as QD'. pose proof (EQ QF) as QF'. pose proof (EQ QW) as QW'. cbn [qof] in QS', QD', QF', QW'.
    assert (MF : forall d1 e1, ue = u -> l_st e1 <> LWaitMmioResp -> (forall j, lq d1 j = fupd (lq d) i e1 j) -> MI d1 ue).
    { intros d1 e1 -> X Y j J. apply M. rewrite Y in J. unfold fupd in J. destruct (Nat.eqb j i); [contradiction|exact J]. }
    assert (FE : forall f d1, (forall j, lq d1 j = lq (upd_l i f de) j) -> forall j, lq d1 j = fupd (lq d) i (f e) j).
    { intros f d1 X j. rewrite X. cbn [upd_l set_lq lq]. unfold fupd at 1. rewrite EI. destruct (Nat.eqb_spec j i) as [EJ|NJ]; [unfold fupd; now rewrite EJ, Nat.eqb_refl|rewrite EL; now rewrite !fupd_ne by assumption]. }
    rewrite EI. destruct CS as [(SE & U0 & U1 & U2 & U3)|[-> [SE|[SE|[SE ME]]]]]; rewrite SE.
    - (* uncached *) apply TAIL; cbn [set_stl stl]; rewrite ?QS'; auto.
      + apply (LI_ext _ (setq QS (kill (qof d QS) k) (upd_l i (fun _ => e) d))); [intros []; cbn; congruence|intros j; cbn [setq set_stl upd_l set_lq lq]; now rewrite EL|]. apply (LI_kill rt d QS k (fun _ => e)); [exact H|exact V|]. unfold okb. now rewrite SE, PE.
      + intros j J. cbn [set_stl lq] in J. rewrite EL in J. unfold fupd in J. destruct (Nat.eqb_spec j i) as [EJ|NJ]; [rewrite EJ; auto|]. apply M in J as [J _]. congruence.
      + apply (Hr_one d _ i e); auto; try congruence; cbn; congruence.
    - (* retry *) set (d1 := set_stl (kill (stl (upd_l i (set_l_st LCheckStlf) de)) k) (upd_l i (set_l_st LCheckStlf) de)). pose proof (FE (set_l_st LCheckStlf) d1 (fun j => eq_refl)) as F1.
      assert (T1 : stl d1 = kill (stl d) k) by (unfold d1; cbn [set_stl stl upd_l set_lq]; now rewrite QS'). apply (TAIL d1); [| |now rewrite T1|now rewrite T1|intros j; rewrite T1; apply KV| |].
      + apply (LI_ext _ (set_stl (kill (stl d) k) (upd_l i (fun _ => set_l_st LCheckStlf e) d))); [intros []; cbn; congruence|intros j; exact (F1 j)|]. apply LI_retry; [exact H|exact V|reflexivity|exact PE].
      + apply (MF d1 (set_l_st LCheckStlf e)); [reflexivity|discriminate|exact F1].
      + rewrite app_length. cbn [length]. lia.
      + apply (Hr_one d d1 i (set_l_st LCheckStlf e)); auto; try discriminate; try (cbn; congruence).
    - (* forwarded *) destruct (Nat.ltb_spec (qn (fin de)) LDQ_SIZE) as [RM|RM].
      + set (d1 := set_stl (kill (stl (upd_l i (set_l_st LReadyToWb) (set_fin (enq (fin de) i) de))) k) (upd_l i (set_l_st LReadyToWb) (set_fin (enq (fin de) i) de))). pose proof (FE (set_l_st LReadyToWb) d1 (fun j => eq_refl)) as F1.
        assert (T1 : stl d1 = kill (stl d) k) by (unfold d1; cbn [set_stl stl upd_l set_lq set_fin]; now rewrite QS'). apply (TAIL d1); [| |now rewrite T1|now rewrite T1|intros j; rewrite T1; apply KV| |].
        * apply (LI_ext _ (setq QS (kill (qof d QS) k) (setq QF (enq (qof d QF) i) (upd_l i (fun _ => set_l_st LReadyToWb e) d)))); [intros []; cbn; congruence|intros j; exact (F1 j)|].
          apply (LI_move rt d QS k QF (fun _ => set_l_st LReadyToWb e)); [exact H|exact V|discriminate|unfold LDQ_SIZE in RM; cbn [qof]; rewrite <- QF'; exact RM|]. unfold okb. cbn [l_st l_pf set_l_st]. now rewrite PE.
        * apply (MF d1 (set_l_st LReadyToWb e)); [reflexivity|discriminate|exact F1].
        * lia.
        * apply (Hr_one d d1 i (set_l_st LReadyToWb e)); auto; try discriminate; try (cbn; congruence).
      + apply STOP; [| |exact QS'|].
        * apply (LI_ext _ (upd_l i (fun _ => e) d)); [intros Q; rewrite EQ; now destruct Q|intros j; cbn [upd_l set_lq lq]; now rewrite EL|]. apply (LI_stay_at rt d QS k (fun _ => e)); [exact H|exact V|]. unfold okb. now rewrite SE, PE.
        * apply (MF de e); [reflexivity|congruence|exact EL].
        * apply (Hr_one d de i e); auto; congruence.
    - (* to the cache *) destruct (Nat.ltb_spec (qn (wdl de)) LDQ_SIZE) as [RM|RM].
      + set (d1 := set_stl (kill (stl (upd_l i (set_l_st LReadyToIssue) (set_wdl (enq (wdl de) i) de))) k) (upd_l i (set_l_st LReadyToIssue) (set_wdl (enq (wdl de) i) de))). pose proof (FE (set_l_st LReadyToIssue) d1 (fun j => eq_refl)) as F1.
        assert (T1 : stl d1 = kill (stl d) k) by (unfold d1; cbn [set_stl stl upd_l set_lq set_wdl]; now rewrite QS'). apply (TAIL d1); [| |now rewrite T1|now rewrite T1|intros j; rewrite T1; apply KV| |].
        * apply (LI_ext _ (setq QS (kill (qof d QS) k) (setq QD (enq (qof d QD) i) (upd_l i (fun _ => set_l_st LReadyToIssue e) d)))); [intros []; cbn; congruence|intros j; exact (F1 j)|].
          apply (LI_move rt d QS k QD (fun _ => set_l_st LReadyToIssue e)); [exact H|exact V|discriminate|unfold LDQ_SIZE in RM; cbn [qof]; rewrite <- QD'; exact RM|]. unfold okb. cbn [l_st l_pf l_mmio set_l_st]. now rewrite PE, ME.
        * apply (MF d1 (set_l_st LReadyToIssue e)); [reflexivity|discriminate|exact F1].
        * lia.
        * apply (Hr_one d d1 i (set_l_st LReadyToIssue e)); auto; try discriminate; try (cbn; congruence).
      + apply STOP; [| |exact QS'|].
        * apply (LI_ext _ (upd_l i (fun _ => e) d)); [intros Q; rewrite EQ; now destruct Q|intros j; cbn [upd_l set_lq lq]; now rewrite EL|]. apply (LI_stay_at rt d QS k (fun _ => e)); [exact H|exact V|]. unfold okb. now rewrite SE, PE, ME.
        * apply (MF de e); [reflexivity|congruence|exact EL].
        * apply (Hr_one d de i e); auto; congruence. }
  destruct S0 as [SE|SE].
  - rewrite SE. destruct (stq_distance _ _ _ _ _) as [n|].
    + pose proof (stlf_check_cases s head i n u (lq d i)) as CS. destruct (stlf_check s head i n u (lq d i)) as [e u']. destruct CS as (C1 & C2 & C3 & C4 & C5 & C6). apply (AFTER (upd_l i (fun _ => e) d) u' e); auto; try congruence; try (rewrite C5; exact C6).
    + apply STOP; [apply (LI_ext _ d); [now intros []|reflexivity|exact H]|exact M|reflexivity|]. constructor; [apply K_ext; reflexivity|apply AL_ext; reflexivity|apply EM_ext; reflexivity|reflexivity|reflexivity|reflexivity].
  - assert (X : (match l_st (lq d i) with LCheckStlf => match stq_distance (sh s) (shf s) (sn s) (l_si (lq d i)) (l_sf (lq d i)) with None => None | Some n => let '(e, u') := stlf_check s head i n u (lq d i) in Some (upd_l i (fun _ => e) d, u') end | _ => Some (d, u) end) = Some (d, u)) by (destruct SE as [-> |[-> _]]; reflexivity).
    rewrite X. apply (AFTER d u (lq d i)); auto. intros j. unfold fupd. destruct (Nat.eqb_spec j i) as [->|]; reflexivity.
Qed.

Lemma stlf_ok head l : LI [] (ld l) -> MI (ld l) (un l) -> let l' := comb_stlf head l in LI [] (ld l') /\ MI (ld l') (un l') /\ Hr (ld l) (ld l').
Proof.
  intros H M. cbv zeta. unfold comb_stlf. set (d := ld l) in *. pose proof (LI_QI _ _ QS H) as Q0. cbn [qof] in Q0.
  assert (EW : window (stl d) = map (slot (stl d)) (seq 0 (length (window (stl d))))) by (unfold window; now rewrite map_length, seq_length).
  pose proof (stlf_loop_ok (st l) head (window (stl d)) d (un l) 0 [] H M EW) as X. destruct (stlf_loop _ _ _ _ _ _ _) as [[[d' u'] np] rt].
  destruct X as (A & B & C & D & E & F & I & J); [unfold window; rewrite map_length, seq_length; lia|intros j X; lia|cbn; lia|].
  pose proof (LI_QI _ _ QS A) as Q1. cbn [qof] in Q1. destruct (iter_deq np (stl d') Q1 ltac:(lia) F) as (I1 & I2 & I3). destruct (iter_same np (stl d') Q1 ltac:(lia) F) as [S1 S2].
  set (d2 := set_stl (Nat.iter np deq (stl d')) d').
  assert (L2 : LI rt d2). { destruct A as (loc & X & Y). exists loc. split; [apply (QL_same loc d' QS); auto|]. now apply (SL_ext _ _ d'). }
  destruct (requeues_ok rt d2 L2) as (R1 & R2 & R3 & R4). { cbn [d2 set_stl stl]. rewrite I3, D. destruct Q0 as (_ & Q0 & _). lia. }
  cbv zeta in *. cbn [ld un]. split; [exact R1|]. split; [apply (MI_ext d'); [intros j; rewrite R2; auto|exact B]|]. apply (Hr_trans _ d'); [exact J|].
  constructor; [now apply K_ext|now apply AL_ext|now apply EM_ext|exact R3|intros j _; apply R2|rewrite R4; auto].
Qed.

(** *** alloc_ldq_entry *)
Definition fresh (r : lalloc) : ldqe := set_l_st LAllocated (set_l_brm (la_brm r) (set_l_robf (la_robf r) (set_l_rob (la_rob r) ldqe0))).
Lemma alloc_ok d r : LI [] d -> la_idx r < 16 -> l_st (lq d (la_idx r)) = LEmpty -> alloc_ldq d r = upd_l (la_idx r) (fun _ => fresh r) d /\ LI [] (alloc_ldq d r) /\ cap (alloc_ldq d r) <= S (cap d).
Proof.
  intros H I E. assert (EQ : alloc_ldq d r = upd_l (la_idx r) (fun _ => fresh r) d) by (unfold alloc_ldq, is_l; now rewrite E). rewrite EQ. split; [reflexivity|]. split.
  - destruct H as (loc & A & B). exists loc. split; [now apply (QL_ext _ d); [intros []|]|]. assert (L : loc (la_idx r) = None).
    { pose proof (sl_ok _ _ _ B (la_idx r) (fun x => x)) as X. destruct (loc (la_idx r)) as [[Q k]|]; [|reflexivity]. unfold okb in X. rewrite E in X. destruct Q; discriminate. }
    apply SL_stay; auto. now rewrite L.
  - unfold cap. cbn [upd_l set_lq wml]. enough (cnt_ld (upd_l (la_idx r) (fun _ => fresh r) d) LAllocated <= S (cnt_ld d LAllocated)) by (unfold upd_l, set_lq in *; lia).
    unfold cnt_ld. clear. assert (ND : NoDup (seq 0 LDQ_SIZE)) by apply seq_NoDup. induction (seq 0 LDQ_SIZE) as [|a t IH]; [cbn; lia|]. inversion ND as [|? ? N1 N2]; subst. specialize (IH N2).
    destruct (Nat.eq_dec a (la_idx r)) as [->|NE].
    + assert (X : filter (fun k => is_l (upd_l (la_idx r) (fun _ => fresh r) d) k LAllocated) t = filter (fun k => is_l d k LAllocated) t).
      { apply filter_ext_in. intros x X. unfold is_l. cbn [upd_l set_lq lq]. rewrite fupd_ne; [reflexivity|]. intros ->. contradiction. }
      cbn [filter]. rewrite X. destruct (is_l _ _ _), (is_l d _ _); cbn [length]; lia.
    + cbn [filter]. assert (X : is_l (upd_l (la_idx r) (fun _ => fresh r) d) a LAllocated = is_l d a LAllocated) by (unfold is_l; cbn [upd_l set_lq lq]; now rewrite fupd_ne). rewrite X. destruct (is_l d a LAllocated); cbn [length]; lia.
Qed.
Lemma allocs_ok rs : forall d, LI [] d -> NoDup (map la_idx rs) -> (forall r, In r rs -> la_idx r < 16 /\ l_st (lq d (la_idx r)) = LEmpty) -> let d' := fold_left alloc_ldq rs d in
  LI [] d' /\ cap d' <= cap d + length rs /\ (forall r, In r rs -> lq d' (la_idx r) = fresh r) /\ (forall j, ~ In j (map la_idx rs) -> lq d' j = lq d j) /\ lbad d' = lbad d.
Proof.
  induction rs as [|r t IH]; intros d H ND OK; cbv zeta; cbn [fold_left length map]; [split; [exact H|split; [lia|split; [intros r []|split; reflexivity]]]|].
  cbn [map] in ND. inversion ND as [|? ? N1 N2]; subst. destruct (OK r (or_introl eq_refl)) as [I E]. destruct (alloc_ok d r H I E) as (A & B & C).
  assert (OT : forall j, j <> la_idx r -> lq (alloc_ldq d r) j = lq d j) by (intros j J; rewrite A; cbn [upd_l set_lq lq]; now apply fupd_ne).
  destruct (IH (alloc_ldq d r) B N2) as (A' & B' & C' & D' & E').
  - intros r' R'. destruct (OK r' (or_intror R')) as [X Y]. split; [exact X|]. rewrite OT; [exact Y|]. intros Z. apply N1. rewrite <- Z. now apply in_map.
  - cbv zeta in *. split; [exact A'|]. split; [lia|]. split; [|split].
    + intros r' [<-|R']; [|now apply C']. rewrite D' by exact N1. rewrite A. cbn [upd_l set_lq lq]. apply fupd_eq.
    + intros j J. rewrite D'; [apply OT; intros ->; apply J; now left|]. intros X. apply J. now right.
    + rewrite E', A. reflexivity.
Qed.

(** *** comb_flush *)
Lemma flush_global_ok l : LI [] (ld l) -> LI [] (ld (flush_global l)) /\ MI (ld (flush_global l)) (un (flush_global l)) /\ cap (ld (flush_global l)) <= cap (ld l) /\ (forall i, l_st (lq (ld (flush_global l)) i) = LEmpty).
Proof.
  intros H. assert (Z : forall i, l_st (lq (ld (flush_global l)) i) = LEmpty).
  { intros i. unfold flush_global. cbn [ld lq]. destruct (Nat.ltb_spec i LDQ_SIZE) as [|X]; [reflexivity|]. unfold LDQ_SIZE in X. now apply (LI_hi [] (ld l)). }
  split; [|split; [intros i X; rewrite Z in X; discriminate|split; [|exact Z]]].
  - destruct H as (loc & A & B). exists (fun _ => None). split.
    + constructor; [|intros []; discriminate|discriminate]. intros Q. pose proof (ql_q _ _ A Q) as X. apply wipe_spec in X as [X _]. destruct Q; exact X.
    + constructor; [intros i _; unfold okb; now rewrite Z|intros i []|intros i _; apply Z|constructor].
  - apply AL_cap; [intros i X; rewrite Z in X; discriminate|]. cbn. lia.
Qed.
Lemma flush_mispred_ok brm l : LI [] (ld l) -> MI (ld l) (un l) -> let l' := flush_mispred brm l in LI [] (ld l') /\ MI (ld l') (un l') /\ cap (ld l') <= cap (ld l) /\ (forall i, l_st (lq (ld l') i) = LEmpty \/ lq (ld l') i = lq (ld l) i).
Proof.
  intros H M. cbv zeta. set (lf := flush_mispred brm l). set (d := ld l) in *.
  assert (Z : forall i, l_st (lq (ld lf) i) = LEmpty \/ lq (ld lf) i = lq d i) by (intros i; unfold lf, flush_mispred; cbn [ld lq]; destruct (_ && _ && _); auto).
  set (dead := fun i => lst_eqb (l_st (lq (ld lf) i)) LEmpty). assert (DD : forall i, dead i = true <-> l_st (lq (ld lf) i) = LEmpty) by (intros i; unfold dead; destruct (l_st _); cbn; split; congruence).
  assert (EQ : forall Q, qof (ld lf) Q = purge dead (qof d Q)) by (intros []; reflexivity).
  split; [|split; [|split; [|exact Z]]].
  - destruct H as (loc & A & B). exists (fun i => if dead i then None else loc i). split.
    + constructor.
      * intros Q. rewrite EQ. now apply purge_all, A.
      * intros Q k. rewrite EQ. destruct (purge_all dead (qof d Q) (ql_q _ _ A Q)) as (_ & PI & PV & _). rewrite PV, PI. intros X. apply andb_true_iff in X as [X Y]. apply negb_true_iff in Y. rewrite Y. now apply A.
      * intros i Q k X. destruct (dead i) eqn:DI; [discriminate|]. rewrite EQ. destruct (purge_all dead (qof d Q) (ql_q _ _ A Q)) as (_ & PI & PV & _). rewrite PV, PI. destruct (ql_l _ _ A _ _ _ X) as [Y1 Y2]. now rewrite Y1, Y2, DI.
    + destruct B as [B1 B2 B3 B4]. constructor; [|intros i []| |constructor].
      * intros i N. destruct (dead i) eqn:DI; [apply DD in DI; unfold okb; now rewrite DI|]. destruct (Z i) as [X|X]; [apply DD in X; congruence|]. rewrite X. now apply B1.
      * intros i I. destruct (Z i) as [X|X]; [exact X|]. rewrite X. now apply B3.
  - intros i X. destruct (Z i) as [Y|Y]; [congruence|]. rewrite Y in X. destruct (M i X) as (U1 & U2 & U3). assert (DI : dead i = false) by (destruct (dead i) eqn:W; [apply DD in W; rewrite Y in W; congruence|reflexivity]).
    unfold lf, flush_mispred. cbn [un]. fold d. rewrite U1, U2, U3. cbn [andb orb negb]. unfold dead, lf, flush_mispred in DI. cbn [ld lq] in DI. fold d in DI. rewrite DI. now repeat split.
  - apply AL_cap; [intros i X; destruct (Z i) as [Y|Y]; [congruence|now rewrite <- Y]|]. pose proof (EQ QW) as X. cbn [qof] in X. rewrite X. destruct (purge_all dead (wml d) (LI_QI _ _ QW H)) as (_ & _ & _ & ->). lia.
Qed.
Lemma flush_ok i cur l : LI [] (ld l) -> MI (ld l) (un l) -> let l' := comb_flush i cur l in LI [] (ld l') /\ MI (ld l') (un l') /\ cap (ld l') <= cap (ld l) /\ lbad (ld l') = lbad (ld l).
Proof.
  intros H M. cbv zeta. unfold comb_flush. set (l1 := if i_flush i then flush_global l else l). set (l2 := if i_mispred i then flush_mispred (i_brm i) l1 else l1).
  assert (A : LI [] (ld l1) /\ MI (ld l1) (un l1) /\ cap (ld l1) <= cap (ld l) /\ lbad (ld l1) = lbad (ld l)).
  { unfold l1. destruct (i_flush i); [destruct (flush_global_ok l H) as (A & B & C & _); split; [exact A|split; [exact B|split; [exact C|reflexivity]]]|]. split; [exact H|]. split; [exact M|]. split; [lia|reflexivity]. }
  assert (B : LI [] (ld l2) /\ MI (ld l2) (un l2) /\ cap (ld l2) <= cap (ld l) /\ lbad (ld l2) = lbad (ld l)).
  { destruct A as (A1 & A2 & A3 & A4). unfold l2. destruct (i_mispred i); [|split; [exact A1|split; [exact A2|split; [exact A3|exact A4]]]]. destruct (flush_mispred_ok (i_brm i) l1 A1 A2) as (B1 & B2 & B3 & _). cbv zeta in *. split; [exact B1|]. split; [exact B2|]. split; [lia|exact A4]. }
  clearbody l2. clear A l1. destruct B as (B1 & B2 & B3 & B4). destruct (nz (i_clear i)); [|split; [exact B1|split; [exact B2|split; [exact B3|exact B4]]]].
  unfold flush_clear. cbn [ld un]. set (d := set_lq _ _). assert (S1 : forall j, l_st (lq d j) = l_st (lq (ld l2) j) /\ forall p, okb p (lq d j) = okb p (lq (ld l2) j)) by (intros j; unfold d; cbn [set_lq lq]; destruct (_ && _); split; reflexivity).
  split; [|split; [|split; [|exact B4]]].
  - destruct B1 as (loc & X & Y). exists loc. split; [apply (QL_ext _ (ld l2)); [now intros []|exact X]|]. destruct Y as [Y1 Y2 Y3 Y4]. constructor; [intros j J; rewrite (proj2 (S1 j)); now apply Y1|intros j []|intros j J; rewrite (proj1 (S1 j)); now apply Y3|exact Y4].
  - apply (MI_ext (ld l2)); [intros j; rewrite (proj1 (S1 j)); auto|exact B2].
  - enough (cap d <= cap (ld l2)) by lia. apply AL_cap; [intros j; rewrite (proj1 (S1 j)); auto|]. unfold d. cbn [set_lq wml]. lia.
Qed.

(** *** comb_lsu2dcache_ldq *)
Lemma norm_idem g : normalize_lsu_req_gen g = (normalize_lsu_req_gen g mod 2 ^ 27)%Z.
Proof. unfold normalize_lsu_req_gen, kLsuReqIdGenBits. change (2 ^ (31 - LDQ_IDX_WIDTH) - 1)%Z with (Z.ones 27). rewrite Z.land_ones by lia. now rewrite Z.mod_mod. Qed.
Lemma issue_ok g0 ks : forall n d out, LI [] d -> PI d out -> let '(d', out') := issue_loads g0 ks n d out in
  LI [] d' /\ PI d' out' /\ lbad d' = lbad d /\ qof d' QW = qof d QW /\ (forall i, lq d' i = lq d i \/ l_st (lq d i) = LReadyToIssue /\ lq d' i = set_l_st LWaitDcacheResp (lq d i)).
Proof.
  induction ks as [|k t IH]; intros n d out H P; cbn [issue_loads]; [split; [exact H|]; split; [exact P|]; do 2 (split; [reflexivity|]); now left|].
  assert (R0 : LI [] d /\ PI d out /\ lbad d = lbad d /\ qof d QW = qof d QW /\ (forall i, lq d i = lq d i \/ l_st (lq d i) = LReadyToIssue /\ lq d i = set_l_st LWaitDcacheResp (lq d i))) by (do 4 (split; [try reflexivity; assumption|]); now left).
  destruct (LSU_LDU_COUNT <=? n); [exact R0|]. destruct (qv (wdl d) k) eqn:V; cbn [negb]; [|now apply IH]. destruct (is_l d (qi (wdl d) k) LReadyToIssue) eqn:S0; cbn [negb]; [|now apply IH]. apply is_l_eq in S0.
  set (d1 := set_wwait _ d). assert (H1 : LI [] d1) by (apply (LI_ext _ d); [now intros []|reflexivity|exact H]). assert (P1 : PI d1 out) by (destruct P; constructor; assumption).
  destruct (0 <? pred (wwait d k)); [exact (IH n d1 out H1 P1)|].
  change (qv (qof d QD) k = true) in V. destruct (LI_at _ _ _ _ H V) as (A & B & C & OK). change (qi (qof d QD) k) with (qi (wdl d) k) in *. set (i := qi (wdl d) k) in *.
  assert (MM : l_mmio (lq d i) = false). { unfold okb in OK. rewrite S0 in OK. apply andb_true_iff in OK as [_ X]. now apply negb_true_iff. }
  assert (PP : l_pf (lq d i) = false). { unfold okb in OK. rewrite S0 in OK. apply andb_true_iff in OK as [X _]. now apply negb_true_iff. }
  change (lq d1 i) with (lq d i). rewrite MM. set (gen := normalize_lsu_req_gen (g0 + Z.of_nat n)). set (d2 := set_wgen _ _).
  assert (L2 : LI [] d2). { apply (LI_ext _ (upd_l i (set_l_st LWaitDcacheResp) d)); [now intros []|reflexivity|]. apply (LI_stay_at [] d QD k); [exact H|exact V|]. change (qi (qof d QD) k) with i. unfold okb. cbn [l_st l_pf l_mmio set_l_st]. now rewrite PP, MM. }
  assert (E2 : forall j, j <> i -> lq d2 j = lq d j) by (intros j J; cbn [d2 set_wgen upd_l set_lq lq d1 set_wwait]; now apply fupd_ne).
  assert (E3 : lq d2 i = set_l_st LWaitDcacheResp (lq d i)) by (cbn [d2 set_wgen upd_l set_lq lq d1 set_wwait]; apply fupd_eq).
  assert (G2 : forall j, j <> k -> wgen d2 j = wgen d j) by (intros j J; cbn [d2 set_wgen wgen upd_l set_lq d1 set_wwait]; now apply fupd_ne).
  assert (G3 : wgen d2 k = gen) by (cbn [d2 set_wgen wgen]; apply fupd_eq).
  assert (OTH : forall j, qv (wdl d) j = true -> j <> k -> qi (wdl d) j <> i) by (intros j J NE X; apply NE; exact (proj2 (LI_inj [] d QD j QD k H J V X))).
  assert (P2 : PI d2 (out ++ [DLq (l_pa (lq d2 i)) (make_lsu_load_req_id (Z.of_nat k) gen)])).
  { destruct P as [PA PB PN]. constructor.
    - intros q Q. apply in_app_or in Q as [Q|[<-|[]]].
      + destruct (PA q Q) as (j & J1 & J2 & J3 & J4 & J5 & J6). assert (NE : j <> k) by (intros ->; change (qi (wdl d) k) with i in J4; congruence). exists j. split; [exact J1|]. unfold rid in *. rewrite G2 by exact NE. split; [exact J2|]. change (wdl d2) with (wdl d). rewrite E2 by now apply OTH. auto.
      + exists k. split; [exact C|]. split; [unfold rid; now rewrite G3|]. change (wdl d2) with (wdl d). change (qi (wdl d) k) with i. split; [exact V|]. split; [now rewrite E3|]. split; [reflexivity|]. rewrite G3. apply norm_idem.
    - intros j J1 J2. change (wdl d2) with (wdl d) in *. destruct (Nat.eq_dec j k) as [->|NE].
      + eexists. split; [apply in_or_app; right; now left|]. unfold rid. now rewrite G3.
      + rewrite E2 in J2 by now apply OTH. destruct (PB j J1 J2) as (q & Q1 & Q2). exists q. split; [apply in_or_app; now left|]. unfold rid in *. now rewrite G2.
    - rewrite map_app. apply NoDup_app_intro; [exact PN|repeat constructor; auto|]. intros x X [Y|[]]. cbn [q_id] in Y. apply in_map_iff in X as (q & Q1 & Q2). destruct (PA q Q2) as (j & J1 & J2 & J3 & J4 & _).
      assert (j = k); [|subst j; change (qi (wdl d) k) with i in J4; congruence]. unfold rid in J2. destruct (c25_req_id_injective (Z.of_nat k) gen (Z.of_nat j) (wgen d j)) as [Z _]; [lia|lia|congruence|lia]. }
  specialize (IH (S n) d2 _ L2 P2). destruct (issue_loads g0 t (S n) d2 _) as [d' out']. destruct IH as (X1 & X2 & X3 & X4 & X5). split; [exact X1|]. split; [exact X2|]. split; [exact X3|]. split; [exact X4|].
  intros j. destruct (Nat.eq_dec j i) as [->|NE].
  - right. split; [exact S0|]. destruct (X5 i) as [Y|[Y _]]; [now rewrite Y|]. rewrite E3 in Y. discriminate.
  - rewrite <- (E2 j NE). apply X5.
Qed.
Lemma issue_stores_un cur is : forall n s u out, u_v u = true -> snd (fst (issue_stores cur is n s u out)) = u.
Proof.
  induction is as [|a t IH]; intros n s u out U; cbn [issue_stores]; [reflexivity|]. destruct (LSU_STA_COUNT <=? n); [reflexivity|]. destruct (_ || _); [now apply IH|]. destruct (0 <? _); [now apply IH|]. destruct (blocked _ _); [now apply IH|]. destruct (s_mmio _).
  - rewrite U. cbn [negb]. rewrite andb_false_r. now apply IH.
  - destruct (s_sup _); now apply IH.
Qed.
