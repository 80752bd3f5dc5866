(** What the phases of a cycle do to a load that has been executed. *)
From Verif Require Import Base BaseLemmas Ring MemModel MemSpec MemProofs LsuModel LsuStq.
Local Open Scope nat_scope.

Definition live (e : ldqe) : bool := match l_st e with LEmpty | LAllocated => false | _ => true end.
(** The load has been compared with the older stores and goes to the cache. *)
Definition checked (e : ldqe) : bool := match l_st e with LWaitDcache | LReadyToIssue | LWaitDcacheResp => true | _ => false end.
(** It has got its value. *)
Definition valued (e : ldqe) : bool := match l_st e with LReadyToWb | LWaitFinish => negb (l_pf e) | _ => false end.
Definition at_bus (e : ldqe) : bool := match l_st e with LWaitMmioResp => true | _ => false end.
(** A phase that neither executes, compares nor answers the load. *)
Definition fe (e e' : ldqe) : Prop := live e' = true -> live e = true /\ l_si e' = l_si e /\ l_sf e' = l_sf e /\ (checked e' = true -> checked e = true /\ l_pa e' = l_pa e /\ l_f3 e' = l_f3 e) /\
  (valued e' = true -> valued e = true /\ l_pa e' = l_pa e /\ l_f3 e' = l_f3 e /\ l_res e' = l_res e /\ l_mmio e' = l_mmio e) /\ (at_bus e' = true -> at_bus e = true /\ l_mmio e' = l_mmio e).
Definition FE (d d' : ldqs) : Prop := forall j, fe (lq d j) (lq d' j).
Lemma fe_refl e : fe e e. Proof. intros L. tauto. Qed.
Lemma fe_trans a b c : fe a b -> fe b c -> fe a c.
Proof.
  intros A B L. destruct (B L) as (B1 & B2 & B3 & B4 & B5 & B6). destruct (A B1) as (A1 & A2 & A3 & A4 & A5 & A6). split; [exact A1|]. split; [congruence|]. split; [congruence|]. split; [|split].
  - intros C. destruct (B4 C) as (C1 & C2 & C3). destruct (A4 C1) as (D1 & D2 & D3). split; [exact D1|]. split; congruence.
  - intros C. destruct (B5 C) as (C1 & C2 & C3 & C4 & C5). destruct (A5 C1) as (D1 & D2 & D3 & D4 & D5). repeat split; congruence.
  - intros C. destruct (B6 C) as (C1 & C2). destruct (A6 C1) as (D1 & D2). split; congruence.
Qed.
Lemma FE_refl d : FE d d. Proof. intros j. apply fe_refl. Qed.
Lemma FE_trans a b c : FE a b -> FE b c -> FE a c. Proof. intros A B j. exact (fe_trans _ _ _ (A j) (B j)). Qed.
Lemma FE_lq d d' : (forall j, lq d' j = lq d j) -> FE d d'. Proof. intros E j. rewrite E. apply fe_refl. Qed.
Lemma FE_upd d i f : fe (lq d i) (f (lq d i)) -> FE d (upd_l i f d).
Proof. intros H j. cbn [upd_l set_lq lq]. unfold fupd. destruct (Nat.eqb_spec j i) as [->|]; [exact H|apply fe_refl]. Qed.
Lemma FE_fold {B} (f : ldqs -> B -> ldqs) l : (forall d b, FE d (f d b)) -> forall d, FE d (fold_left f l d).
Proof. intros H. induction l as [|b l IH]; intros d; [apply FE_refl|]. cbn. eapply FE_trans; [apply H|apply IH]. Qed.
Ltac fes E := let L := fresh in intros L; unfold live, checked, valued, at_bus in *; cbn in *; rewrite ?E in *; repeat split; auto; try discriminate.

Lemma load_wb_FE ks : forall y, FE (y_d y) (y_d (fold_left load_wb ks y)).
Proof.
  induction ks as [|k t IH]; intros y; [apply FE_refl|]. cbn [fold_left]. eapply FE_trans; [|apply IH]. unfold load_wb. destruct (_ <=? _); [apply FE_refl|]. cbv zeta. destruct (negb _); [apply FE_refl|]. destruct (negb _); [apply FE_refl|].
  cbn [y_d]. eapply FE_trans; [|now apply FE_lq]. apply FE_upd. intros L. discriminate.
Qed.
Lemma lsu2exe_FE cur l : FE (ld l) (ld (fst (comb_lsu2exe cur l))).
Proof.
  unfold comb_lsu2exe. cbv zeta. cbn [fst ld]. match goal with |- context [fold_left load_wb _ ?y] => pose proof (load_wb_FE (window (fin (ld l))) y) as X end. eapply FE_trans; [exact X|]. now apply FE_lq.
Qed.
Lemma handle_other d r j : j <> lr_idx r -> lq (handle_load_req d r) j = lq d j.
Proof. intros N. unfold handle_load_req. destruct (_ <=? _); [reflexivity|]. destruct (_ || _); [reflexivity|]. cbv zeta. cbn [set_wml upd_l set_lq lq]. now rewrite fupd_ne. Qed.
(** A load executed in this cycle. *)
Definition requested (rs : list ldreq) (j : nat) (e : ldqe) : Prop := exists r, In r rs /\ lr_idx r = j /\ l_si e = lr_si r /\ l_sf e = lr_sf r /\ checked e = false /\ valued e = false /\ at_bus e = false.
Lemma handles_FE rs : forall d j, requested rs j (lq (fold_left handle_load_req rs d) j) \/ fe (lq d j) (lq (fold_left handle_load_req rs d) j).
Proof.
  induction rs as [|r t IH]; intros d j; [right; apply fe_refl|]. cbn [fold_left]. destruct (IH (handle_load_req d r) j) as [(r' & R & X)|X]; [left; exists r'; split; [now right|exact X]|].
  destruct (Nat.eq_dec j (lr_idx r)) as [->|N]; [|right; now rewrite handle_other in X].
  unfold handle_load_req in X at 1. destruct (_ <=? _) eqn:B1; [right; unfold handle_load_req; rewrite B1; unfold handle_load_req in X; rewrite B1 in X; exact X|].
  destruct (negb (Bool.eqb _ _) || _) eqn:B2; [right; unfold handle_load_req in X; rewrite B1, B2 in X; unfold handle_load_req; rewrite B1, B2; exact X|].
  cbv zeta in X. cbn [set_wml upd_l set_lq lq] in X. rewrite fupd_eq in X. set (e' := lq (fold_left handle_load_req t (handle_load_req d r)) (lr_idx r)) in *.
  destruct (live e') eqn:L; [|right; intros Y; congruence]. destruct (X L) as (X1 & X2 & X3 & X4 & X5 & X6). cbn in X2, X3. left. exists r. split; [now left|]. split; [reflexivity|]. split; [exact X2|]. split; [exact X3|]. split; [|split].
  - destruct (checked e') eqn:C; [|reflexivity]. destruct (X4 eq_refl) as [Y _]. discriminate.
  - destruct (valued e') eqn:C; [|reflexivity]. destruct (X5 eq_refl) as [Y _]. discriminate.
  - destruct (at_bus e') eqn:C; [|reflexivity]. destruct (X6 eq_refl) as [Y _]. discriminate.
Qed.
Lemma tlb_resp_FE p r : FE (fst p) (fst (tlb_resp_l p r)).
Proof.
  destruct p as [d rl]. unfold tlb_resp_l. cbn [fst]. destruct (_ || _); [apply FE_refl|]. destruct (_ || _); [apply FE_refl|]. destruct (is_l _ _ _) eqn:E; cbn [negb]; [|now apply FE_lq]. apply is_l_eq in E.
  destruct (mr_res r); cbn [fst]; apply FE_upd; fes E.
Qed.
Lemma tlb_move_FE ks : forall ns nf d, FE d (tlb_move_l ks ns nf d).
Proof.
  induction ks as [|k t IH]; intros ns nf d; cbn [tlb_move_l]; [apply FE_refl|]. destruct (negb _); [apply IH|]. cbv zeta. destruct (l_st (lq d (qi (wml d) k))) eqn:E; try apply IH.
  - eapply FE_trans; [|apply IH]. apply FE_upd. fes E.
  - destruct (_ && _); [|apply IH]. eapply FE_trans; [|apply IH]. eapply FE_trans; [|now apply FE_lq]. apply FE_upd. fes E.
  - destruct (_ && _); [|apply IH]. eapply FE_trans; [|apply IH]. eapply FE_trans; [|now apply FE_lq]. apply FE_upd. fes E.
Qed.
Lemma tlb_in_FE rs d rl : FE d (fst (comb_tlb_in_ldq rs d rl)).
Proof.
  unfold comb_tlb_in_ldq. destruct (fold_left tlb_resp_l rs (d, rl)) as [d1 rl1] eqn:E. cbn [fst].
  assert (A : FE d d1). { change d1 with (fst (d1, rl1)). rewrite <- E. change d with (fst (d, rl)) at 1. apply (fold_left_inv (fun p => FE (fst (d, rl)) (fst p))); [|apply FE_refl]. intros a b _ P. exact (FE_trans _ _ _ P (tlb_resp_FE _ _)). }
  eapply FE_trans; [exact A|]. eapply FE_trans; [apply tlb_move_FE|]. now apply FE_lq.
Qed.

(** *** The comparison with the older stores *)
Definition chk (e : ldqe) : bool := match l_st e with LCheckStlf | LCheckStlfRetry => true | _ => false end.
Definition same (e e' : ldqe) : Prop := l_pa e' = l_pa e /\ l_f3 e' = l_f3 e /\ l_si e' = l_si e /\ l_sf e' = l_sf e /\ l_mmio e' = l_mmio e /\ l_pf e' = l_pf e.
Definition verdict (s : stqs) (e : ldqe) (o : stlf_out) : Prop := l_mmio e = false /\ exists n, stq_distance (sh s) (shf s) (sn s) (l_si e) (l_sf e) = Some n /\ stlf_scan (l_pa e) (l_f3 e) (older s n) = o.
Inductive ck (s : stqs) (e e' : ldqe) : Prop :=
| ck_id : e' = e -> ck s e e'
| ck_again : chk e = true -> chk e' = true \/ l_st e' = LWaitMmioResp /\ l_mmio e = true -> same e e' -> ck s e e'
| ck_cache : chk e = true -> verdict s e ToDcache -> l_st e' = LWaitDcache \/ l_st e' = LReadyToIssue -> same e e' -> ck s e e'
| ck_fwd v : chk e = true -> verdict s e (Forward v) -> l_st e' = LWaitFinish \/ l_st e' = LReadyToWb -> l_res e' = v -> same e e' -> ck s e e'
| ck_go : l_st e = LWaitDcache -> l_st e' = LReadyToIssue -> same e e' -> ck s e e'
| ck_fin : l_st e = LWaitFinish -> l_st e' = LReadyToWb -> l_res e' = l_res e -> same e e' -> ck s e e'.
Lemma same_refl e : same e e. Proof. repeat split. Qed.
Lemma same_trans a b c : same a b -> same b c -> same a c.
Proof. intros (?&?&?&?&?&?) (?&?&?&?&?&?). repeat split; congruence. Qed.
Lemma same_verdict s e e' o : same e e' -> verdict s e' o -> verdict s e o.
Proof. intros (A&B&C&D&E&F) (M & n & X & Y). split; [congruence|]. exists n. split; congruence. Qed.
Lemma ck_trans s a b c : ck s a b -> ck s b c -> ck s a c.
Proof.
  intros A B. destruct B as [->|B1 B2 B3|B1 B2 B3 B4|v B1 B2 B3 B4 B5|B1 B2 B3|B1 B2 B3 B4]; [exact A| | | | |];
  (destruct A as [->|A1 A2 A3|A1 A2 A3 A4|w A1 A2 A3 A4 A5|A1 A2 A3|A1 A2 A3 A4];
  [|try (exfalso; clear - A1 A2 B1; unfold chk in *; destruct (l_st b); intuition discriminate)|try (exfalso; clear - A3 B1; unfold chk in *; destruct (l_st b); intuition discriminate)|try (exfalso; clear - A3 B1; unfold chk in *; destruct (l_st b); intuition discriminate)|try (exfalso; clear - A2 B1; unfold chk in *; destruct (l_st b); intuition discriminate)|try (exfalso; clear - A2 B1; unfold chk in *; destruct (l_st b); intuition discriminate)]).
  all: try solve [eauto using ck_again, ck_cache, ck_fwd, ck_go, ck_fin, same_trans, same_verdict].
  - apply ck_again; [exact A1| |now apply (same_trans _ b)]. destruct B2 as [B2|[B2 B4]]; [now left|right]. split; [exact B2|]. destruct A3 as (_ & _ & _ & _ & X & _). congruence.
  - eapply ck_fwd; eauto using same_trans. congruence.
Qed.
Definition CK (s : stqs) (d d' : ldqs) : Prop := forall j, ck s (lq d j) (lq d' j).
Lemma CK_refl s d : CK s d d. Proof. intros j. now apply ck_id. Qed.
Lemma CK_trans s a b c : CK s a b -> CK s b c -> CK s a c. Proof. intros A B j. exact (ck_trans _ _ _ _ (A j) (B j)). Qed.
Lemma CK_lq s d d' : (forall j, lq d' j = lq d j) -> CK s d d'. Proof. intros E j. rewrite E. now apply ck_id. Qed.
Lemma CK_upd s d i f : ck s (lq d i) (f (lq d i)) -> CK s d (upd_l i f d).
Proof. intros H j. cbn [upd_l set_lq lq]. unfold fupd. destruct (Nat.eqb_spec j i) as [->|]; [exact H|now apply ck_id]. Qed.
Lemma stlf_check_ck s head i n u e : l_st e = LCheckStlf -> stq_distance (sh s) (shf s) (sn s) (l_si e) (l_sf e) = Some n -> ck s e (fst (stlf_check s head i n u e)).
Proof.
  intros E D. unfold stlf_check. assert (C : chk e = true) by (unfold chk; now rewrite E). destruct (l_mmio e) eqn:M.
  - destruct (_ && _); cbn [fst]; apply ck_again; try repeat split; auto.
  - destruct (stlf_scan _ _ _) eqn:Sc; cbn [fst].
    + eapply ck_fwd; [exact C| | | |]; [split; [exact M|exists n; split; [exact D|exact Sc]]|now left|reflexivity|repeat split].
    + apply ck_again; try repeat split; auto.
    + eapply ck_cache; [exact C| | |]; [split; [exact M|exists n; split; [exact D|exact Sc]]|now left|repeat split].
Qed.
Lemma stlf_loop_ck s head ks : forall d u np rt, CK s d (fst (fst (fst (stlf_loop s head ks d u np rt)))).
Proof.
  induction ks as [|k t IH]; intros d u np rt; cbn [stlf_loop]; [apply CK_refl|]. destruct (negb _); [apply IH|]. cbv zeta. set (i := qi (stl d) k).
  assert (GO : forall d1 u1, CK s d d1 -> CK s d (fst (fst (fst (
      match l_st (lq d1 i) with
      | LEmpty => stlf_loop s head t (set_stl (kill (stl d1) k) d1) u1 (S np) rt
      | LWaitDcache => if qn (wdl d1) <? LDQ_SIZE then stlf_loop s head t (set_stl (kill (stl (upd_l i (set_l_st LReadyToIssue) (set_wdl (enq (wdl d1) i) d1))) k) (upd_l i (set_l_st LReadyToIssue) (set_wdl (enq (wdl d1) i) d1))) u1 (S np) rt else (d1, u1, np, rt)
      | LWaitFinish => if qn (fin d1) <? LDQ_SIZE then stlf_loop s head t (set_stl (kill (stl (upd_l i (set_l_st LReadyToWb) (set_fin (enq (fin d1) i) d1))) k) (upd_l i (set_l_st LReadyToWb) (set_fin (enq (fin d1) i) d1))) u1 (S np) rt else (d1, u1, np, rt)
      | LWaitMmioResp => stlf_loop s head t (set_stl (kill (stl d1) k) d1) u1 (S np) rt
      | LCheckStlfRetry => stlf_loop s head t (set_stl (kill (stl (upd_l i (set_l_st LCheckStlf) d1)) k) (upd_l i (set_l_st LCheckStlf) d1)) u1 (S np) (rt ++ [i])
      | _ => (d1, u1, np, rt)
      end))))).
  { intros d1 u1 H. apply (CK_trans _ _ d1); [exact H|]. destruct (l_st (lq d1 i)) eqn:E; cbn [fst]; try apply CK_refl.
    - eapply CK_trans; [|apply IH]. now apply CK_lq.
    - eapply CK_trans; [|apply IH]. apply (CK_trans _ _ (upd_l i (set_l_st LCheckStlf) d1)); [|now apply CK_lq]. apply CK_upd. apply ck_again; [unfold chk; now rewrite E|now left|repeat split].
    - eapply CK_trans; [|apply IH]. now apply CK_lq.
    - destruct (_ <? _); cbn [fst]; [|apply CK_refl]. eapply CK_trans; [|apply IH]. apply (CK_trans _ _ (upd_l i (set_l_st LReadyToWb) d1)); [|now apply CK_lq]. apply CK_upd. apply ck_fin; [exact E|reflexivity|reflexivity|repeat split].
    - destruct (_ <? _); cbn [fst]; [|apply CK_refl]. eapply CK_trans; [|apply IH]. apply (CK_trans _ _ (upd_l i (set_l_st LReadyToIssue) d1)); [|now apply CK_lq]. apply CK_upd. apply ck_go; [exact E|reflexivity|repeat split]. }
  destruct (l_st (lq d i)) eqn:E; try (exact (GO d u (CK_refl s d))).
  destruct (stq_distance _ _ _ _ _) as [n|] eqn:D; [|apply CK_lq; reflexivity].
  pose proof (stlf_check_ck s head i n u (lq d i) E D) as X. destruct (stlf_check s head i n u (lq d i)) as [e u'] eqn:SC. cbn [fst] in X. apply (GO (upd_l i (fun _ => e) d) u'). apply CK_upd. exact X.
Qed.
Lemma requeue_lq l : forall d, lq (fold_left requeue l d) = lq d.
Proof. induction l as [|a l IH]; intros d; [reflexivity|]. cbn [fold_left]. rewrite IH. unfold requeue. now destruct (_ <? _). Qed.
Lemma stlf_CK head l : CK (st l) (ld l) (ld (comb_stlf head l)).
Proof.
  unfold comb_stlf. pose proof (stlf_loop_ck (st l) head (window (stl (ld l))) (ld l) (un l) 0 []) as X. destruct (stlf_loop _ _ _ _ _ _ _) as [[[d u] np] rt]. cbn [fst] in X. cbn [ld].
  eapply CK_trans; [exact X|]. apply CK_lq. intros j. now rewrite requeue_lq.
Qed.
Lemma alloc_FE rs d : FE d (fold_left alloc_ldq rs d).
Proof.
  apply FE_fold. clear. intros d r. unfold alloc_ldq. destruct (negb _); [now apply FE_lq|]. apply FE_upd. intros L. discriminate.
Qed.
Lemma flush_FE i cur l : FE (ld l) (ld (comb_flush i cur l)).
Proof.
  unfold comb_flush. set (l1 := if i_flush i then flush_global l else l). set (l2 := if i_mispred i then flush_mispred (i_brm i) l1 else l1).
  apply (FE_trans _ (ld l1)); [|apply (FE_trans _ (ld l2))].
  - unfold l1. destruct (i_flush i); [|apply FE_refl]. intros j. unfold flush_global. cbn [ld lq]. destruct (j <? LDQ_SIZE); [|apply fe_refl]. intros L. discriminate.
  - unfold l2. destruct (i_mispred i); [|apply FE_refl]. intros j. unfold flush_mispred. cbn [ld lq]. destruct (_ && _); [|apply fe_refl]. intros L. discriminate.
  - destruct (nz _); [|apply FE_refl]. intros j. unfold flush_clear. cbn [ld set_lq lq]. destruct (_ && _); [|apply fe_refl]. intros L. unfold live, checked, valued, at_bus in *. cbn in *. tauto.
Qed.
Lemma issue_FE g0 ks : forall n d out, FE d (fst (issue_loads g0 ks n d out)).
Proof.
  induction ks as [|k t IH]; intros n d out; cbn [issue_loads]; [apply FE_refl|]. destruct (_ <=? _); [apply FE_refl|]. destruct (negb _); [apply IH|]. cbv zeta. destruct (is_l _ _ _) eqn:E; cbn [negb]; [|apply IH]. apply is_l_eq in E.
  set (d1 := set_wwait _ d). assert (A : FE d d1) by now apply FE_lq. destruct (_ <? _); [eapply FE_trans; [exact A|apply IH]|]. eapply FE_trans; [|apply IH].
  set (d2 := upd_l (qi (wdl d) k) (set_l_st LWaitDcacheResp) d1). apply (FE_trans _ d2); [eapply FE_trans; [exact A|]; apply FE_upd; change (lq d1) with (lq d); fes E|]. change (qi (wdl d1) k) with (qi (wdl d) k). fold d2. destruct (l_mmio _); now apply FE_lq.
Qed.
