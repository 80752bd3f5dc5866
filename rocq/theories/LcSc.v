(** Which entries of the store queue count as store conditionals. *)
From Verif Require Import Base BaseLemmas Ring MemModel MemSpec MemProofs LsuModel LsuStq LsuQ LsuRun LsuSpec LsuHist LsuSquashProps LdqMain LsuCycle LvStab LvStores RlLsu.
Local Open Scope nat_scope.
Ltac Zify.zify_post_hook ::= Z.div_mod_to_equations.

(** No entry becomes a store conditional. *)
Definition sle (s s' : stqs) : Prop := forall k, s_lrsc (sq s' k) = true -> s_lrsc (sq s k) = true.
Lemma sle_refl s : sle s s. Proof. now intros k. Qed.
Lemma sle_trans a b c : sle a b -> sle b c -> sle a c. Proof. intros A B k X. apply A, B, X. Qed.
Lemma sle_sq s s' : sq s' = sq s -> sle s s'. Proof. intros E k. now rewrite E. Qed.
Lemma sle_upd s i f : (s_lrsc (f (sq s i)) = true -> s_lrsc (sq s i) = true) -> sle s (upd_s i f s).
Proof. intros H k. cbn [upd_s set_sq sq]. unfold fupd. destruct (Nat.eqb_spec k i) as [->|]; auto. Qed.
Lemma sle_fold {B} (f : stqs -> B -> stqs) l : (forall s b, sle s (f s b)) -> forall s, sle s (fold_left f l s).
Proof. intros H s. apply (fold_left_inv (fun x => sle s x)); [|apply sle_refl]. intros a b _ P. exact (sle_trans _ _ _ P (H a b)). Qed.

Lemma commits_sle cs fl s : sle s (comb_stq_commit cs fl s).
Proof.
  apply sle_fold. intros a x. unfold commit_one. destruct (_ && _); [|now apply sle_sq]. eapply sle_trans; [|apply sle_sq; reflexivity]. apply sle_upd. destruct fl; [easy|]. destruct (_ && _); easy.
Qed.
Lemma mmio_in_sle resp cur l : sle (st l) (st (comb_mmio_in resp cur l)).
Proof.
  unfold comb_mmio_in. destruct resp; [|apply sle_refl]. destruct (negb (u_v cur)); [apply sle_refl|].
  destruct (u_ld cur); cbn [st]; [destruct (_ <? _); cbn; apply sle_refl|]. destruct (is_s _ _ _); [|apply sle_refl]. now apply sle_upd.
Qed.
Lemma wake_stores_sle addr ks : forall n s, sle s (wake_stores addr ks n s).
Proof.
  induction ks as [|k t IH]; intros n s; cbn [wake_stores]; [apply sle_refl|]. assert (W : sle s (upd_s k (set_s_wait 0) s)) by now apply sle_upd.
  destruct (_ || _); [apply IH|]. destruct (s_rep (sq s k)); try apply IH; [destruct (line_match _ _)|destruct (_ <? _)]; try apply IH; eapply sle_trans; try exact W; apply IH.
Qed.
Lemma dcache_sle rs fill s : sle s (comb_dcache2lsu_stq rs fill s).
Proof.
  unfold comb_dcache2lsu_stq. assert (F : sle s (fold_left store_resp rs s)).
  { apply sle_fold. intros a r. unfold store_resp. destruct (_ <=? _); [now apply sle_sq|]. destruct (is_s _ _ _); [|apply sle_refl]. destruct (ds_rep r); now apply sle_upd. }
  destruct fill; [|exact F]. eapply sle_trans; [exact F|apply wake_stores_sle].
Qed.
Lemma answered_sle cur i : sle (st cur) (st (answered cur i)).
Proof. unfold answered. cbv zeta. cbn [st]. eapply sle_trans; [|apply dcache_sle]. eapply sle_trans; [|apply mmio_in_sle]. cbn [st]. apply commits_sle. Qed.
Lemma sta_wb_sle cur x k : sle (x_s x) (x_s (sta_wb cur x k)).
Proof.
  unfold sta_wb. destruct (negb (qv _ k)); [apply sle_refl|]. destruct (negb _); [apply sle_refl|].
  destruct (s_lrsc _) eqn:E; (destruct (_ <=? _); [apply sle_refl|]); cbn [x_s]; (eapply sle_trans; [|apply sle_sq; reflexivity]); apply sle_upd; [intros _; exact E|intros X; exact X].
Qed.
Lemma lsu2exe_sle cur l : sle (st l) (st (fst (comb_lsu2exe cur l))).
Proof.
  unfold comb_lsu2exe. cbn [fst st]. eapply sle_trans; [|apply sle_sq; reflexivity]. set (x0 := LX (st l) (lr l) 0 0 []). change (st l) with (x_s x0) at 1.
  apply (fold_left_inv (fun x => sle (x_s x0) (x_s x))); [|apply sle_refl]. intros a b _ P. exact (sle_trans _ _ _ P (sta_wb_sle _ _ _)).
Qed.
Lemma store_data_sle s r : sle s (handle_store_data s r).
Proof.
  unfold handle_store_data. destruct (_ <=? _); [apply sle_refl|]. destruct (_ || _); [now apply sle_sq|]. cbv zeta. destruct (_ && _); (eapply sle_trans; [|apply sle_sq; reflexivity]) || idtac; now apply sle_upd.
Qed.
Lemma store_addrs_sc rs : forall s k, s_lrsc (sq (fold_left handle_store_addr rs s) k) = true -> s_lrsc (sq s k) = true \/ exists r, In r rs /\ sa_idx r = k /\ sa_sc r = true.
Proof.
  induction rs as [|r t IH]; intros s k H; [now left|]. cbn [fold_left] in H. destruct (IH _ _ H) as [X|(r' & A & B & C)]; [|right; exists r'; split; [now right|now split]].
  unfold handle_store_addr in X. destruct (_ <=? _); [now left|]. destruct (_ || _); [now left|]. cbv zeta in X. cbn [set_wms upd_s set_sq sq] in X. unfold fupd in X. destruct (Nat.eqb_spec k (sa_idx r)) as [->|]; [|now left].
  cbn [set_s_lrsc s_lrsc] in X. right. exists r. split; [now left|now split].
Qed.
Lemma tlb_in_sle rs s rl : sle s (fst (comb_tlb_in_stq rs s rl)).
Proof.
  unfold comb_tlb_in_stq. destruct (fold_left tlb_resp_s rs (s, rl)) as [s1 rl1] eqn:E. cbn [fst].
  assert (A : sle s s1).
  { change s1 with (fst (s1, rl1)). rewrite <- E. change s with (fst (s, rl)) at 1.
    apply (fold_left_inv (fun p => sle (fst (s, rl)) (fst p))); [|apply sle_refl]. intros [a ra] r _ P. apply (sle_trans _ _ _ P). unfold tlb_resp_s. cbn [fst]. destruct (_ || _); [apply sle_refl|]. destruct (_ || _); [apply sle_refl|].
    destruct (is_s a (mr_ent r) SWaitTlb); cbn [negb]; [|apply sle_refl]. destruct (mr_res r); cbn [fst]; now apply sle_upd. }
  eapply sle_trans; [exact A|]. eapply sle_trans; [|apply sle_sq; reflexivity]. apply sle_fold. intros a k. unfold tlb_move_s. destruct (negb _); [apply sle_refl|]. destruct (s_st _); try apply sle_refl.
  - now apply sle_upd.
  - now apply sle_sq.
  - eapply sle_trans; [|apply sle_sq; reflexivity]. apply sle_upd. destruct (s_pf _); auto.
Qed.
Lemma flush_sle i cur l : sle (st l) (st (comb_flush i cur l)).
Proof.
  unfold comb_flush. apply (sle_trans _ (st (if i_mispred i then flush_mispred (i_brm i) (if i_flush i then flush_global l else l) else if i_flush i then flush_global l else l))).
  - apply sle_sq. destruct (i_mispred i), (i_flush i); reflexivity.
  - destruct (nz _); [|apply sle_refl]. unfold flush_clear. cbn [st]. apply sle_fold. intros s b. now apply sle_upd.
Qed.
Lemma issue_sle cur is : forall n s u out, sle s (fst (fst (issue_stores cur is n s u out))).
Proof.
  induction is as [|i t IH]; intros n s u out; cbn [issue_stores]; [apply sle_refl|]. destruct (_ <=? _); [apply sle_refl|].
  set (k := (sh s + i) mod STQ_SIZE). destruct (_ || _); [apply IH|]. cbv zeta. set (w := pred (s_wait (sq s k))). assert (S1 : sle s (upd_s k (set_s_wait w) s)) by now apply sle_upd.
  set (s1 := upd_s k (set_s_wait w) s) in *. destruct (0 <? w); [eapply sle_trans; [exact S1|apply IH]|]. destruct (blocked s1 i); [eapply sle_trans; [exact S1|apply IH]|].
  destruct (s_mmio _).
  - destruct (_ && _); [|eapply sle_trans; [exact S1|apply IH]]. eapply sle_trans; [exact S1|]. eapply sle_trans; [|apply IH]. now apply sle_upd.
  - destruct (s_sup _); (eapply sle_trans; [exact S1|]; eapply sle_trans; [|apply IH]; now apply sle_upd).
Qed.
Lemma allocs_sle rs s : sle s (fold_left alloc_stq rs s).
Proof. apply sle_fold. intros a r. unfold alloc_stq. destruct (_ <=? _); [now apply sle_sq|]. destruct (negb _); [now apply sle_sq|]. eapply sle_trans; [|apply sle_sq; reflexivity]. apply sle_upd. discriminate. Qed.
Lemma allocs_new b rs : forall s, SInv b s -> sn s + length rs <= STQ_SIZE -> (forall j r, nth_error rs j = Some r -> sl_flag r = Nat.odd ((b + (sn s + j)) / STQ_SIZE)) ->
  forall k, sn s <= k < sn s + length rs -> s_lrsc (ent (fold_left alloc_stq rs s) k) = false.
Proof.
  induction rs as [|r t IH]; intros s V L FL k Kk; [cbn in Kk; lia|]. cbn [fold_left length] in *.
  destruct (allocs_spec b [r] s V) as (V1 & _ & SH & SN & _); [cbn; lia| |].
  { intros [|j] r' J; [exact (FL 0 r' J)|destruct j; discriminate]. }
  cbn [fold_left length] in *. assert (FL' : forall j r', nth_error t j = Some r' -> sl_flag r' = Nat.odd ((b + (sn (alloc_stq s r) + j)) / STQ_SIZE)) by (intros j r' J; rewrite (FL (S j) r' J); do 2 f_equal; lia).
  destruct (Nat.eq_dec k (sn s)) as [->|N]; [|apply IH; auto; lia].
  destruct (allocs_spec b t (alloc_stq s r) V1) as (_ & _ & _ & _ & _ & E & _); [lia|exact FL'|]. rewrite E by lia.
  assert (OK : alloc_stq s r = set_sn (S (sn s)) (upd_s (stq_idx_after (sh s) (sn s)) (fun _ => set_s_st SAllocated (set_s_f3 (sl_f3 r) (set_s_brm (sl_brm r) (set_s_flag (sl_flag r) (set_s_robf (sl_robf r) (set_s_rob (sl_rob r) stqe0)))))) s)).
  { unfold alloc_stq in *. destruct (_ <=? _); [cbn in SN; lia|]. destruct (negb _); [cbn in SN; lia|]. reflexivity. }
  rewrite OK. unfold ent. cbn [set_sn upd_s set_sq sq sh]. unfold stq_idx_after. rewrite fupd_eq. reflexivity.
Qed.

(** What a cycle does: only an address request makes a store conditional, and a new store is none. *)
Theorem sc_cycle g cur i n : GI g (st cur) -> senv (g_b g) (st cur) i n -> once (st cur) i -> let l' := fst (lsu_cycle cur i) in
  (forall k, s_lrsc (sq (st l') k) = true -> s_lrsc (sq (st cur) k) = true \/ exists r, In r (i_sta i) /\ sa_idx r = k /\ sa_sc r = true) /\
  (forall k, sn (st cur) <= k < sn (st cur) + length (i_sa i) -> s_lrsc (sq (st l') ((sh (st cur) + k) mod STQ_SIZE)) = false).
Proof.
  intros G SE ON. cbv zeta. pose proof (stores g cur i n G SE ON) as X.
  assert (CP : exists cp, cp = checkpt cur i /\ sle (fold_left handle_store_addr (i_sta i) (fold_left handle_store_data (i_std i) (st (fst (comb_lsu2exe (lr cur) (answered cur i)))))) (st cp) /\ sle (fold_left alloc_stq (i_sa i) (st cp)) (st (fst (lsu_cycle cur i)))).
  { exists (checkpt cur i). split; [reflexivity|]. unfold lsu_cycle, checkpt, answered. cbv zeta. cbn [st ld un lr]. destruct (comb_lsu2exe _ _) as [l4 w]. cbn [fst].
    destruct (comb_tlb_in_ldq _ _ _) as [d7 r7]. set (s6 := fold_left handle_store_addr _ _). pose proof (tlb_in_sle (i_ms i) s6 r7) as T. destruct (comb_tlb_in_stq (i_ms i) s6 r7) as [s7 r7']. cbn [fst st] in *. split; [exact T|].
    rewrite stlf_st. cbn [st]. match goal with |- context [comb_flush i cur ?x] => pose proof (flush_sle i cur x) as F; set (l10 := comb_flush i cur x) in * end. cbn [st] in F.
    destruct (comb_lsu2dcache_ldq _ _) as [d11 dlq]. unfold comb_lsu2dcache_stq. match goal with |- context [issue_stores ?a ?b ?c ?d ?e ?f] => pose proof (issue_sle a b c d e f) as I; destruct (issue_stores a b c d e f) as [[s11 u11] dsq] end.
    cbn [fst st] in *. eapply sle_trans; [exact F|]. eapply sle_trans; [exact I|]. unfold comb_check. apply sle_sq. apply retire_sq. }
  destruct CP as (cp & CE & C1 & C2). destruct (lsu_cycle cur i) as [l' o]. cbn [fst] in *. destruct X as (r & _ & (V7 & SN7 & _) & _). cbv zeta in *. rewrite <- CE in *. split.
  - intros k H. apply C2, allocs_sle, C1, store_addrs_sc in H. destruct H as [H|H]; [left|right; exact H].
    assert (Y : sle (st cur) (fold_left handle_store_data (i_std i) (st (fst (comb_lsu2exe (lr cur) (answered cur i)))))); [|now apply Y].
    eapply sle_trans; [apply answered_sle|]. eapply sle_trans; [apply lsu2exe_sle|]. apply sle_fold. apply store_data_sle.
  - intros k Kk. destruct (s_lrsc (sq (st l') _)) eqn:H; [exfalso|reflexivity]. apply C2 in H.
    pose proof (allocs_new (g_b g) (i_sa i) (st cp) V7) as Z. rewrite SN7 in Z. specialize (Z (se_sa _ _ _ _ SE) (se_fl _ _ _ _ SE) k Kk).
    destruct (allocs_spec (g_b g) (i_sa i) (st cp) V7) as (_ & _ & SH & _); [rewrite SN7; exact (se_sa _ _ _ _ SE)|rewrite SN7; exact (se_fl _ _ _ _ SE)|].
    unfold ent in Z. rewrite SH, (v_sh _ _ V7), <- (v_sh _ _ (gi_inv _ _ G)) in Z. congruence.
Qed.

(** The reports of the store queue: each names a store in the queue, one to a load port a store conditional. *)
Definition names (s : stqs) (o : wb) : Prop := exists x, live s x /\ com (s_st (sq s x)) = false /\ s_rob (sq s x) = w_rob o /\ (w_sta o = false -> s_lrsc (sq s x) = true).
Lemma sta_wbs_names cur s ks : forall x, live s = live (x_s x) -> (forall y, s_rob (sq (x_s x) y) = s_rob (sq s y) /\ com (s_st (sq (x_s x) y)) = com (s_st (sq s y))) -> sle s (x_s x) -> sn (x_s x) = sn s -> sh (x_s x) = sh s ->
  WQ (x_s x) -> (forall o, In o (x_out x) -> names s o) -> forall o, In o (x_out (fold_left (sta_wb cur) ks x)) -> names s o.
Proof.
  induction ks as [|k t IH]; intros x A B SL C D E F; [exact F|]. cbn [fold_left].
  destruct (sta_wb_step cur s (LX (x_s x) (x_lr x) (x_st x) (x_ld x) []) k A B C D E) as (A1 & B1 & C1 & D1 & E1 & _ & _); [intros o []|].
  assert (XE : x_s (sta_wb cur (LX (x_s x) (x_lr x) (x_st x) (x_ld x) []) k) = x_s (sta_wb cur x k)).
  { unfold sta_wb. cbn [x_s x_lr x_st x_ld x_out]. destruct (negb (qv _ k)); [reflexivity|]. destruct (negb _); [reflexivity|]. destruct (s_lrsc _); destruct (_ <=? _); reflexivity. }
  cbv zeta in *. rewrite XE in *. apply IH; auto; [exact (sle_trans _ _ _ SL (sta_wb_sle _ _ _))|].
  intros o O. unfold sta_wb in O. destruct (negb (qv (dns (x_s x)) k)) eqn:V; [now apply F|]. apply negb_false_iff in V. set (i := qi (dns (x_s x)) k) in *. destruct (negb (_ || _)) eqn:R; [now apply F|]. apply negb_false_iff, orb_true_iff in R. rewrite !sst_eqb_eq in R.
  assert (NC : com (s_st (sq (x_s x) i)) = false) by (destruct R as [-> | ->]; reflexivity). destruct E as [_ DQ]. destruct (wq_l _ _ _ DQ k V) as [LI _]. fold i in LI. destruct (B i) as [Y1 Y2].
  destruct (s_lrsc (sq (x_s x) i)) eqn:LR; (destruct (_ <=? _); [now apply F|]); cbn [x_out] in O; apply in_app_iff in O as [O|[<-|[]]]; try now apply F.
  - exists i. rewrite A. split; [exact LI|]. split; [congruence|]. split; [destruct (s_pf _); cbn [w_rob]; congruence|]. intros _. now apply SL.
  - exists i. rewrite A. split; [exact LI|]. split; [congruence|]. split; [cbn [w_rob]; congruence|]. discriminate.
Qed.
Theorem store_wbs_names g cur i n w : GI g (st cur) -> senv (g_b g) (st cur) i n -> WQ (st cur) -> In w (store_wbs cur i) ->
  exists k, scc (st cur) + taken (st cur) n <= k < sn (st cur) /\ s_rob (ent (st cur) k) = w_rob w /\ (w_sta w = false -> s_lrsc (ent (st cur) k) = true).
Proof.
  intros [V OR (acc & H & LG)] [N1 CM PF STD STA ND SA FL MO OLD CLR] W IW. set (b := g_b g) in *. pose proof (v_C _ _ V) as (C1 & C2 & C3). unfold STQ_SIZE in C2. pose proof (answered_sle cur i) as AS.
  destruct (commits_spec b (i_flush i) acc (g_pend g) n (st cur) (g_hist g) V H N1 PF) as (V1 & _ & _ & SN1 & S1 & SH1 & E1 & _ & _).
  destruct (commit_frame (i_flush i) (cslots (st cur) n) (st cur)) as (CW & CD & _ & _ & CQ). unfold store_wbs in IW. unfold answered in *. cbv zeta in *. rewrite CM in *.
  set (s1 := comb_stq_commit (cslots (st cur) n) (i_flush i) (st cur)) in *. set (t := taken (st cur) n) in *.
  assert (W1 : WQ s1) by (apply (WQ_frame (st cur)); auto; intros x L _ NW; split; [now apply (live_ptrs (st cur))|now rewrite CQ]).
  set (l1 := Lsu s1 (ld cur) (un cur) (lr cur)) in *.
  pose proof (mmio_in_shape (i_mmio i) (un cur) l1) as SH2. pose proof (SInv_shape b _ _ SH2 (mmio_in_good (i_mmio i) (un cur) l1 (v_good _ _ V1)) V1) as V2.
  pose proof (mmio_in_keepN (i_mmio i) (un cur) l1) as KN2. destruct (mmio_in_q (i_mmio i) (un cur) l1) as [MW MD].
  set (l2 := comb_mmio_in (i_mmio i) (un cur) l1) in *. change (st l1) with s1 in *.
  pose proof (dcache2lsu_stq_shape (i_ds i) (i_fill i) (st l2)) as SH3. pose proof (SInv_shape b _ _ SH3 (dcache2lsu_stq_good (i_ds i) (i_fill i) (st l2) (v_good _ _ V2)) V2) as V3.
  destruct (dcache_keepN (i_ds i) (i_fill i) (st l2)) as (KN3 & DW & DD). cbn [st lr] in *. set (s3 := comb_dcache2lsu_stq (i_ds i) (i_fill i) (st l2)) in *.
  assert (SH13 : shape s1 s3) by (eapply shape_trans; eassumption). pose proof (sh_ptrs _ _ SH13) as (Q1 & _ & _ & Q4 & Q5). pose proof (keepN_trans _ _ _ KN2 KN3) as KN.
  assert (W3 : WQ s3) by (apply (WQ_frame s1); [congruence|congruence| |exact W1]; intros x L C _; split; [now apply (live_ptrs s1)|apply KN; exact C]).
  destruct (sta_wbs_names (lr cur) s3 (window (dns s3)) (LX s3 (lr l2) 0 0 []) eq_refl (fun y => conj eq_refl eq_refl) (sle_refl _) eq_refl eq_refl W3 (fun o (F : In o []) => match F with end) w IW) as (x & (k & K & XE) & X2 & X3 & X4).
  assert (KS : scc (st cur) + t <= k).
  { destruct (Nat.lt_ge_cases k (scc (st cur) + t)) as [L|L]; [|exact L]. exfalso. pose proof (v_C _ _ V3) as (_ & _ & D3). pose proof (D3 k ltac:(lia)) as D4. unfold ent in D4. rewrite <- XE, X2 in D4. symmetry in D4. apply Nat.ltb_ge in D4. lia. }
  assert (XC : x = (sh (st cur) + k) mod STQ_SIZE) by (rewrite XE; do 2 f_equal; lia).
  assert (E13 : sq s1 x = ent (st cur) k) by (pose proof (E1 k ltac:(lia) ltac:(lia)) as Y; unfold ent in Y at 1; rewrite SH1, <- XC in Y; exact Y).
  exists k. split; [lia|]. split; [rewrite <- X3, <- E13; symmetry; exact (le_rob _ _ (sh_ent _ _ SH13 x))|]. intros F. specialize (X4 F). apply AS in X4. unfold ent. rewrite <- XC. exact X4.
Qed.
