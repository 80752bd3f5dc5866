(** The store side of one whole cycle. *)
From Coq Require Import Permutation.
From Verif Require Import Base BaseLemmas Ring MemModel MemSpec LsuModel LsuStq LsuQ.
Local Open Scope nat_scope.
Ltac Zify.zify_post_hook ::= Z.div_mod_to_equations.

(** *** Phases that leave committed stores alone *)
Definition calm (s s' : stqs) : Prop := forall k, com (s_st (sq s k)) = true -> sq s' k = sq s k.
Lemma calm_refl s : calm s s. Proof. now intros k. Qed.
Lemma calm_trans a b c : calm a b -> calm b c -> calm a c.
Proof. intros H1 H2 k K. rewrite H2; [now apply H1|]. rewrite H1; assumption. Qed.
Lemma calm_upd s i f : com (s_st (sq s i)) = false -> calm s (upd_s i f s).
Proof. intros H k K. cbn. unfold fupd. destruct (Nat.eqb_spec k i) as [->|]; [congruence|reflexivity]. Qed.
Lemma calm_same s s' : sq s' = sq s -> calm s s'. Proof. intros E k _. now rewrite E. Qed.
Lemma calm_fold {B} (f : stqs -> B -> stqs) l : (forall s b, In b l -> calm s (f s b)) -> forall s, calm s (fold_left f l s).
Proof.
  induction l as [|b t IH]; intros H s; [apply calm_refl|]. cbn. eapply calm_trans; [apply H; now left|apply IH]. intros s' b' I. apply H. now right.
Qed.
Lemma upd_q s i f q : sq (set_dns q (upd_s i f s)) = sq (upd_s i f s) /\ sq (set_wms q (upd_s i f s)) = sq (upd_s i f s). Proof. now split. Qed.
Lemma sta_wb_calm cur x k : calm (x_s x) (x_s (sta_wb cur x k)).
Proof.
  unfold sta_wb. cbv zeta. destruct (negb (qv _ _)); [apply calm_refl|]. set (i := qi _ k). destruct (_ || _) eqn:E; cbn [negb]; [|apply calm_refl].
  assert (NC : com (s_st (sq (x_s x) i)) = false).
  { apply orb_true_iff in E as [E|E]; apply sst_eqb_eq in E; now rewrite E. }
  destruct (s_lrsc _); [destruct (_ <=? _)|destruct (_ <=? _)]; try apply calm_refl; cbn [x_s]; intros j J; cbn [set_dns upd_s set_sq sq]; apply fupd_ne; intros ->; congruence.
Qed.
Lemma lsu2exe_calm cur l : calm (st l) (st (fst (comb_lsu2exe cur l))).
Proof.
  unfold comb_lsu2exe. cbn [fst st]. assert (H : forall ks x, calm (x_s x) (x_s (fold_left (sta_wb cur) ks x))).
  { induction ks as [|k t IH]; intros x; [apply calm_refl|]. cbn. eapply calm_trans; [apply sta_wb_calm|apply IH]. }
  intros k K. cbn [set_dns sq]. exact (H _ (LX (st l) (lr l) 0 0 []) k K).
Qed.
Lemma store_data_calm s r : (sd_idx r < STQ_SIZE -> com (s_st (sq s (sd_idx r))) = false) -> calm s (handle_store_data s r).
Proof.
  intros H. unfold handle_store_data. destruct (Nat.leb_spec STQ_SIZE (sd_idx r)) as [|L]; [apply calm_refl|]. destruct (_ || _); [now apply calm_same|]. cbv zeta.
  specialize (H L). destruct (_ && _); intros k K; cbn [set_dns upd_s set_sq sq]; apply fupd_ne; intros ->; congruence.
Qed.
Lemma store_addr_calm s r : (sa_idx r < STQ_SIZE -> com (s_st (sq s (sa_idx r))) = false) -> calm s (handle_store_addr s r).
Proof.
  intros H. unfold handle_store_addr. destruct (Nat.leb_spec STQ_SIZE (sa_idx r)) as [|L]; [apply calm_refl|]. destruct (_ || _); [now apply calm_same|]. cbv zeta.
  specialize (H L). intros k K; cbn [set_wms upd_s set_sq sq]; apply fupd_ne; intros ->; congruence.
Qed.
Lemma tlb_in_stq_calm rs s rl : calm s (fst (comb_tlb_in_stq rs s rl)).
Proof.
  unfold comb_tlb_in_stq.
  assert (H : forall rs p, calm (fst p) (fst (fold_left tlb_resp_s rs p))).
  { clear. induction rs as [|r t IH]; intros p; [apply calm_refl|]. cbn. eapply calm_trans; [|apply IH]. destruct p as [s rl]. unfold tlb_resp_s.
    destruct (_ || _); [apply calm_refl|]. destruct (_ || _); [apply calm_refl|]. destruct (is_s s (mr_ent r) SWaitTlb) eqn:E; cbn [negb]; [|apply calm_refl].
    apply is_s_eq in E. destruct (mr_res r); cbn [fst]; apply calm_upd; now rewrite E. }
  specialize (H rs (s, rl)). destruct (fold_left tlb_resp_s rs (s, rl)) as [s1 rl1]. cbn [fst] in *. eapply calm_trans; [exact H|].
  intros k K. cbn [set_wms sq]. revert k K. apply calm_fold. clear. intros s k _. unfold tlb_move_s. destruct (negb _); [apply calm_refl|]. cbv zeta.
  destruct (s_st (sq s (qi (wms s) k))) eqn:E; try apply calm_refl; try (now apply calm_same); intros j J; cbn [set_wms set_dns upd_s set_sq sq]; apply fupd_ne; intros ->; rewrite E in J; discriminate.
Qed.
Lemma alloc_stq_calm b s r : SInv b s -> forall k, k < sn s -> ent (alloc_stq s r) k = ent s k.
Proof.
  intros [A B C D E F J] k K. destruct D as (_ & D2 & _). unfold alloc_stq. destruct (Nat.leb_spec STQ_SIZE (sn s)); [reflexivity|]. destruct (negb _); [reflexivity|].
  unfold ent. cbn [set_sn upd_s set_sq sq sh]. apply fupd_ne. unfold stq_idx_after. intros X. apply (slot_inj STQ_SIZE) in X; unfold STQ_SIZE in *; lia.
Qed.
(** stores waiting for their address stay so until it arrives *)
Definition keepA (s s' : stqs) : Prop := forall k, s_st (sq s k) = SAllocated -> s_st (sq s' k) = SAllocated.
Lemma keepA_trans a b c : keepA a b -> keepA b c -> keepA a c. Proof. intros H1 H2 k K. auto. Qed.
Lemma keepA_refl s : keepA s s. Proof. now intros k. Qed.
Lemma keepA_upd s i f : s_st (sq s i) <> SAllocated \/ s_st (f (sq s i)) = s_st (sq s i) -> keepA s (upd_s i f s).
Proof. intros H k K. cbn. unfold fupd. destruct (Nat.eqb_spec k i) as [->|]; [|exact K]. destruct H; congruence. Qed.
Lemma keepA_fold {B} (f : stqs -> B -> stqs) l : (forall s b, In b l -> keepA s (f s b)) -> forall s, keepA s (fold_left f l s).
Proof.
  induction l as [|b t IH]; intros H s; [apply keepA_refl|]. cbn. eapply keepA_trans; [apply H; now left|apply IH]. intros s' b' I. apply H. now right.
Qed.
Lemma commit_keepA fl cs s : keepA s (comb_stq_commit cs fl s).
Proof.
  apply keepA_fold. clear. intros s i _. unfold commit_one. destruct (_ && _) eqn:E; [|now intros k].
  apply andb_true_iff in E as [_ E]. apply is_s_eq in E. intros k K. cbn [set_scc set_scm upd_s set_sq sq]. unfold fupd. destruct (Nat.eqb_spec k i) as [->|]; [congruence|exact K].
Qed.
Lemma mmio_in_keepA resp cur l : keepA (st l) (st (comb_mmio_in resp cur l)).
Proof.
  unfold comb_mmio_in. destruct resp; [|apply keepA_refl]. destruct (negb _); [apply keepA_refl|]. destruct (u_ld cur).
  - destruct (_ <? _); [|apply keepA_refl]. cbn [st]. apply keepA_refl.
  - cbn [st]. destruct (is_s _ _ _) eqn:E; [|apply keepA_refl]. apply is_s_eq in E. apply keepA_upd. left. congruence.
Qed.
Lemma dcache_keepA rs fill s : keepA s (comb_dcache2lsu_stq rs fill s).
Proof.
  unfold comb_dcache2lsu_stq. eapply keepA_trans.
  - apply (keepA_fold store_resp rs). clear. intros s r _. unfold store_resp. destruct (_ <=? _); [now intros k|]. destruct (is_s _ _ _) eqn:E; [|apply keepA_refl].
    apply is_s_eq in E. destruct (ds_rep r); apply keepA_upd; left; congruence.
  - destruct fill as [a|]; [|apply keepA_refl]. generalize (stq_slots (fold_left store_resp rs s) (Nat.min (scc (fold_left store_resp rs s)) (sn (fold_left store_resp rs s)))) as ks.
    generalize (fold_left store_resp rs s) as t, 0 as n. intros t n ks. revert n t. induction ks as [|k ks IH]; intros n t; [apply keepA_refl|]. cbn [wake_stores]. cbv zeta.
    destruct (_ || _); [apply IH|]. destruct (s_rep _); try apply IH; [destruct (line_match _ _)|destruct (_ <? _)]; try apply IH; (eapply keepA_trans; [|apply IH]); apply keepA_upd; now right.
Qed.
Lemma lsu2exe_keepA cur l : keepA (st l) (st (fst (comb_lsu2exe cur l))).
Proof.
  unfold comb_lsu2exe. cbn [fst st]. assert (H : forall ks x, keepA (x_s x) (x_s (fold_left (sta_wb cur) ks x))).
  { induction ks as [|k t IH]; intros x; [apply keepA_refl|]. cbn. eapply keepA_trans; [|apply IH]. clear. unfold sta_wb. cbv zeta. destruct (negb (qv _ _)); [apply keepA_refl|].
    set (i := qi _ k). destruct (_ || _) eqn:E; cbn [negb]; [|apply keepA_refl].
    assert (NA : s_st (sq (x_s x) i) <> SAllocated).
    { apply orb_true_iff in E as [E|E]; apply sst_eqb_eq in E; rewrite E; discriminate. }
    destruct (s_lrsc _); [destruct (_ <=? _)|destruct (_ <=? _)]; try apply keepA_refl; cbn [x_s]; intros j J; cbn [set_dns upd_s set_sq sq]; (rewrite fupd_ne; [exact J|]); intros ->; congruence. }
  intros k K. cbn [set_dns sq]. exact (H _ (LX (st l) (lr l) 0 0 []) k K).
Qed.
Lemma store_data_keepA s r : keepA s (handle_store_data s r).
Proof.
  unfold handle_store_data. destruct (_ <=? _); [apply keepA_refl|]. destruct (_ || _); [now intros k|]. cbv zeta. destruct (_ && _) eqn:E.
  - apply andb_true_iff in E as [_ E]. apply sst_eqb_eq in E. intros k K. cbn [set_dns upd_s set_sq sq]. rewrite fupd_ne; [exact K|]. intros ->; congruence.
  - apply keepA_upd. now right.
Qed.
