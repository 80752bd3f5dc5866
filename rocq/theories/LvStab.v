(** Once the address of a store is known, no step of the unit changes it. *)
From Verif Require Import Base BaseLemmas Ring MemModel MemSpec MemProofs LsuModel LsuStq.
Local Open Scope nat_scope.
Ltac Zify.zify_post_hook ::= Z.div_mod_to_equations.

(** The store check knows where this store goes. *)
Definition known (e : stqe) : bool := match s_st e with SAllocated | SWaitTlb | SWaitTlbRetry => false | _ => s_pav e end.
(** [fl]: a flush is under way (a store committed with it is suppressed). *)
Record stabe (fl : bool) (e e' : stqe) : Prop := {
  sb_known : known e' = true; sb_pa : s_pa e' = s_pa e; sb_f3 : s_f3 e' = s_f3 e; sb_mmio : s_mmio e' = s_mmio e; sb_lrsc : s_lrsc e' = s_lrsc e;
  sb_dv : s_dv e = true -> s_dv e' = true /\ s_data e' = s_data e;
  sb_com : com (s_st e) = true -> com (s_st e') = true;
  sb_sup : s_lrsc e = false -> fl = false \/ com (s_st e) = true -> s_sup e' = s_sup e }.
Definition stab (fl : bool) (s s' : stqs) : Prop := forall k, known (sq s k) = true -> stabe fl (sq s k) (sq s' k).
Lemma stabe_refl fl e : known e = true -> stabe fl e e. Proof. constructor; auto. Qed.
Lemma stabe_trans fl a b c : stabe fl a b -> stabe fl b c -> stabe fl a c.
Proof.
  intros [] []. constructor; try congruence; auto.
  - intros D. destruct (sb_dv0 D) as [X Y]. destruct (sb_dv1 X). split; congruence.
  - intros L F. rewrite sb_sup1; [now apply sb_sup0|congruence|]. destruct F as [F|F]; auto.
Qed.
Lemma stab_refl fl s : stab fl s s. Proof. intros k K. now apply stabe_refl. Qed.
Lemma stab_trans fl a b c : stab fl a b -> stab fl b c -> stab fl a c.
Proof. intros A B k K. eapply stabe_trans; [now apply A|]. apply B. apply (A k K). Qed.
Lemma stab_sq fl s s' : (forall k, sq s' k = sq s k) -> stab fl s s'.
Proof. intros E k K. rewrite E. now apply stabe_refl. Qed.
Lemma stab_upd fl s i f : (known (sq s i) = true -> stabe fl (sq s i) (f (sq s i))) -> stab fl s (upd_s i f s).
Proof. intros H k K. cbn [upd_s set_sq sq]. unfold fupd. destruct (Nat.eqb_spec k i) as [->|]; [now apply H|now apply stabe_refl]. Qed.
Lemma stab_fold {B} fl (f : stqs -> B -> stqs) l : (forall s b, In b l -> stab fl s (f s b)) -> forall s, stab fl s (fold_left f l s).
Proof. intros H s. apply (fold_left_inv (fun x => stab fl s x)); [|apply stab_refl]. intros a b I P. exact (stab_trans _ _ _ _ P (H a b I)). Qed.
Ltac kn E := let X := fresh in intros X; unfold known in X; rewrite E in X; try discriminate; constructor; unfold known; cbn; rewrite ?E; auto.

Lemma commit_stab fl s x : stab fl s (commit_one fl s x).
Proof.
  unfold commit_one. destruct (_ && _) eqn:E; [|now apply stab_sq]. apply andb_true_iff in E as [_ E]. apply is_s_eq in E.
  apply (stab_trans _ _ (upd_s x (fun e => if fl then set_s_sup true (set_s_st SDone e) else if s_lrsc e && negb (s_scp e) then set_s_st SDone (set_s_sup true e) else set_s_st SCommitted e) s)); [|now apply stab_sq].
  apply stab_upd. destruct fl; [|destruct (s_lrsc (sq s x) && negb (s_scp (sq s x))) eqn:L].
  - kn E. intros _ [Y|Y]; discriminate.
  - kn E. intros Y. rewrite Y in L. discriminate.
  - kn E.
Qed.
Lemma commits_stab cs fl s : stab fl s (comb_stq_commit cs fl s). Proof. apply stab_fold. intros. apply commit_stab. Qed.
Lemma mmio_in_stab fl resp cur l : stab fl (st l) (st (comb_mmio_in resp cur l)).
Proof.
  unfold comb_mmio_in. destruct resp; [|apply stab_refl]. destruct (negb (u_v cur)); [apply stab_refl|].
  destruct (u_ld cur); cbn [st]; [destruct (_ <? _); cbn; apply stab_refl|]. destruct (is_s _ _ _) eqn:E; [|apply stab_refl]. apply is_s_eq in E. apply stab_upd. kn E.
Qed.
Lemma store_resp_stab fl s r : stab fl s (store_resp s r).
Proof.
  unfold store_resp. destruct (STQ_SIZE <=? ds_idx r); [now apply stab_sq|]. destruct (is_s s (ds_idx r) SWaitDcacheResp) eqn:E; [|apply stab_refl].
  apply is_s_eq in E. destruct (ds_rep r); apply stab_upd; kn E.
Qed.
Lemma set_wait_stab fl s k w : stab fl s (upd_s k (set_s_wait w) s).
Proof. apply stab_upd. intros X. constructor; cbn; auto. Qed.
Lemma wake_stores_stab fl addr ks : forall n s, stab fl s (wake_stores addr ks n s).
Proof.
  induction ks as [|k t IH]; intros n s; cbn [wake_stores]; [apply stab_refl|].
  destruct (_ || _); [apply IH|]. destruct (s_rep (sq s k)); try apply IH.
  - destruct (line_match _ _); [|apply IH]. eapply stab_trans; [apply set_wait_stab|apply IH].
  - destruct (_ <? _); [|apply IH]. eapply stab_trans; [apply set_wait_stab|apply IH].
Qed.
Lemma dcache_stab fl rs fill s : stab fl s (comb_dcache2lsu_stq rs fill s).
Proof.
  unfold comb_dcache2lsu_stq. assert (F : stab fl s (fold_left store_resp rs s)) by (apply stab_fold; intros; apply store_resp_stab).
  destruct fill; [|exact F]. eapply stab_trans; [exact F|apply wake_stores_stab].
Qed.
Lemma sta_wb_stab fl cur x k : stab fl (x_s x) (x_s (sta_wb cur x k)).
Proof.
  unfold sta_wb. destruct (negb (qv (dns (x_s x)) k)); [apply stab_refl|].
  destruct (negb _) eqn:E; [apply stab_refl|]. set (i := qi (dns (x_s x)) k) in *.
  apply negb_false_iff, orb_true_iff in E. rewrite !sst_eqb_eq in E.
  assert (R : com (s_st (sq (x_s x) i)) = false) by (destruct E as [E|E]; rewrite E; reflexivity).
  assert (Q : known (sq (x_s x) i) = true -> s_pav (sq (x_s x) i) = true) by (unfold known; destruct E as [E|E]; rewrite E; auto).
  destruct (s_lrsc _) eqn:L.
  - destruct (_ <=? _); [apply stab_refl|]. cbn [x_s]. eapply stab_trans; [|apply stab_sq; reflexivity]. apply stab_upd. intros X. specialize (Q X).
    destruct (s_pf _); constructor; unfold known; cbn; auto; intros; congruence.
  - destruct (_ <=? _); [apply stab_refl|]. cbn [x_s]. eapply stab_trans; [|apply stab_sq; reflexivity]. apply stab_upd. intros X. specialize (Q X).
    constructor; unfold known; cbn; auto. congruence.
Qed.
Lemma lsu2exe_stab fl cur l : stab fl (st l) (st (fst (comb_lsu2exe cur l))).
Proof.
  unfold comb_lsu2exe. cbn [fst st]. eapply stab_trans; [|apply stab_sq; reflexivity].
  set (x0 := LX (st l) (lr l) 0 0 []). change (st l) with (x_s x0) at 1.
  apply (fold_left_inv (fun x => stab fl (x_s x0) (x_s x))); [|apply stab_refl]. intros a b _ P. exact (stab_trans _ _ _ _ P (sta_wb_stab _ _ _ _)).
Qed.
(** The data of a store comes once. *)
Lemma store_data_stab fl s r : s_dv (sq s (sd_idx r)) = false -> stab fl s (handle_store_data s r).
Proof.
  intros D. unfold handle_store_data. destruct (_ <=? _); [apply stab_refl|]. destruct (_ || _); [now apply stab_sq|]. cbv zeta.
  set (rdy := s_pav (sq s (sd_idx r)) && sst_eqb (s_st (sq s (sd_idx r))) SWaitData).
  apply (stab_trans _ _ (upd_s (sd_idx r) (fun e => (if rdy then set_s_st SReady else fun x => x) (set_s_dv true (set_s_data (sd_val r) e))) s)); [|destruct rdy; now apply stab_sq].
  apply stab_upd. intros X. unfold rdy. destruct (_ && _) eqn:E.
  - apply andb_true_iff in E as [E1 E2]. apply sst_eqb_eq in E2. constructor; unfold known; cbn; auto; [congruence|]. rewrite E2. discriminate.
  - constructor; cbn; auto. congruence.
Qed.
Lemma store_data_dv s r k : k <> sd_idx r -> sq (handle_store_data s r) k = sq s k.
Proof.
  intros N. unfold handle_store_data. destruct (_ <=? _); [reflexivity|]. destruct (_ || _); [reflexivity|]. cbv zeta. destruct (_ && _); cbn [set_dns upd_s set_sq sq]; now rewrite fupd_ne.
Qed.
Lemma store_datas_stab fl rs : forall s, NoDup (map sd_idx rs) -> (forall r, In r rs -> s_dv (sq s (sd_idx r)) = false) -> stab fl s (fold_left handle_store_data rs s).
Proof.
  induction rs as [|r t IH]; intros s N D; [apply stab_refl|]. cbn [fold_left map] in *. inversion N as [|? ? N1 N2]; subst. eapply stab_trans; [apply store_data_stab; apply D; now left|].
  apply IH; [exact N2|]. intros r' R. rewrite store_data_dv; [apply D; now right|]. intros X. apply N1. rewrite <- X. now apply in_map.
Qed.
Lemma store_addr_stab fl s r : (sa_idx r < STQ_SIZE -> known (sq s (sa_idx r)) = false) -> stab fl s (handle_store_addr s r).
Proof.
  intros D. unfold handle_store_addr. destruct (Nat.leb_spec STQ_SIZE (sa_idx r)) as [X|X]; [apply stab_refl|]. specialize (D X). destruct (_ || _); [now apply stab_sq|]. cbv zeta.
  eapply stab_trans; [|now apply stab_sq]. apply stab_upd. congruence.
Qed.
Lemma store_addr_other s r k : k <> sa_idx r -> sq (handle_store_addr s r) k = sq s k.
Proof. intros N. unfold handle_store_addr. destruct (_ <=? _); [reflexivity|]. destruct (_ || _); [reflexivity|]. cbv zeta. cbn [set_wms upd_s set_sq sq]. now rewrite fupd_ne. Qed.
Lemma store_addrs_stab fl rs : forall s, NoDup (map sa_idx rs) -> (forall r, In r rs -> s_st (sq s (sa_idx r)) = SAllocated) -> stab fl s (fold_left handle_store_addr rs s).
Proof.
  induction rs as [|r t IH]; intros s N D; [apply stab_refl|]. cbn [fold_left map] in *. inversion N as [|? ? N1 N2]; subst.
  eapply stab_trans; [apply store_addr_stab; intros _; unfold known; now rewrite (D r (or_introl eq_refl))|].
  apply IH; [exact N2|]. intros r' R. rewrite store_addr_other; [apply D; now right|]. intros X. apply N1. rewrite <- X. now apply in_map.
Qed.
Lemma tlb_resp_s_stab fl p r : stab fl (fst p) (fst (tlb_resp_s p r)).
Proof.
  destruct p as [s rl]. unfold tlb_resp_s. cbn [fst]. destruct (_ || _); [apply stab_refl|]. destruct (_ || _); [apply stab_refl|].
  destruct (is_s s (mr_ent r) SWaitTlb) eqn:E; cbn [negb]; [|apply stab_refl]. apply is_s_eq in E.
  destruct (mr_res r); cbn [fst]; apply stab_upd; kn E.
Qed.
Lemma tlb_move_s_stab fl s k : stab fl s (tlb_move_s s k).
Proof.
  unfold tlb_move_s. destruct (negb _); [apply stab_refl|]. destruct (s_st _) eqn:E; try apply stab_refl.
  - apply stab_upd; kn E.
  - now apply stab_sq.
  - eapply stab_trans; [|now apply stab_sq]. eapply stab_trans; [|now apply stab_sq].
    apply stab_upd. intros X. unfold known in X. rewrite E in X. destruct (s_pf _); constructor; unfold known; cbn; rewrite ?E; auto.
Qed.
Lemma tlb_in_stq_stab fl rs s rl : stab fl s (fst (comb_tlb_in_stq rs s rl)).
Proof.
  unfold comb_tlb_in_stq. destruct (fold_left tlb_resp_s rs (s, rl)) as [s1 rl1] eqn:E. cbn [fst].
  assert (A : stab fl s s1).
  { change s1 with (fst (s1, rl1)). rewrite <- E. change s with (fst (s, rl)) at 1.
    apply (fold_left_inv (fun p => stab fl (fst (s, rl)) (fst p))); [|apply stab_refl]. intros a b _ P. exact (stab_trans _ _ _ _ P (tlb_resp_s_stab _ _ _)). }
  eapply stab_trans; [exact A|]. eapply stab_trans; [|now apply stab_sq]. apply stab_fold. intros. apply tlb_move_s_stab.
Qed.
Lemma flush_stab fl i cur l : stab fl (st l) (st (comb_flush i cur l)).
Proof.
  unfold comb_flush. apply (stab_trans _ _ (st (if i_mispred i then flush_mispred (i_brm i) (if i_flush i then flush_global l else l) else if i_flush i then flush_global l else l))).
  - apply stab_sq. intros k. destruct (i_mispred i), (i_flush i); reflexivity.
  - destruct (nz _); [|apply stab_refl]. unfold flush_clear. cbn [st]. apply stab_fold. intros s b _. apply stab_upd. intros X. constructor; cbn; auto.
Qed.
Lemma issue_stab fl cur is : forall n s u out, stab fl s (fst (fst (issue_stores cur is n s u out))).
Proof.
  induction is as [|i t IH]; intros n s u out; cbn [issue_stores]; [apply stab_refl|]. destruct (_ <=? _); [apply stab_refl|].
  set (k := (sh s + i) mod STQ_SIZE). destruct (negb (is_s s k SCommitted) || _) eqn:E; [apply IH|]. apply orb_false_iff in E as [E _]. apply negb_false_iff, is_s_eq in E.
  cbv zeta. set (w := pred (s_wait (sq s k))). assert (S1 : stab fl s (upd_s k (set_s_wait w) s)) by apply set_wait_stab.
  assert (E1 : s_st (sq (upd_s k (set_s_wait w) s) k) = SCommitted) by (cbn [upd_s set_sq sq]; rewrite fupd_eq; exact E).
  set (s1 := upd_s k (set_s_wait w) s) in *. destruct (0 <? w); [eapply stab_trans; [exact S1|apply IH]|]. destruct (blocked s1 i); [eapply stab_trans; [exact S1|apply IH]|].
  destruct (s_mmio _).
  - destruct (_ && _); [|eapply stab_trans; [exact S1|apply IH]]. eapply stab_trans; [exact S1|]. eapply stab_trans; [|apply IH]. apply stab_upd. kn E1.
  - destruct (s_sup _); (eapply stab_trans; [exact S1|]; eapply stab_trans; [|apply IH]; apply stab_upd; kn E1).
Qed.
Lemma retire_sq n : forall s, sq (retire n s) = sq s.
Proof. induction n as [|n IH]; intros s; cbn [retire]; [reflexivity|]. destruct (is_s _ _ _); [|reflexivity]. destruct (advance_ring_ptr_f _ _ _) as [h f]. now rewrite IH. Qed.
