(** Store side of the load/store unit: what every step preserves. *)
From Verif Require Import Base BaseLemmas Ring MemModel MemSpec MemProofs LsuModel.
Local Open Scope nat_scope.
Ltac Zify.zify_post_hook ::= Z.div_mod_to_equations.

Lemma fold_left_inv {A B} (P : A -> Prop) (f : A -> B -> A) l : (forall a b, In b l -> P a -> P (f a b)) -> forall a, P a -> P (fold_left f l a).
Proof. induction l as [|b t IH]; intros H a Pa; cbn; [exact Pa|]. apply IH; [intros; apply H; [now right|assumption]|]. apply H; [now left|exact Pa]. Qed.
Lemma sst_eqb_eq a b : sst_eqb a b = true <-> a = b.
Proof. split; [|intros ->; now destruct b]. destruct a, b; cbn; intros H; try discriminate; reflexivity. Qed.
Lemma lst_eqb_eq a b : lst_eqb a b = true <-> a = b.
Proof. split; [|intros ->; now destruct b]. destruct a, b; cbn; intros H; try discriminate; reflexivity. Qed.
Lemma is_s_eq s i x : is_s s i x = true <-> s_st (sq s i) = x. Proof. apply sst_eqb_eq. Qed.
Lemma is_l_eq s i x : is_l s i x = true <-> l_st (lq s i) = x. Proof. apply lst_eqb_eq. Qed.

(** Committed stores. *)
Definition com (x : sstate) : bool := match x with SCommitted | SWaitDcacheResp | SWaitMmioResp | SDone => true | _ => false end.
(** Possibly visible to memory. *)
Definition active (e : stqe) : bool := match s_st e with SWaitDcacheResp | SWaitMmioResp => true | SDone => negb (s_sup e) | _ => false end.

(** One entry evolving without being committed or allocated. *)
Record ent_le (e e' : stqe) : Prop := {
  le_rob : s_rob e' = s_rob e; le_robf : s_robf e' = s_robf e; le_flag : s_flag e' = s_flag e; le_brm : s_brm e' = s_brm e;
  le_com : com (s_st e') = com (s_st e);
  le_frozen : com (s_st e) = true -> s_pa e' = s_pa e /\ s_f3 e' = s_f3 e /\ s_data e' = s_data e /\ s_dv e' = s_dv e /\ s_pav e' = s_pav e
              /\ s_mmio e' = s_mmio e /\ s_sup e' = s_sup e /\ s_pf e' = s_pf e }.
Lemma ent_le_refl e : ent_le e e. Proof. constructor; tauto. Qed.
Lemma ent_le_trans a b c : ent_le a b -> ent_le b c -> ent_le a c.
Proof.
  intros [] []. constructor; try congruence. intros H. destruct (le_frozen0 H) as (?&?&?&?&?&?&?&?).
  destruct (le_frozen1 ltac:(congruence)) as (?&?&?&?&?&?&?&?). repeat split; congruence.
Qed.
(** ... and without being sent to memory. *)
Definition quiet (e e' : stqe) : Prop := (s_st e = SDone -> s_st e' = SDone) /\ (active e' = true -> active e = true).

Definition ptrs (s s' : stqs) : Prop := sh s' = sh s /\ scm s' = scm s /\ shf s' = shf s /\ scc s' = scc s /\ sn s' = sn s.
Record shape (s s' : stqs) : Prop := { sh_ptrs : ptrs s s'; sh_ent : forall k, ent_le (sq s k) (sq s' k); sh_quiet : forall k, quiet (sq s k) (sq s' k) }.
Lemma ptrs_refl s : ptrs s s. Proof. repeat split. Qed.
Lemma ptrs_trans a b c : ptrs a b -> ptrs b c -> ptrs a c.
Proof. intros (?&?&?&?&?) (?&?&?&?&?). repeat split; congruence. Qed.
Lemma shape_refl s : shape s s.
Proof. constructor; [apply ptrs_refl|intros; apply ent_le_refl|intros k; split; tauto]. Qed.
Lemma shape_trans a b c : shape a b -> shape b c -> shape a c.
Proof.
  intros [p1 e1 q1] [p2 e2 q2]. constructor; [exact (ptrs_trans _ _ _ p1 p2)|intros k; exact (ent_le_trans _ _ _ (e1 k) (e2 k))|].
  intros k. destruct (q1 k), (q2 k). split; tauto.
Qed.
Lemma shape_upd s i f : ent_le (sq s i) (f (sq s i)) -> quiet (sq s i) (f (sq s i)) -> shape s (upd_s i f s).
Proof.
  intros H Q. constructor; [repeat split| |]; intros k; cbn; unfold fupd; destruct (Nat.eqb_spec k i) as [->|]; auto using ent_le_refl. split; tauto.
Qed.
Lemma shape_dns s q : shape s (set_dns q s). Proof. constructor; [repeat split|intros k; apply ent_le_refl|split; tauto]. Qed.
Lemma shape_wms s q : shape s (set_wms q s). Proof. constructor; [repeat split|intros k; apply ent_le_refl|split; tauto]. Qed.
Lemma shape_bad s b : shape s (set_sbad b s). Proof. constructor; [repeat split|intros k; apply ent_le_refl|split; tauto]. Qed.
Lemma shape_fold {B} (f : stqs -> B -> stqs) l : (forall s b, In b l -> shape s (f s b)) -> forall s, shape s (fold_left f l s).
Proof.
  intros H s. apply (fold_left_inv (fun x => shape s x)); [|apply shape_refl]. intros a b I P. exact (shape_trans _ _ _ P (H a b I)).
Qed.
Ltac entc := constructor; cbn; try reflexivity; try congruence; intuition congruence.

Lemma upd_s_id s i : shape s (upd_s i (fun e => e) s). Proof. apply shape_upd; [apply ent_le_refl|split; tauto]. Qed.

Lemma store_resp_shape s r : shape s (store_resp s r).
Proof.
  unfold store_resp. destruct (STQ_SIZE <=? ds_idx r); [apply shape_bad|]. destruct (is_s s (ds_idx r) SWaitDcacheResp) eqn:E; [|apply shape_refl].
  apply is_s_eq in E. destruct (ds_rep r); (apply shape_upd; [constructor; cbn; rewrite ?E; try reflexivity; tauto|
    split; unfold active; cbn; rewrite ?E; try discriminate; tauto]).
Qed.
Lemma wake_stores_shape addr ks : forall n s, shape s (wake_stores addr ks n s).
Proof.
  induction ks as [|k t IH]; intros n s; cbn [wake_stores]; [apply shape_refl|].
  assert (W : shape s (upd_s k (set_s_wait 0) s)) by (apply shape_upd; [constructor; cbn; tauto|split; unfold active; cbn; tauto]).
  destruct (_ || _); [apply IH|]. destruct (s_rep (sq s k)); try apply IH.
  - destruct (line_match _ _); [|apply IH]. exact (shape_trans _ _ _ W (IH _ _)).
  - destruct (_ <? _); [|apply IH]. exact (shape_trans _ _ _ W (IH _ _)).
Qed.
Lemma dcache2lsu_stq_shape rs fill s : shape s (comb_dcache2lsu_stq rs fill s).
Proof.
  unfold comb_dcache2lsu_stq. assert (F : shape s (fold_left store_resp rs s)) by (apply shape_fold; intros; apply store_resp_shape).
  destruct fill; [|exact F]. exact (shape_trans _ _ _ F (wake_stores_shape _ _ _ _)).
Qed.
Lemma mmio_done_shape s k : shape s (if is_s s k SWaitMmioResp then upd_s k (set_s_st SDone) s else s).
Proof.
  destruct (is_s s k SWaitMmioResp) eqn:E; [|apply shape_refl]. apply is_s_eq in E.
  apply shape_upd; [constructor; cbn; rewrite ?E; try reflexivity; tauto|split; unfold active; cbn; rewrite ?E; tauto].
Qed.
Lemma mmio_in_shape resp cur l : shape (st l) (st (comb_mmio_in resp cur l)).
Proof.
  unfold comb_mmio_in. destruct resp; [|apply shape_refl]. destruct (negb (u_v cur)); [apply shape_refl|].
  destruct (u_ld cur); cbn [st]; [|apply mmio_done_shape]. destruct (_ <? _); cbn; apply shape_refl.
Qed.
Lemma sta_wb_shape cur x k : shape (x_s x) (x_s (sta_wb cur x k)).
Proof.
  unfold sta_wb. destruct (negb (qv (dns (x_s x)) k)); [apply shape_refl|].
  destruct (negb _) eqn:E; [apply shape_refl|]. set (i := qi (dns (x_s x)) k) in *.
  assert (R : s_st (sq (x_s x) i) = SReady \/ s_st (sq (x_s x) i) = SPageFault).
  { apply negb_false_iff, orb_true_iff in E. now rewrite !sst_eqb_eq in E. }
  assert (C : com (s_st (sq (x_s x) i)) = false) by (destruct R as [R|R]; rewrite R; reflexivity).
  assert (D : s_st (sq (x_s x) i) <> SDone) by (destruct R as [R|R]; rewrite R; discriminate).
  destruct (s_lrsc _).
  - destruct (_ <=? _); [apply shape_refl|]. cbn [x_s]. eapply shape_trans; [|apply shape_dns]. apply shape_upd.
    + destruct (s_pf _); constructor; cbn; rewrite ?C; try reflexivity; discriminate.
    + split; [intros; contradiction|]. unfold active. destruct (s_pf _); cbn; discriminate.
  - destruct (_ <=? _); [apply shape_refl|]. cbn [x_s]. eapply shape_trans; [|apply shape_dns]. apply shape_upd.
    + constructor; cbn; rewrite ?C; try reflexivity; discriminate.
    + split; [intros; contradiction|]. unfold active. cbn; discriminate.
Qed.
Lemma lsu2exe_shape cur l : shape (st l) (st (fst (comb_lsu2exe cur l))).
Proof.
  unfold comb_lsu2exe. cbn [fst st]. eapply shape_trans; [|apply shape_dns].
  set (x0 := LX (st l) (lr l) 0 0 []). change (st l) with (x_s x0) at 1.
  apply (fold_left_inv (fun x => shape (x_s x0) (x_s x))); [|apply shape_refl]. intros a b _ P. exact (shape_trans _ _ _ P (sta_wb_shape _ _ _)).
Qed.
(** Requests from the execution units: not for committed stores. *)
Lemma store_data_shape s r : (sd_idx r < STQ_SIZE -> s_robf (sq s (sd_idx r)) = sd_robf r -> s_rob (sq s (sd_idx r)) = sd_rob r -> com (s_st (sq s (sd_idx r))) = false) ->
  shape s (handle_store_data s r).
Proof.
  intros H. unfold handle_store_data. destruct (Nat.leb_spec STQ_SIZE (sd_idx r)); [apply shape_refl|].
  destruct (_ || _) eqn:E; [apply shape_bad|]. apply orb_false_iff in E as [E1 E2]. apply negb_false_iff in E1, E2.
  apply Bool.eqb_prop in E1. apply Nat.eqb_eq in E2. specialize (H ltac:(assumption) E1 E2).
  destruct (_ && _) eqn:W.
  - apply andb_true_iff in W as [_ W]. apply sst_eqb_eq in W. eapply shape_trans; [|apply shape_dns]. apply shape_upd.
    + constructor; cbn; rewrite ?H; try reflexivity; try discriminate.
    + split; [rewrite W; discriminate|]. unfold active. cbn. discriminate.
  - apply shape_upd; [constructor; cbn; rewrite ?H; try reflexivity; try discriminate|split; unfold active; cbn; tauto].
Qed.
Lemma store_addr_shape s r : (sa_idx r < STQ_SIZE -> s_robf (sq s (sa_idx r)) = sa_robf r -> s_rob (sq s (sa_idx r)) = sa_rob r -> com (s_st (sq s (sa_idx r))) = false) ->
  shape s (handle_store_addr s r).
Proof.
  intros H. unfold handle_store_addr. destruct (Nat.leb_spec STQ_SIZE (sa_idx r)); [apply shape_refl|].
  destruct (_ || _) eqn:E; [apply shape_bad|]. apply orb_false_iff in E as [E1 E2]. apply negb_false_iff in E1, E2.
  apply Bool.eqb_prop in E1. apply Nat.eqb_eq in E2. specialize (H ltac:(assumption) E1 E2).
  eapply shape_trans; [|apply shape_wms]. apply shape_upd.
  - constructor; cbn; rewrite ?H; try reflexivity; try discriminate.
  - split; [|unfold active; cbn; discriminate]. intros D. rewrite D in H. discriminate.
Qed.
Lemma tlb_resp_s_shape p r : shape (fst p) (fst (tlb_resp_s p r)).
Proof.
  destruct p as [s rl]. unfold tlb_resp_s. cbn [fst]. destruct (_ || _); [apply shape_refl|]. destruct (_ || _); [apply shape_refl|].
  destruct (is_s s (mr_ent r) SWaitTlb) eqn:E; cbn [negb]; [|apply shape_refl]. apply is_s_eq in E.
  destruct (mr_res r); cbn [fst]; (apply shape_upd; [constructor; cbn; rewrite ?E; try reflexivity; try discriminate|
    split; unfold active; cbn; rewrite ?E; try discriminate; try tauto]); destruct (s_dv _); try reflexivity; discriminate.
Qed.
Lemma tlb_move_s_shape s k : shape s (tlb_move_s s k).
Proof.
  unfold tlb_move_s. destruct (negb _); [apply shape_refl|]. destruct (s_st _) eqn:E; try apply shape_refl.
  - apply shape_upd; [constructor; cbn; rewrite ?E; try reflexivity; discriminate|split; unfold active; cbn; rewrite ?E; discriminate].
  - apply shape_wms.
  - eapply shape_trans; [|apply shape_wms]. eapply shape_trans; [|apply shape_dns].
    apply shape_upd; [constructor; cbn; rewrite ?E; try reflexivity; try discriminate|split; unfold active; cbn; rewrite ?E; try discriminate];
      destruct (s_pf _); try reflexivity; discriminate.
Qed.
Lemma tlb_in_stq_shape rs s rl : shape s (fst (comb_tlb_in_stq rs s rl)).
Proof.
  unfold comb_tlb_in_stq. destruct (fold_left tlb_resp_s rs (s, rl)) as [s1 rl1] eqn:E. cbn [fst].
  assert (A : shape s s1).
  { change s1 with (fst (s1, rl1)). rewrite <- E. change s with (fst (s, rl)) at 1.
    apply (fold_left_inv (fun p => shape (fst (s, rl)) (fst p))); [|apply shape_refl]. intros a b _ P. exact (shape_trans _ _ _ P (tlb_resp_s_shape _ _)). }
  eapply shape_trans; [exact A|]. eapply shape_trans; [|apply shape_wms]. apply shape_fold. intros. apply tlb_move_s_shape.
Qed.

(** What an entry's state says about its fields. *)
Definition full (e : stqe) : Prop := s_pav e = true /\ s_dv e = true /\ s_pf e = false.
Definition good (e : stqe) : Prop :=
  match s_st e with
  | SEmpty => True
  | SAllocated => s_pf e = false /\ s_sup e = false /\ s_pav e = false
  | SWaitTlb | SWaitTlbRetry => s_pf e = false /\ s_sup e = false /\ s_pav e = false
  | SWaitData => s_pav e = true /\ s_pf e = false /\ s_sup e = false
  | SWaitDone => (s_pf e = true /\ s_pav e = false \/ full e) /\ s_sup e = false
  | SReady => full e /\ s_sup e = false
  | SPageFault => s_pf e = true /\ s_pav e = false /\ s_sup e = false
  | SWaitCommit => (s_pf e = true /\ s_pav e = false \/ full e) /\ (s_pf e = false -> s_sup e = s_lrsc e && negb (s_scp e))
  | SCommitted => full e /\ s_sup e = false
  | SWaitDcacheResp => full e /\ s_sup e = false /\ s_mmio e = false
  | SWaitMmioResp => full e /\ s_sup e = false /\ s_mmio e = true
  | SDone => s_sup e = true \/ full e
  end.
Definition allgood (s : stqs) : Prop := forall k, good (sq s k).
Lemma good_upd s i f : allgood s -> good (f (sq s i)) -> allgood (upd_s i f s).
Proof. intros A H k. cbn. unfold fupd. destruct (Nat.eqb_spec k i) as [->|]; auto. Qed.
Ltac gd A i := generalize (A i); unfold good, full; cbn.

Lemma store_resp_good s r : allgood s -> allgood (store_resp s r).
Proof.
  intros A. unfold store_resp. destruct (STQ_SIZE <=? ds_idx r); [exact A|]. destruct (is_s s (ds_idx r) SWaitDcacheResp) eqn:E; [|exact A].
  apply is_s_eq in E. destruct (ds_rep r); (apply good_upd; [exact A|]); gd A (ds_idx r); rewrite E; tauto.
Qed.
Lemma wake_stores_good addr ks : forall n s, allgood s -> allgood (wake_stores addr ks n s).
Proof.
  induction ks as [|k t IH]; intros n s A; cbn [wake_stores]; [exact A|].
  assert (W : allgood (upd_s k (set_s_wait 0) s)) by (apply good_upd; [exact A|]; exact (A k)).
  destruct (_ || _); [now apply IH|]. destruct (s_rep (sq s k)); try now apply IH.
  - destruct (line_match _ _); now apply IH.
  - destruct (_ <? _); now apply IH.
Qed.
Lemma dcache2lsu_stq_good rs fill s : allgood s -> allgood (comb_dcache2lsu_stq rs fill s).
Proof.
  intros A. unfold comb_dcache2lsu_stq. assert (F : allgood (fold_left store_resp rs s)) by (apply (fold_left_inv allgood); [intros; now apply store_resp_good|exact A]).
  destruct fill; [|exact F]. now apply wake_stores_good.
Qed.
Lemma mmio_in_good resp cur l : allgood (st l) -> allgood (st (comb_mmio_in resp cur l)).
Proof.
  intros A. unfold comb_mmio_in. destruct resp; [|exact A]. destruct (negb (u_v cur)); [exact A|].
  destruct (u_ld cur); [destruct (_ <? _); exact A|]. cbn [st]. destruct (is_s _ _ _) eqn:E; [|exact A].
  apply is_s_eq in E. apply good_upd; [exact A|]. gd A (u_idx cur). rewrite E. tauto.
Qed.
Lemma sta_wb_good cur x k : allgood (x_s x) -> allgood (x_s (sta_wb cur x k)).
Proof.
  intros A. unfold sta_wb. destruct (negb (qv (dns (x_s x)) k)); [exact A|].
  destruct (negb _) eqn:E; [exact A|]. set (i := qi (dns (x_s x)) k) in *.
  apply negb_false_iff, orb_true_iff in E. rewrite !sst_eqb_eq in E.
  destruct (s_lrsc _) eqn:L.
  - destruct (_ <=? _); [exact A|]. cbn [x_s]. apply good_upd; [exact A|]. gd A i. fold i.
    destruct (s_pf (sq (x_s x) i)) eqn:P; cbn; destruct E as [E|E]; rewrite ?E; cbn; intuition congruence || (rewrite L; cbn; intuition congruence).
  - destruct (_ <=? _); [exact A|]. cbn [x_s]. apply good_upd; [exact A|]. gd A i. fold i. rewrite L. cbn.
    destruct E as [E|E]; rewrite ?E; cbn; intuition congruence.
Qed.
Lemma lsu2exe_good cur l : allgood (st l) -> allgood (st (fst (comb_lsu2exe cur l))).
Proof.
  intros A. unfold comb_lsu2exe. cbn [fst st].
  apply (fold_left_inv (fun x => allgood (x_s x))); [|exact A]. intros a b _ P. exact (sta_wb_good _ _ _ P).
Qed.
Lemma store_data_good s r : (sd_idx r < STQ_SIZE -> s_robf (sq s (sd_idx r)) = sd_robf r -> s_rob (sq s (sd_idx r)) = sd_rob r -> com (s_st (sq s (sd_idx r))) = false) ->
  allgood s -> allgood (handle_store_data s r).
Proof.
  intros H A. unfold handle_store_data. destruct (Nat.leb_spec STQ_SIZE (sd_idx r)); [exact A|].
  destruct (_ || _) eqn:E; [exact A|]. apply orb_false_iff in E as [E1 E2]. apply negb_false_iff in E1, E2.
  apply Bool.eqb_prop in E1. apply Nat.eqb_eq in E2. specialize (H ltac:(assumption) E1 E2).
  destruct (_ && _) eqn:W.
  - apply andb_true_iff in W as [_ W]. apply sst_eqb_eq in W. apply good_upd; [exact A|]. gd A (sd_idx r). rewrite W. tauto.
  - apply good_upd; [exact A|]. gd A (sd_idx r). destruct (s_st _); tauto || discriminate.
Qed.
Lemma store_addr_good s r : (sa_idx r < STQ_SIZE -> s_st (sq s (sa_idx r)) = SAllocated) -> allgood s -> allgood (handle_store_addr s r).
Proof.
  intros H A. unfold handle_store_addr. destruct (Nat.leb_spec STQ_SIZE (sa_idx r)); [exact A|].
  destruct (_ || _) eqn:E; [exact A|]. apply good_upd; [exact A|]. gd A (sa_idx r). rewrite H by assumption. tauto.
Qed.
Lemma tlb_resp_s_good p r : allgood (fst p) -> allgood (fst (tlb_resp_s p r)).
Proof.
  intros A. destruct p as [s rl]. unfold tlb_resp_s. cbn [fst]. destruct (_ || _); [exact A|]. destruct (_ || _); [exact A|].
  destruct (is_s s (mr_ent r) SWaitTlb) eqn:E; cbn [negb]; [|exact A]. apply is_s_eq in E.
  destruct (mr_res r); cbn [fst]; (apply good_upd; [exact A|]); gd A (mr_ent r); rewrite E; try tauto.
  destruct (s_dv _) eqn:D; tauto.
Qed.
Lemma tlb_move_s_good s k : allgood s -> allgood (tlb_move_s s k).
Proof.
  intros A. unfold tlb_move_s. destruct (negb _); [exact A|]. destruct (s_st _) eqn:E; try exact A.
  - apply good_upd; [exact A|]. gd A (qi (wms s) k). rewrite E. tauto.
  - apply good_upd; [exact A|]. gd A (qi (wms s) k). rewrite E. destruct (s_pf _) eqn:P; intuition congruence.
Qed.
Lemma tlb_in_stq_good rs s rl : allgood s -> allgood (fst (comb_tlb_in_stq rs s rl)).
Proof.
  intros A. unfold comb_tlb_in_stq. destruct (fold_left tlb_resp_s rs (s, rl)) as [s1 rl1] eqn:E. cbn [fst].
  assert (B : allgood s1).
  { change s1 with (fst (s1, rl1)). rewrite <- E. apply (fold_left_inv (fun p => allgood (fst p))); [|exact A]. intros a b _ P. exact (tlb_resp_s_good _ _ P). }
  exact (fold_left_inv allgood tlb_move_s _ (fun a b _ P => tlb_move_s_good a b P) _ B).
Qed.

(** *** Sending committed stores *)
Definition ent (s : stqs) (i : nat) : stqe := sq s ((sh s + i) mod STQ_SIZE).
Definition ovl (x y : stqe) : bool := CheckAddr (s_pa x) (strb_of x) (s_pa y) (strb_of y).
(** A store that memory may have seen has no unfinished older overlapping store. *)
Definition Jinv (s : stqs) : Prop :=
  forall a b, a < b -> b < scc s -> active (ent s b) = true -> ovl (ent s a) (ent s b) = true -> s_st (ent s a) = SDone.
(** The first [scc] entries are exactly the committed ones. *)
Definition Cinv (s : stqs) : Prop := scc s <= sn s /\ sn s <= STQ_SIZE /\ forall k, k < sn s -> com (s_st (ent s k)) = (k <? scc s).
Lemma ent_upd s i f j : i < STQ_SIZE -> j < STQ_SIZE -> ent (upd_s ((sh s + i) mod STQ_SIZE) f s) j = if j =? i then f (ent s i) else ent s j.
Proof.
  intros I J. unfold ent. cbn [upd_s set_sq sq sh]. unfold fupd. destruct (Nat.eqb_spec j i) as [->|N]; [now rewrite Nat.eqb_refl|].
  destruct (Nat.eqb_spec ((sh s + j) mod STQ_SIZE) ((sh s + i) mod STQ_SIZE)) as [E|]; [|reflexivity].
  exfalso. apply N. eapply (slot_inj STQ_SIZE); [unfold STQ_SIZE; lia|exact J|exact I|exact E].
Qed.
Lemma shape_ent s s' : shape s s' -> forall i, ent_le (ent s i) (ent s' i) /\ quiet (ent s i) (ent s' i).
Proof. intros [(P&_) E Q] i. unfold ent. rewrite P. split; [apply E|apply Q]. Qed.
Lemma shape_C s s' : shape s s' -> Cinv s -> Cinv s'.
Proof.
  intros S (A & B & C). pose proof (sh_ptrs _ _ S) as (P1 & P2 & P3 & P4 & P5). unfold Cinv. rewrite P4, P5. split; [exact A|]. split; [exact B|].
  intros k K. destruct (shape_ent _ _ S k) as [L _]. rewrite (le_com _ _ L). now apply C.
Qed.
Lemma frozen_ovl x y x' y' : ent_le x x' -> ent_le y y' -> com (s_st x) = true -> com (s_st y) = true -> ovl x' y' = ovl x y.
Proof.
  intros X Y CX CY. destruct (le_frozen _ _ X CX) as (A&B&_). destruct (le_frozen _ _ Y CY) as (C&D&_). unfold ovl, strb_of. now rewrite A, B, C, D.
Qed.
Lemma shape_J s s' : shape s s' -> Cinv s -> Jinv s -> Jinv s'.
Proof.
  intros S (A & B & C) J a b AB BC ACT O. pose proof (sh_ptrs _ _ S) as (P1 & P2 & P3 & P4 & P5). rewrite P4 in BC.
  destruct (shape_ent _ _ S a) as [La [Qa _]]. destruct (shape_ent _ _ S b) as [Lb [_ Qb]].
  apply Qa. apply (J a b AB BC (Qb ACT)). rewrite <- O. symmetry. apply frozen_ovl; try assumption.
  - rewrite C by lia. apply Nat.ltb_lt. lia.
  - rewrite C by lia. apply Nat.ltb_lt. lia.
Qed.

(** What one issued request says. *)
Record sent_ok (s : stqs) (q : dsreq) (i : nat) : Prop := {
  so_i : i < scc s; so_idx : q_sidx q = (sh s + i) mod STQ_SIZE; so_st : s_st (ent s i) = SCommitted;
  so_addr : q_saddr q = s_pa (ent s i); so_data : q_sdata q = align_store_data (s_data (ent s i)) (s_pa (ent s i)) (s_f3 (ent s i));
  so_strb : q_strb q = get_store_strb (s_pa (ent s i)) (s_f3 (ent s i)); so_mmio : s_mmio (ent s i) = false; so_sup : s_sup (ent s i) = false;
  so_old : forall a, a < i -> ovl (ent s a) (ent s i) = true -> s_st (ent s a) = SDone }.
Lemma blocked_false s i : blocked s i = false -> forall a, a < i -> ovl (ent s a) (ent s i) = true -> s_st (ent s a) = SDone.
Proof.
  intros H a A O. unfold blocked in H. cbv zeta in H. destruct (sst_eqb (s_st (ent s a)) SDone) eqn:E; [now apply sst_eqb_eq|].
  exfalso. assert (T : existsb (fun k => let o := sq s k in CheckAddr (s_pa o) (strb_of o) (s_pa (ent s i)) (strb_of (ent s i)) && negb (sst_eqb (s_st o) SDone)) (stq_slots s i) = true).
  { apply existsb_exists. exists ((sh s + a) mod STQ_SIZE). split.
    - unfold stq_slots. apply in_map_iff. exists a. split; [reflexivity|]. apply in_seq. lia.
    - cbv zeta. change (sq s ((sh s + a) mod STQ_SIZE)) with (ent s a). fold (ovl (ent s a) (ent s i)). now rewrite O, E. }
  unfold ent in T at 1 2. congruence.
Qed.
Definition sent (x y : sstate) : Prop := y = x \/ (x = SCommitted /\ (y = SWaitDcacheResp \/ y = SWaitMmioResp)).
Lemma sent_trans x y z : sent x y -> sent y z -> sent x z.
Proof. unfold sent. intros [->|[-> [->| ->]]] [->|[H [->| ->]]]; try tauto; discriminate. Qed.
Record iss (s s' : stqs) : Prop := { is_p : ptrs s s'; is_e : forall k, ent_le (sq s k) (sq s' k); is_g : allgood s'; is_J : Jinv s'; is_C : Cinv s';
  is_q : wms s' = wms s /\ dns s' = dns s /\ sbad s' = sbad s; is_st : forall k, sent (s_st (sq s k)) (s_st (sq s' k)) }.
Definition uncst (s s' : stqs) (u u' : uncu) (is : list nat) : Prop :=
  u' = u \/ (u_v u = false /\ In 0 is /\ u' = UN true false (s_pa (ent s 0)) (s_data (ent s 0)) (s_f3 (ent s 0)) (sh s mod STQ_SIZE) /\
             s_st (ent s 0) = SCommitted /\ s_mmio (ent s 0) = true /\ s_st (ent s' 0) = SWaitMmioResp).
Definition reqs (s s' : stqs) (n : nat) (new : list dsreq) (is : list nat) : Prop :=
  length new + n <= Nat.max n LSU_STA_COUNT /\ Forall (fun q => exists i, In i is /\ sent_ok s q i /\ s_st (ent s' i) = SWaitDcacheResp) new /\
  NoDup (map q_sidx new).
Lemma iss_refl s : allgood s -> Cinv s -> Jinv s -> iss s s.
Proof. intros. constructor; auto using ptrs_refl, ent_le_refl. intros. now left. Qed.
Lemma iss_trans a b c : iss a b -> iss b c -> iss a c.
Proof.
  intros [p1 e1 g1 j1 c1 q1 t1] [p2 e2 g2 j2 c2 q2 t2]. constructor; auto.
  - exact (ptrs_trans _ _ _ p1 p2).
  - intros k. exact (ent_le_trans _ _ _ (e1 k) (e2 k)).
  - destruct q1 as (?&?&?), q2 as (?&?&?). repeat split; congruence.
  - intros k. exact (sent_trans _ _ _ (t1 k) (t2 k)).
Qed.
Lemma le_st e x : com x = com (s_st e) -> ent_le e (set_s_st x e).
Proof. intros H. constructor; cbn; auto. repeat split. Qed.
Lemma iss_upd s i f : allgood s -> Cinv s -> Jinv s -> i < scc s -> ent_le (ent s i) (f (ent s i)) -> good (f (ent s i)) -> sent (s_st (ent s i)) (s_st (f (ent s i))) ->
  (s_st (f (ent s i)) <> s_st (ent s i) -> forall a, a < i -> ovl (ent s a) (ent s i) = true -> s_st (ent s a) = SDone) ->
  iss s (upd_s ((sh s + i) mod STQ_SIZE) f s).
Proof.
  intros G C J I L GD ST B. set (s1 := upd_s ((sh s + i) mod STQ_SIZE) f s). destruct C as (C1 & C2 & C3).
  assert (LE : forall k, ent_le (sq s k) (sq s1 k)).
  { intros k. unfold s1. cbn [upd_s set_sq sq]. unfold fupd. destruct (Nat.eqb_spec k ((sh s + i) mod STQ_SIZE)) as [->|]; [exact L|apply ent_le_refl]. }
  assert (SS : forall k, sent (s_st (sq s k)) (s_st (sq s1 k))).
  { intros k. unfold s1. cbn [upd_s set_sq sq]. unfold fupd. destruct (Nat.eqb_spec k ((sh s + i) mod STQ_SIZE)) as [->|]; [exact ST|now left]. }
  assert (EN : forall j, j < STQ_SIZE -> ent s1 j = if j =? i then f (ent s i) else ent s j) by (intros; apply ent_upd; lia).
  constructor; auto.
  - repeat split.
  - intros k. unfold s1. cbn [upd_s set_sq sq]. unfold fupd. destruct (Nat.eqb_spec k ((sh s + i) mod STQ_SIZE)); [exact GD|apply G].
  - intros a b AB BC ACT O. change (scc s1) with (scc s) in BC.
    assert (OO : ovl (ent s a) (ent s b) = true).
    { rewrite <- O. symmetry. apply frozen_ovl; [apply LE|apply LE| |]; rewrite C3 by lia; apply Nat.ltb_lt; lia. }
    assert (DN : s_st (ent s a) = SDone -> s_st (ent s1 a) = SDone).
    { intros D. destruct (SS ((sh s + a) mod STQ_SIZE)) as [E|[E _]]; unfold ent in *; cbn [sh s1 upd_s set_sq] in *; congruence. }
    apply DN. rewrite EN in ACT by lia. destruct (Nat.eqb_spec b i) as [->|N]; [|exact (J a b AB BC ACT OO)].
    destruct (sst_eqb (s_st (f (ent s i))) (s_st (ent s i))) eqn:Q.
    + apply sst_eqb_eq in Q. apply (J a i AB BC); [|exact OO]. unfold active in *. rewrite Q in ACT.
      destruct (le_frozen _ _ L ltac:(rewrite C3 by lia; apply Nat.ltb_lt; lia)) as (_&_&_&_&_&_&FS&_). now rewrite FS in ACT.
    + apply (B ltac:(intros X; rewrite X in Q; rewrite (proj2 (sst_eqb_eq _ _) eq_refl) in Q; discriminate) a AB OO).
  - split; [exact C1|]. split; [exact C2|]. intros k K. change (sn s1) with (sn s) in K. change (scc s1) with (scc s).
    rewrite <- C3 by exact K. apply (le_com _ _ (LE _)).
Qed.
Lemma ent_at s i : sq s ((sh s + i) mod STQ_SIZE) = ent s i. Proof. reflexivity. Qed.
Lemma issue_stores_spec cur is : forall n s u out s' u' out', issue_stores cur is n s u out = (s', u', out') ->
  allgood s -> Cinv s -> Jinv s -> Forall (fun i => i < scc s) is -> NoDup is ->
  iss s s' /\ (exists new, out' = out ++ new /\ reqs s s' n new is) /\ uncst s s' u u' is.
Proof.
  induction is as [|i t IH]; intros n s u out s' u' out' E G C J F ND; cbn [issue_stores] in E.
  - injection E as <- <- <-. split; [now apply iss_refl|]. split; [|now left]. exists []. rewrite app_nil_r. split; [reflexivity|]. split; [cbn; lia|]. split; constructor.
  - inversion F as [|? ? Fi Ft]; subst. inversion ND as [|? ? Ni Nt]; subst.
    destruct (Nat.leb_spec LSU_STA_COUNT n) as [LN|LN].
    { injection E as <- <- <-. split; [now apply iss_refl|]. split; [|now left]. exists []. rewrite app_nil_r. split; [reflexivity|]. split; [cbn; lia|]. split; constructor. }
    pose proof C as (C1 & C2 & C3). assert (I16 : i < STQ_SIZE) by lia.
    (* the rest of the loop from a state where only entry i changed *)
    assert (K : forall s1 u1 new1, iss s s1 -> (forall j, j <> i -> j < STQ_SIZE -> ent s1 j = ent s j) ->
       Forall (fun q => sent_ok s q i /\ s_st (ent s1 i) = SWaitDcacheResp) new1 -> length new1 <= 1 -> uncst s s1 u u1 [i] ->
       issue_stores cur t (length new1 + n) s1 u1 (out ++ new1) = (s', u', out') ->
       iss s s' /\ (exists new, out' = out ++ new /\ reqs s s' n new (i :: t)) /\ uncst s s' u u' (i :: t)).
    { clear E. intros s1 u1 new1 I1 OT N1 L1 U1 E1. destruct (is_p _ _ I1) as (P1 & P2 & P3 & P4 & P5).
      assert (F1 : Forall (fun j => j < scc s1) t) by now rewrite P4.
      destruct (IH _ _ _ _ _ _ _ E1 (is_g _ _ I1) (is_C _ _ I1) (is_J _ _ I1) F1 Nt) as (I2 & (new2 & -> & L2 & N2 & D2) & U2).
      assert (Wt : forall j, In j t -> j < scc s /\ j <> i).
      { intros j IJ. rewrite Forall_forall in Ft. split; [exact (Ft _ IJ)|]. intros ->. contradiction. }
      assert (SO : forall q j, In j t -> sent_ok s1 q j -> sent_ok s q j).
      { intros q j IJ [a1 a2 a3 a4 a5 a6 a7 a8 a9]. destruct (Wt j IJ) as [Wj Nj]. rewrite (OT j Nj) in * by lia. rewrite P1 in *. constructor; try assumption.
        intros a Ha O. destruct (Nat.eq_dec a i) as [->|Na].
        - assert (X : ovl (ent s1 i) (ent s j) = true).
          { rewrite <- O. apply frozen_ovl; [unfold ent; rewrite P1; apply (is_e _ _ I1)|apply ent_le_refl| |rewrite a3; reflexivity]. rewrite C3 by lia. apply Nat.ltb_lt. lia. }
          specialize (a9 i Ha X). destruct (is_st _ _ I1 ((sh s + i) mod STQ_SIZE)) as [Y|[Y [Z|Z]]]; unfold ent in *; rewrite P1 in a9; congruence.
        - rewrite <- (OT a Na) by lia. apply (a9 a Ha). now rewrite (OT a Na) by lia. }
      assert (ST2 : forall j, s_st (ent s1 j) <> SCommitted -> s_st (ent s' j) = s_st (ent s1 j)).
      { intros j X. destruct (is_st _ _ I2 ((sh s1 + j) mod STQ_SIZE)) as [Y|[Y _]]; unfold ent in *; destruct (is_p _ _ I2) as (Q1 & _); rewrite Q1; congruence. }
      split; [exact (iss_trans _ _ _ I1 I2)|]. split.
      - exists (new1 ++ new2). split; [now rewrite app_assoc|]. split; [|split].
        + rewrite app_length. cbn [LSU_STA_COUNT] in *. unfold LSU_STA_COUNT in *. lia.
        + apply Forall_app. split; rewrite Forall_forall in *.
          * intros q Q. destruct (N1 q Q) as [H1 H2]. exists i. split; [now left|]. split; [exact H1|]. rewrite ST2; [exact H2|]. rewrite H2. discriminate.
          * intros q Q. destruct (N2 q Q) as (j & Hj & H1 & H2). exists j. split; [now right|]. split; [exact (SO q j Hj H1)|exact H2].
        + rewrite map_app. destruct new1 as [|q1 [|? ?]]; [exact D2| |cbn in L1; lia]. cbn. constructor; [|exact D2].
          intros X. apply in_map_iff in X as (q2 & X & Q2). rewrite Forall_forall in N1, N2. destruct (N1 q1 (or_introl eq_refl)) as [H1 _].
          destruct (N2 q2 Q2) as (j & Hj & H2 & _). apply SO in H2; [|exact Hj]. destruct (Wt j Hj) as [Wj Nj]. apply Nj.
          apply (slot_inj STQ_SIZE (sh s)); try lia. rewrite <- (so_idx _ _ _ H2), <- (so_idx _ _ _ H1). exact X.
      - destruct U1 as [->|(V1 & [A1|[]] & -> & B1 & B2 & B3)].
        + destruct U2 as [->|(V2 & A2 & -> & B1 & B2 & B3)]; [now left|]. right. split; [exact V2|]. split; [now right|].
          destruct (Wt 0 A2) as [_ N0]. rewrite (OT 0 N0) in * by (unfold STQ_SIZE; lia). rewrite P1. tauto.
        + subst i. destruct U2 as [->|(V2 & _)]; [|discriminate]. right. split; [exact V1|]. split; [now left|]. split; [reflexivity|]. split; [exact B1|]. split; [exact B2|].
          rewrite ST2; [exact B3|rewrite B3; discriminate]. }
    assert (SKIP : issue_stores cur t n s u out = (s', u', out') ->
       iss s s' /\ (exists new, out' = out ++ new /\ reqs s s' n new (i :: t)) /\ uncst s s' u u' (i :: t)).
    { intros E1. apply (K s u []); auto; [now apply iss_refl|now left|]. cbn [length Nat.add]. now rewrite app_nil_r. }
    destruct (negb (is_s s ((sh s + i) mod STQ_SIZE) SCommitted) || is_s cur ((sh s + i) mod STQ_SIZE) SWaitDcacheResp) eqn:E1; [exact (SKIP E)|].
    apply orb_false_iff in E1 as [E1 _]. apply negb_false_iff, is_s_eq in E1. fold (ent s i) in E1. clear SKIP.
    assert (GE : full (ent s i) /\ s_sup (ent s i) = false) by (pose proof (G ((sh s + i) mod STQ_SIZE)) as X; unfold good in X; fold (ent s i) in X; now rewrite E1 in X).
    destruct GE as [GE1 GE2]. rewrite ent_at in E. set (w := pred (s_wait (ent s i))) in *.
    set (s1 := upd_s ((sh s + i) mod STQ_SIZE) (set_s_wait w) s) in *.
    assert (I1 : iss s s1).
    { apply iss_upd; auto; [constructor; cbn; tauto| |now left|intros X; now destruct X]. unfold good. cbn. rewrite E1. split; [exact GE1|exact GE2]. }
    assert (O1 : forall j, j <> i -> j < STQ_SIZE -> ent s1 j = ent s j).
    { intros j N JJ. unfold s1. rewrite ent_upd by lia. destruct (Nat.eqb_spec j i); [contradiction|reflexivity]. }
    assert (OI : ent s1 i = set_s_wait w (ent s i)) by (unfold s1; rewrite ent_upd by lia; now rewrite Nat.eqb_refl).
    assert (SKIP : issue_stores cur t n s1 u out = (s', u', out') ->
       iss s s' /\ (exists new, out' = out ++ new /\ reqs s s' n new (i :: t)) /\ uncst s s' u u' (i :: t)).
    { intros X. apply (K s1 u []); auto; [now left|]. cbn [length Nat.add]. now rewrite app_nil_r. }
    change ((sh s + i) mod STQ_SIZE) with ((sh s1 + i) mod STQ_SIZE) in E. rewrite ent_at in E.
    destruct (0 <? w); [exact (SKIP E)|]. destruct (blocked s1 i) eqn:BL; [exact (SKIP E)|].
    pose proof (blocked_false _ _ BL) as OLD.
    assert (GO : forall f, (forall e, com (s_st e) = true -> ent_le e (f e) \/ True) -> True) by trivial. clear GO.
    assert (ST1 : s_st (ent s1 i) = SCommitted) by (rewrite OI; exact E1).
    assert (GF : full (ent s1 i) /\ s_sup (ent s1 i) = false) by (rewrite OI; split; [exact GE1|exact GE2]).
    assert (C1' : Cinv s1) by apply (is_C _ _ I1). assert (J1' : Jinv s1) by apply (is_J _ _ I1). assert (G1' : allgood s1) by apply (is_g _ _ I1).
    assert (OTH : forall f, forall j, j <> i -> j < STQ_SIZE -> ent (upd_s ((sh s1 + i) mod STQ_SIZE) f s1) j = ent s j).
    { intros f j N JJ. rewrite ent_upd by lia. destruct (Nat.eqb_spec j i); [contradiction|]. now apply O1. }
    assert (OTI : forall f, ent (upd_s ((sh s1 + i) mod STQ_SIZE) f s1) i = f (ent s1 i)).
    { intros f. rewrite ent_upd by lia. now rewrite Nat.eqb_refl. }
    destruct (s_mmio (ent s1 i)) eqn:MM.
    + destruct ((i =? 0) && negb (u_v u)) eqn:Z; [|exact (SKIP E)]. apply andb_true_iff in Z as [Z1 Z2]. apply Nat.eqb_eq in Z1. apply negb_true_iff in Z2. subst i.
      apply (K (upd_s ((sh s1 + 0) mod STQ_SIZE) (set_s_st SWaitMmioResp) s1) (UN true false (s_pa (ent s1 0)) (s_data (ent s1 0)) (s_f3 (ent s1 0)) ((sh s1 + 0) mod STQ_SIZE)) []); auto.
      * apply (iss_trans _ _ _ I1). apply iss_upd; auto.
        -- apply le_st. rewrite ST1. reflexivity.
        -- unfold good. cbn [set_s_st s_st s_pav s_dv s_pf s_sup s_mmio]. destruct GF as [GF1 GF2]. split; [exact GF1|]. split; assumption.
        -- right. split; [exact ST1|]. cbn [set_s_st s_st]. tauto.
      * right. split; [exact Z2|]. split; [now left|]. rewrite OTI. rewrite OI. cbn [set_s_wait s_pa s_data s_f3 set_s_st s_st]. rewrite Nat.add_0_r.
        split; [reflexivity|]. split; [exact E1|]. split; [|reflexivity]. rewrite OI in MM. exact MM.
      * cbn [length Nat.add]. rewrite app_nil_r. exact E.
    + destruct (s_sup (ent s1 i)) eqn:SU; [destruct GF; congruence|].
      match type of E with context [out ++ [?q]] => apply (K (upd_s ((sh s1 + i) mod STQ_SIZE) (set_s_st SWaitDcacheResp) s1) u [q]) end; auto.
      * apply (iss_trans _ _ _ I1). apply iss_upd; auto.
        -- apply le_st. rewrite ST1. reflexivity.
        -- unfold good. cbn [set_s_st s_st s_pav s_dv s_pf s_sup s_mmio]. destruct GF as [GF1 GF2]. split; [exact GF1|]. split; assumption.
        -- right. split; [exact ST1|]. cbn [set_s_st s_st]. tauto.
      * constructor; [|constructor]. rewrite OTI. split; [|reflexivity].
        assert (OLD' : forall a, a < i -> ovl (ent s a) (ent s i) = true -> s_st (ent s a) = SDone).
        { intros a A O. rewrite <- (O1 a) by lia. apply (OLD a A). rewrite O1 by lia. rewrite <- O. rewrite OI. reflexivity. }
        rewrite OI in *. constructor; auto.
      * now left.
Qed.
Lemma lsu2dcache_stq_spec cur s u s' u' out : comb_lsu2dcache_stq cur s u = (s', u', out) -> allgood s -> Cinv s -> Jinv s ->
  iss s s' /\ reqs s s' 0 out (seq 0 (Nat.min (scc s) WINDOW)) /\ uncst s s' u u' (seq 0 (Nat.min (scc s) WINDOW)).
Proof.
  intros E G C J. unfold comb_lsu2dcache_stq in E. apply issue_stores_spec in E as (A & (new & -> & B) & D); auto.
  - apply Forall_forall. intros i I. apply in_seq in I. lia.
  - apply seq_NoDup.
Qed.

(** *** The queue in program order *)
Record gst := GS { g_rob : nat; g_robf : bool; g_brm : Z }.
Definition key (e : stqe) : gst := GS (s_rob e) (s_robf e) (s_brm e).
Definition order (s : stqs) : list gst := map key (ring STQ_SIZE (sq s) (sh s) (sn s)).
Lemma order_len s : length (order s) = sn s. Proof. unfold order. now rewrite map_length, ring_length. Qed.
Lemma order_ext s s' : sh s' = sh s -> sn s' = sn s -> (forall k, k < sn s -> key (ent s' k) = key (ent s k)) -> order s' = order s.
Proof.
  intros A B H. unfold order, ring. rewrite !map_map, A, B. apply map_ext_in. intros k K. apply in_seq in K. cbn in K. specialize (H k ltac:(lia)). unfold ent in H. now rewrite A in H.
Qed.
Lemma order_nth s k d : k < sn s -> nth k (order s) d = key (ent s k).
Proof.
  intros K. unfold order. rewrite (nth_indep _ d (key stqe0)) by (rewrite map_length, ring_length; exact K). rewrite map_nth, ring_nth by exact K. reflexivity.
Qed.
Lemma order_shape s s' : ptrs s s' -> (forall k, ent_le (sq s k) (sq s' k)) -> order s' = order s.
Proof.
  intros (P1 & P2 & P3 & P4 & P5) L. apply order_ext; auto. intros k _. unfold ent, key. rewrite P1. specialize (L ((sh s + k) mod STQ_SIZE)).
  now rewrite (le_rob _ _ L), (le_robf _ _ L), (le_brm _ _ L).
Qed.

(** [b] = number of stores that have left the queue: store number [b + k] sits in
    slot (b + k) mod 16 with wrap flag odd ((b + k) / 16). *)
Record SInv (b : nat) (s : stqs) : Prop := {
  v_sh : sh s = b mod STQ_SIZE; v_shf : shf s = Nat.odd (b / STQ_SIZE); v_scm : scm s = (b + scc s) mod STQ_SIZE;
  v_C : Cinv s; v_flag : forall k, k < sn s -> s_flag (ent s k) = Nat.odd ((b + k) / STQ_SIZE); v_good : allgood s; v_J : Jinv s }.
Lemma SInv_shape b s s' : shape s s' -> allgood s' -> SInv b s -> SInv b s'.
Proof.
  intros S G [A B C D E F J]. pose proof (sh_ptrs _ _ S) as (P1 & P2 & P3 & P4 & P5).
  constructor; try congruence; auto; [exact (shape_C _ _ S D)| |exact (shape_J _ _ S D J)].
  intros k K. destruct (shape_ent _ _ S k) as [L _]. rewrite (le_flag _ _ L). apply E. congruence.
Qed.
Lemma SInv_iss b s s' : iss s s' -> SInv b s -> SInv b s'.
Proof.
  intros S [A B C D E F J]. destruct S as [(P1 & P2 & P3 & P4 & P5) L G J' C' Q T]. constructor; try congruence; auto.
  intros k K. unfold ent. rewrite P1. rewrite (le_flag _ _ (L _)). apply E. congruence.
Qed.
Lemma mod16 a b : (a mod 16 + b) mod 16 = (a + b) mod 16. Proof. lia. Qed.
Lemma odd_step a : Nat.odd (S a) = negb (Nat.odd a). Proof. now rewrite Nat.odd_succ, Nat.negb_odd. Qed.
Lemma tail_flag_odd b n : n <= 16 -> stq_tail_flag (b mod 16) n (Nat.odd (b / 16)) = Nat.odd ((b + n) / 16).
Proof.
  intros N. unfold stq_tail_flag, STQ_SIZE. destruct (Nat.leb_spec 16 (b mod 16 + n)).
  - replace ((b + n) / 16) with (S (b / 16)) by lia. now rewrite odd_step.
  - f_equal. lia.
Qed.

Definition accepts (s : stqs) (idx : nat) : bool := (idx =? scm s) && is_s s idx SWaitCommit.
Lemma commit_one_spec b s fl idx : SInv b s -> (accepts s idx = true -> scc s < sn s /\ (s_pf (sq s idx) = true -> fl = true)) ->
  let s' := commit_one fl s idx in
  SInv b s' /\ order s' = order s /\ sn s' = sn s /\ scc s' = scc s + (if accepts s idx then 1 else 0) /\ (accepts s idx = true -> idx = (b + scc s) mod STQ_SIZE) /\
  sbad s' = sbad s || negb (accepts s idx).
Proof.
  intros [A B C D E F J] H. unfold commit_one. fold (accepts s idx). destruct (accepts s idx) eqn:AC; cbv zeta.
  2:{ split; [constructor; auto|]. repeat split; auto; try discriminate; cbn; rewrite ?orb_true_r; try reflexivity; lia. }
  destruct (H eq_refl) as [HL HP]. unfold accepts in AC. apply andb_true_iff in AC as [I W]. apply Nat.eqb_eq in I. apply is_s_eq in W.
  destruct D as (D1 & D2 & D3). assert (II : idx = (sh s + scc s) mod STQ_SIZE) by (rewrite I, C, A; unfold STQ_SIZE; lia).
  set (f := fun e => if fl then set_s_sup true (set_s_st SDone e) else if s_lrsc e && negb (s_scp e) then set_s_st SDone (set_s_sup true e) else set_s_st SCommitted e).
  assert (SC : (scc s <? STQ_SIZE) = true) by (apply Nat.ltb_lt; lia). fold f. change (scc (upd_s idx f s)) with (scc s). change (scm (upd_s idx f s)) with (scm s). rewrite SC. rewrite II at 1 2 3 4 5.
  match goal with |- SInv b ?x /\ _ => set (s' := x) end. assert (Wf : ent s (scc s) = sq s idx) by (unfold ent; now rewrite <- II).
  assert (EN : forall j, j < STQ_SIZE -> ent s' j = if j =? scc s then f (ent s (scc s)) else ent s j).
  { intros j JJ. change (ent s' j) with (ent (upd_s ((sh s + scc s) mod STQ_SIZE) f s) j). apply ent_upd; lia. }
  assert (FK : forall e, key (f e) = key e /\ s_flag (f e) = s_flag e /\ com (s_st (f e)) = true /\ active (f e) = false).
  { intros e. unfold f. destruct fl; [cbn; auto|]. destruct (_ && _); cbn; auto. }
  split; [|split; [|split; [reflexivity|split; [cbn; lia|split; [intros _; rewrite A; unfold STQ_SIZE; lia|cbn; now rewrite orb_false_r]]]]].
  - constructor; auto.
    + change (scm s') with (advance_ring_ptr (scm s) STQ_SIZE). change (scc s') with (S (scc s)). rewrite C. unfold advance_ring_ptr, advance_ring_ptr_f, STQ_SIZE in *.
      destruct (Nat.leb_spec 16 (S ((b + scc s) mod 16))); cbn [fst]; lia.
    + split; [cbn; lia|]. split; [exact D2|]. intros k K. change (sn s') with (sn s) in K. change (scc s') with (S (scc s)). rewrite EN by lia.
      destruct (Nat.eqb_spec k (scc s)) as [->|N].
      * destruct (FK (ent s (scc s))) as (_ & _ & X & _). rewrite X. symmetry. apply Nat.ltb_lt. lia.
      * rewrite D3 by exact K. destruct (Nat.ltb_spec k (scc s)), (Nat.ltb_spec k (S (scc s))); try reflexivity; lia.
    + intros k K. change (sn s') with (sn s) in K. rewrite EN by lia. destruct (Nat.eqb_spec k (scc s)) as [->|N]; [|now apply E].
      destruct (FK (ent s (scc s))) as (_ & X & _). rewrite X. now apply E.
    + intros k. unfold s'. cbn [set_scc set_scm upd_s set_sq sq]. unfold fupd. destruct (Nat.eqb_spec k ((sh s + scc s) mod STQ_SIZE)) as [->|]; [|apply F].
      fold (ent s (scc s)). fold (f (ent s (scc s))). rewrite Wf. pose proof (F idx) as X. unfold good in X. rewrite W in X. destruct X as [X1 X2]. unfold f, good.
      destruct fl; [now left|]. destruct X1 as [[X1 _]|X1]; [rewrite X1 in HP; now specialize (HP eq_refl)|]. destruct X1 as (X3 & X4 & X5). specialize (X2 X5).
      destruct (s_lrsc (sq s idx) && negb (s_scp (sq s idx))); cbn; [now left|]. repeat split; assumption.
    + intros x y XY YC ACT O. change (scc s') with (S (scc s)) in YC. rewrite (EN x) in * by lia. rewrite (EN y) in * by lia.
      destruct (Nat.eqb_spec x (scc s)); [lia|]. destruct (Nat.eqb_spec y (scc s)) as [->|N].
      * destruct (FK (ent s (scc s))) as (_ & _ & _ & X). congruence.
      * apply (J x y); [assumption|lia|assumption|assumption].
  - apply order_ext; [reflexivity|reflexivity|]. intros k K. rewrite EN by lia. destruct (Nat.eqb_spec k (scc s)) as [->|]; [|reflexivity]. apply FK.
Qed.

Lemma alloc_stq_spec b s r : SInv b s -> let ok := (sn s <? STQ_SIZE) && Bool.eqb (sl_flag r) (Nat.odd ((b + sn s) / STQ_SIZE)) in
  let s' := alloc_stq s r in
  SInv b s' /\ scc s' = scc s /\ order s' = (if ok then order s ++ [GS (sl_rob r) (sl_robf r) (sl_brm r)] else order s) /\ sbad s' = sbad s || negb ok.
Proof.
  intros I. cbv zeta. pose proof I as [A B C D E F J]. pose proof D as (D1 & D2 & D3). unfold alloc_stq.
  destruct (Nat.leb_spec STQ_SIZE (sn s)) as [L|L].
  { destruct (Nat.ltb_spec (sn s) STQ_SIZE); [lia|]. cbn [andb negb]. split; [constructor; auto|]. repeat split. cbn. now rewrite orb_true_r. }
  destruct (Nat.ltb_spec (sn s) STQ_SIZE); [|lia]. cbn [andb].
  assert (TF : stq_tail_flag (sh s) (sn s) (shf s) = Nat.odd ((b + sn s) / STQ_SIZE)) by (rewrite A, B; apply tail_flag_odd; unfold STQ_SIZE in *; lia).
  rewrite TF. destruct (Bool.eqb (sl_flag r) (Nat.odd ((b + sn s) / STQ_SIZE))) eqn:FL; cbn [negb]; [|split; [constructor; auto|]; repeat split; cbn; now rewrite orb_true_r].
  apply Bool.eqb_prop in FL.
  set (f := fun _ : stqe => set_s_st SAllocated (set_s_f3 (sl_f3 r) (set_s_brm (sl_brm r) (set_s_flag (sl_flag r) (set_s_robf (sl_robf r) (set_s_rob (sl_rob r) stqe0)))))).
  change (stq_idx_after (sh s) (sn s)) with ((sh s + sn s) mod STQ_SIZE).
  match goal with |- SInv b ?x /\ _ => set (s' := x) end.
  assert (EN : forall j, j < STQ_SIZE -> ent s' j = if j =? sn s then f (ent s (sn s)) else ent s j).
  { intros j JJ. change (ent s' j) with (ent (upd_s ((sh s + sn s) mod STQ_SIZE) f s) j). apply ent_upd; lia. }
  split; [|split; [reflexivity|split; [|cbn; now rewrite orb_false_r]]].
  - constructor; auto.
    + split; [cbn; lia|]. split; [cbn; lia|]. intros k K. change (sn s') with (S (sn s)) in K. change (scc s') with (scc s). rewrite EN by lia.
      destruct (Nat.eqb_spec k (sn s)) as [->|N]; [|apply D3; lia]. symmetry. cbn [f com s_st set_s_st]. apply Nat.ltb_ge. lia.
    + intros k K. change (sn s') with (S (sn s)) in K. rewrite EN by lia. destruct (Nat.eqb_spec k (sn s)) as [->|N]; [|apply E; lia]. exact FL.
    + intros k. unfold s'. cbn [set_sn upd_s set_sq sq]. unfold fupd. destruct (Nat.eqb_spec k ((sh s + sn s) mod STQ_SIZE)) as [->|]; [|apply F]. unfold good, f. cbn. auto.
    + intros x y XY YC ACT O. change (scc s') with (scc s) in YC. rewrite (EN x) in * by lia. rewrite (EN y) in * by lia. destruct (Nat.eqb_spec x (sn s)); [lia|]. destruct (Nat.eqb_spec y (sn s)); [lia|]. now apply (J x y).
  - unfold order. change (ring STQ_SIZE (sq s') (sh s') (sn s')) with (ring STQ_SIZE (fupd (sq s) ((sh s + sn s) mod STQ_SIZE) (f (ent s (sn s)))) (sh s) (S (sn s))).
    rewrite ring_push by (unfold STQ_SIZE in *; lia). rewrite map_app. reflexivity.
Qed.

(** *** Squashes *)
Lemma SInv_cut b s keep cc w d : SInv b s -> keep <= sn s -> cc = Nat.min (scc s) keep ->
  let s' := SQ (sq s) (sh s) (stq_idx_after (sh s) cc) (shf s) cc keep w d (sbad s) in SInv b s' /\ order s' = firstn keep (order s).
Proof.
  intros [A B C D E F J] K ->. destruct D as (D1 & D2 & D3). cbv zeta. split.
  - constructor; auto; cbn [sh shf scm scc sn].
    + unfold stq_idx_after. rewrite A. unfold STQ_SIZE. lia.
    + split; [cbn; lia|]. split; [cbn; lia|]. intros k Q. cbn [sn scc] in *.
      change (ent _ k) with (ent s k). rewrite D3 by lia. destruct (Nat.ltb_spec k (scc s)), (Nat.ltb_spec k (Nat.min (scc s) keep)); try reflexivity; lia.
    + intros k Q. change (ent _ k) with (ent s k). apply E. lia.
    + intros x y XY YC. cbn [scc] in YC. apply (J x y XY). lia.
  - unfold order. cbn [sq sh sn]. rewrite <- (ring_firstn _ _ _ (sn s) keep K). now rewrite firstn_map.
Qed.
Lemma flush_global_spec b l : SInv b (st l) -> let s' := st (flush_global l) in
  SInv b s' /\ order s' = firstn (scc (st l)) (order (st l)) /\ scc s' = scc (st l) /\ sbad s' = sbad (st l).
Proof.
  intros I. pose proof (v_C _ _ I) as (D1 & _). cbv zeta. unfold flush_global. cbn [st scc sbad]. rewrite (Nat.min_l _ _ D1).
  destruct (SInv_cut b (st l) (scc (st l)) (scc (st l)) (wipe (wms (st l))) (wipe (dns (st l))) I D1 ltac:(lia)) as [X Y]. cbv zeta in X, Y. tauto.
Qed.
Lemma first_hit_le m es : first_hit m es <= length es.
Proof. induction es as [|e t IH]; cbn; [lia|]. destruct (hits _ _); lia. Qed.
Lemma first_hit_no m es k : k < first_hit m es -> hits (s_brm (nth k es stqe0)) m = false.
Proof. revert k. induction es as [|e t IH]; cbn; intros k K; [lia|]. destruct (hits (s_brm e) m) eqn:H; [lia|]. destruct k; [exact H|apply IH; lia]. Qed.
Lemma first_hit_yes m es : first_hit m es < length es -> hits (s_brm (nth (first_hit m es) es stqe0)) m = true.
Proof. induction es as [|e t IH]; cbn; intros K; [lia|]. destruct (hits (s_brm e) m) eqn:H; [exact H|]. apply IH. lia. Qed.
Definition spared (m : Z) (g : gst) : bool := negb (hits (g_brm g) m).
(** If every store after a dependent one is dependent too, cutting at the first
    dependent store is keeping exactly the independent ones. *)
Lemma cut_filter m es : (forall i j, i <= j -> j < length es -> hits (s_brm (nth i es stqe0)) m = true -> hits (s_brm (nth j es stqe0)) m = true) ->
  firstn (first_hit m es) (map key es) = filter (spared m) (map key es).
Proof.
  induction es as [|e t IH]; intros M; cbn [first_hit map]; [reflexivity|]. cbn [filter]. change (spared m (key e)) with (negb (hits (s_brm e) m)).
  destruct (hits (s_brm e) m) eqn:H; cbn [negb firstn].
  - symmetry. assert (N : forall x, In x (map key t) -> spared m x = false).
    { intros x X. apply in_map_iff in X as (y & <- & Y). destruct (In_nth _ _ stqe0 Y) as (j & J & <-). unfold spared. cbn [key g_brm].
      specialize (M 0 (S j) ltac:(lia) ltac:(cbn; lia) H). cbn [nth] in M. now rewrite M. }
    clear -N. induction (map key t) as [|a l IH]; [reflexivity|]. cbn. rewrite (N a (or_introl eq_refl)). apply IH. intros x X. apply N. now right.
  - f_equal. apply IH. intros i j IJ JL HI. apply (M (S i) (S j)); [lia|cbn; lia|exact HI].
Qed.
Lemma slots_ring s n : map (sq s) (stq_slots s n) = ring STQ_SIZE (sq s) (sh s) n.
Proof. unfold stq_slots, ring. now rewrite map_map. Qed.
Definition mono (m : Z) (gs : list gst) : Prop :=
  forall i j d, i <= j -> j < length gs -> hits (g_brm (nth i gs d)) m = true -> hits (g_brm (nth j gs d)) m = true.
Lemma flush_mispred_spec b m l : SInv b (st l) -> mono m (order (st l)) ->
  let s' := st (flush_mispred m l) in SInv b s' /\ order s' = filter (spared m) (order (st l)) /\ scc s' = Nat.min (scc (st l)) (length (order s')) /\ sbad s' = sbad (st l).
Proof.
  intros I M. cbv zeta. unfold flush_mispred. cbn [st scc sbad]. set (es := map (sq (st l)) (stq_slots (st l) (sn (st l)))).
  assert (EL : es = ring STQ_SIZE (sq (st l)) (sh (st l)) (sn (st l))) by apply slots_ring. assert (LL : length es = sn (st l)) by (rewrite EL; apply ring_length).
  pose proof (first_hit_le m es) as HL. rewrite LL in HL.
  match goal with |- context [SQ (sq (st l)) (sh (st l)) _ (shf (st l)) _ _ ?w ?d _] => destruct (SInv_cut b (st l) (first_hit m es) (Nat.min (scc (st l)) (first_hit m es)) w d I HL eq_refl) as [X Y] end.
  split; [exact X|]. split; [|split; [|reflexivity]].
  - rewrite Y. unfold order. rewrite <- EL. apply cut_filter. intros i j IJ JL H. rewrite LL in JL.
    assert (Q : forall k, k < sn (st l) -> g_brm (nth k (order (st l)) (key stqe0)) = s_brm (nth k es stqe0)).
    { intros k K. unfold order. rewrite <- EL. now rewrite map_nth. }
    rewrite <- Q in * by lia. apply (M i j _ IJ); [rewrite order_len; exact JL|exact H].
  - rewrite Y. rewrite firstn_length, order_len. lia.
Qed.
Lemma mispred_committed s m : Cinv s -> mono m (order s) -> (forall k, k < scc s -> hits (s_brm (ent s k)) m = false) ->
  Nat.min (scc s) (length (filter (spared m) (order s))) = scc s.
Proof.
  intros (C1 & C2 & C3) M H. apply Nat.min_l.
  assert (X : firstn (scc s) (order s) = filter (spared m) (firstn (scc s) (order s))).
  { assert (FA : Forall (fun g => spared m g = true) (firstn (scc s) (order s))).
    { apply Forall_forall. intros g G. destruct (In_nth _ _ (key stqe0) G) as (k & K & <-). rewrite firstn_length, order_len in K.
      assert (KS : k < scc s) by lia.
      assert (NF : nth k (firstn (scc s) (order s)) (key stqe0) = nth k (order s) (key stqe0)).
      { rewrite <- (firstn_skipn (scc s) (order s)) at 2. symmetry. apply app_nth1. rewrite firstn_length, order_len. lia. }
      rewrite NF. rewrite order_nth by lia. unfold spared. cbn [key g_brm]. now rewrite H. }
    induction FA as [|g t G F IH]; [reflexivity|]. cbn. rewrite G. now f_equal. }
  rewrite <- (firstn_skipn (scc s) (order s)), filter_app, app_length, <- X, firstn_length, order_len. lia.
Qed.

Lemma fold_upd f ks : NoDup ks -> forall s, let s' := fold_left (fun s k => upd_s k f s) ks s in
  ptrs s s' /\ wms s' = wms s /\ dns s' = dns s /\ sbad s' = sbad s /\ (forall k, sq s' k = if existsb (Nat.eqb k) ks then f (sq s k) else sq s k).
Proof.
  induction ks as [|a t IH]; intros ND s; cbn [fold_left existsb]; [repeat split|]. inversion ND as [|? ? NA NT]; subst.
  destruct (IH NT (upd_s a f s)) as (P & W & D & S & Q). cbv zeta. repeat split; try apply P; try assumption. intros k. rewrite Q. cbn [upd_s set_sq sq]. unfold fupd.
  destruct (Nat.eqb_spec k a) as [->|N]; cbn [orb]; [|reflexivity]. destruct (existsb (Nat.eqb a) t) eqn:E; [|reflexivity].
  exfalso. apply existsb_exists in E as (x & X & Y). apply Nat.eqb_eq in Y. subst. contradiction.
Qed.
Lemma NoDup_map_in {A B} (f : A -> B) l : (forall x y, In x l -> In y l -> f x = f y -> x = y) -> NoDup l -> NoDup (map f l).
Proof.
  induction l as [|a t IH]; intros H ND; cbn; constructor; inversion ND; subst.
  - intros X. apply in_map_iff in X as (y & E & Y). assert (y = a) by (apply H; [now right|now left|exact E]). congruence.
  - apply IH; [|assumption]. intros x y X Y. apply H; now right.
Qed.
Lemma slots_NoDup s n : n <= STQ_SIZE -> NoDup (stq_slots s n).
Proof.
  intros N. unfold stq_slots. apply NoDup_map_in; [|apply seq_NoDup]. intros x y X Y E. apply in_seq in X, Y.
  apply (slot_inj STQ_SIZE (sh s)); try lia; exact E.
Qed.
Definition clear_g (m : Z) (g : gst) : gst := GS (g_rob g) (g_robf g) (Z.ldiff (g_brm g) m).
Lemma flush_clear_spec b cur m l : SInv b (st l) -> sh (st cur) = sh (st l) -> sn (st cur) <= STQ_SIZE ->
  (forall k, sn (st cur) <= k -> k < sn (st l) -> Z.ldiff (s_brm (ent (st l) k)) m = s_brm (ent (st l) k)) ->
  let s' := st (flush_clear cur m l) in SInv b s' /\ order s' = map (clear_g m) (order (st l)) /\ scc s' = scc (st l) /\ sbad s' = sbad (st l) /\
    (forall k, s_st (sq s' k) = s_st (sq (st l) k)).
Proof.
  intros I HS N NEW. cbv zeta. unfold flush_clear. cbn [st]. set (f := fun e => set_s_brm (Z.ldiff (s_brm e) m) e).
  destruct (fold_upd f (stq_slots (st cur) (sn (st cur))) (slots_NoDup _ _ N) (st l)) as (P & W & D & S & Q). fold f.
  set (s' := fold_left _ _ _) in *. destruct P as (P1 & P2 & P3 & P4 & P5). destruct I as [A B C DD E F J]. destruct DD as (D1 & D2 & D3).
  assert (FE : forall k, s_st (sq s' k) = s_st (sq (st l) k) /\ s_flag (sq s' k) = s_flag (sq (st l) k) /\ (good (sq (st l) k) -> good (sq s' k)) /\ active (sq s' k) = active (sq (st l) k)
     /\ strb_of (sq s' k) = strb_of (sq (st l) k) /\ s_pa (sq s' k) = s_pa (sq (st l) k)).
  { intros k. rewrite Q. destruct (existsb _ _); repeat split; auto. }
  split; [|split; [|split; [exact P4|split; [exact S|intros k; apply FE]]]].
  - constructor; try congruence.
    + unfold Cinv. rewrite P4, P5. split; [exact D1|]. split; [exact D2|]. intros k K. unfold ent. rewrite P1. destruct (FE ((sh (st l) + k) mod STQ_SIZE)) as (X & _). rewrite X. now apply D3.
    + intros k K. unfold ent. rewrite P1. destruct (FE ((sh (st l) + k) mod STQ_SIZE)) as (_ & X & _). rewrite X. apply E. congruence.
    + intros k. apply FE. apply F.
    + intros x y XY YC. rewrite P4 in YC. unfold ent, ovl. rewrite P1. destruct (FE ((sh (st l) + x) mod STQ_SIZE)) as (X1 & _ & _ & X4 & X5 & X6). destruct (FE ((sh (st l) + y) mod STQ_SIZE)) as (Y1 & _ & _ & Y4 & Y5 & Y6).
      rewrite X1, X5, X6, Y4, Y5, Y6. exact (J x y XY YC).
  - unfold order. rewrite P1, P5. unfold ring. rewrite !map_map. apply map_ext_in. intros k K. apply in_seq in K. cbn in K.
    rewrite Q. destruct (existsb _ _) eqn:X; [reflexivity|]. unfold clear_g, key. cbn [g_rob g_robf g_brm]. f_equal. symmetry. apply (NEW k); [|lia].
    destruct (Nat.le_gt_cases (sn (st cur)) k) as [|L]; [assumption|]. exfalso. apply eq_true_false_abs with (2 := X). apply existsb_exists.
    exists ((sh (st l) + k) mod STQ_SIZE). split; [|apply Nat.eqb_refl]. unfold stq_slots. rewrite HS. apply in_map_iff. exists k. split; [reflexivity|]. apply in_seq. lia.
Qed.

(** *** Retiring *)
Lemma retire_spec n : forall b s, SInv b s -> n <= scc s -> exists r, r <= n /\ let s' := retire n s in
  SInv (b + r) s' /\ order s' = skipn r (order s) /\ scc s' = scc s - r /\ sq s' = sq s /\ sn s' = sn s - r /\ sbad s' = sbad s /\ wms s' = wms s /\ dns s' = dns s /\
  (forall k, k < r -> s_st (ent s k) = SDone) /\ (r < n -> s_st (ent s r) <> SDone).
Proof.
  induction n as [|n IH]; intros b s I N; cbn [retire].
  - exists 0. rewrite Nat.add_0_r, !Nat.sub_0_r. split; [lia|]. do 8 (split; [first [assumption|reflexivity]|]). split; intros; lia.
  - destruct (is_s s (sh s) SDone) eqn:DN.
    2:{ exists 0. rewrite Nat.add_0_r, !Nat.sub_0_r. split; [lia|]. do 8 (split; [first [assumption|reflexivity]|]). split; [intros; lia|]. intros _ X.
        unfold ent in X. rewrite Nat.add_0_r in X. assert (sh s < STQ_SIZE) by (rewrite (v_sh _ _ I); unfold STQ_SIZE; lia).
        rewrite Nat.mod_small in X by assumption. apply is_s_eq in X. congruence. }
    apply is_s_eq in DN. pose proof I as [A B C D E F J]. destruct D as (D1 & D2 & D3). assert (HS : sh s < 16) by (rewrite A; unfold STQ_SIZE; lia).
    assert (S1 : sn s = S (pred (sn s))) by lia.
    set (p := advance_ring_ptr_f (sh s) (shf s) STQ_SIZE). assert (PP : p = ((sh s + 1) mod 16, Nat.odd (S b / 16))).
    { unfold p, advance_ring_ptr_f, STQ_SIZE in *. destruct (Nat.leb_spec 16 (S (sh s))).
      - f_equal; [lia|]. rewrite B. replace (S b / 16) with (S (b / 16)) by lia. now rewrite odd_step.
      - f_equal; [lia|]. rewrite B. f_equal. lia. }
    rewrite PP. set (s1 := set_shf _ _).
    assert (EN : forall k, ent s1 k = ent s (S k)).
    { intros k. unfold ent, s1. cbn [sq sh set_shf set_sh set_scc set_sn]. f_equal. unfold STQ_SIZE. lia. }
    assert (I1 : SInv (S b) s1).
    { constructor.
      - cbn. rewrite A. unfold STQ_SIZE. clear. assert (H : (b mod 16 + 1) mod 16 = S b mod 16) by lia. exact H.
      - reflexivity.
      - change (scm s1) with (scm s). change (scc s1) with (pred (scc s)). rewrite C. f_equal. lia.
      - split; [cbn; lia|]. split; [cbn; lia|]. intros k K. change (sn s1) with (pred (sn s)) in K. change (scc s1) with (pred (scc s)). rewrite EN. rewrite D3 by lia.
        destruct (Nat.ltb_spec (S k) (scc s)), (Nat.ltb_spec k (pred (scc s))); try reflexivity; lia.
      - intros k K. change (sn s1) with (pred (sn s)) in K. rewrite EN, E by lia. do 2 f_equal. lia.
      - exact F.
      - intros x y XY YC. change (scc s1) with (pred (scc s)) in YC. rewrite !EN. apply J; lia. }
    destruct (IH (S b) s1 I1 ltac:(cbn; lia)) as (r & R & X1 & X2 & X3 & X4 & X5 & X6 & X7 & X8 & X9 & X10). exists (S r). split; [lia|]. cbv zeta.
    assert (O1 : order s = key (sq s (sh s)) :: order s1).
    { unfold order. rewrite S1 at 1. rewrite ring_cons by (unfold STQ_SIZE; lia). cbn [map]. rewrite Nat.mod_small by exact HS. reflexivity. }
    replace (b + S r) with (S b + r) by lia. split; [exact X1|]. split; [rewrite X2, O1; reflexivity|]. split; [rewrite X3; cbn; lia|]. split; [exact X4|]. split; [rewrite X5; cbn; lia|].
    split; [exact X6|]. split; [exact X7|]. split; [exact X8|]. split.
    + intros [|k] K; [unfold ent; rewrite Nat.add_0_r, Nat.mod_small by exact HS; exact DN|]. rewrite <- EN. apply X9. lia.
    + intros K. rewrite <- EN. apply X10. lia.
Qed.
