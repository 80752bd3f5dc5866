(** Store-address reports of the load/store unit: what the two index queues of
    the store side hold, and that every report is about a store in the queue
    that from then on waits for its commit. *)
From Verif Require Import Base BaseLemmas Ring MemModel MemSpec MemProofs LsuModel LsuStq LsuQ LsuRun LsuSpec LsuHist LsuCycle.
Local Open Scope nat_scope.
Ltac Zify.zify_post_hook ::= Z.div_mod_to_equations.

Definition live (s : stqs) (x : nat) : Prop := exists j, j < sn s /\ x = (sh s + j) mod STQ_SIZE.
Record vq (q : queue) : Prop := { vq_h : qh q < 16; vq_in : forall k, qv q k = true -> exists j, j < qn q /\ k = slot q j }.
Record wq (P : nat -> sstate -> Prop) (s : stqs) (q : queue) : Prop := {
  wq_v : vq q;
  wq_l : forall k, qv q k = true -> live s (qi q k) /\ P k (s_st (sq s (qi q k)));
  wq_i : forall k1 k2, qv q k1 = true -> qv q k2 = true -> qi q k1 = qi q k2 -> k1 = k2 }.
Definition Ptlb (_ : nat) (x : sstate) : Prop := x = SWaitTlb.
Definition Prdy (_ : nat) (x : sstate) : Prop := x = SReady \/ x = SPageFault.
Definition WQ (s : stqs) : Prop := wq Ptlb s (wms s) /\ wq Prdy s (dns s).

Lemma wq_frame (P P' : nat -> sstate -> Prop) s s' q : (forall k x, live s x -> P k (s_st (sq s x)) -> qv q k = true -> qi q k = x -> live s' x /\ P' k (s_st (sq s' x))) -> wq P s q -> wq P' s' q.
Proof. intros H [A B C]. constructor; [exact A| |exact C]. intros k K. destruct (B k K) as [L X]. eapply H; [exact L|exact X|exact K|reflexivity]. Qed.
Lemma wq_same P s s' q : sq s' = sq s -> sh s' = sh s -> sn s' = sn s -> wq P s q -> wq P s' q.
Proof. intros A B C. apply wq_frame. intros k x (j & J & E) H _ _. rewrite A. split; [|exact H]. exists j. now rewrite B, C. Qed.
Lemma vq_kill q k : vq q -> vq (kill q k).
Proof.
  intros [A B]. constructor; [exact A|]. intros j J. cbn [kill qv] in J. unfold fupd in J. destruct (Nat.eqb_spec j k); [discriminate|]. destruct (B j J) as (m & M & E). exists m. now split.
Qed.
Lemma wq_kill P s q k : wq P s q -> wq P s (kill q k).
Proof.
  intros [A B C]. constructor; [now apply vq_kill| |].
  - intros j J. cbn [kill qv qi] in *. unfold fupd in J. destruct (Nat.eqb_spec j k); [discriminate|]. now apply B.
  - intros a b. cbn [kill qv qi]. unfold fupd. intros HA HB. destruct (Nat.eqb_spec a k); [discriminate|]. destruct (Nat.eqb_spec b k); [discriminate|]. now apply C.
Qed.
Lemma wq_deq P s q : wq P s q -> qv q (qh q) = false -> wq P s (deq q).
Proof.
  intros [[A A2] B C] Z. assert (V : forall k, qv (deq q) k = true -> qv q k = true /\ k <> qh q).
  { intros k K. cbn [deq qv] in K. unfold fupd in K. destruct (Nat.eqb_spec k (qh q)); [discriminate|]. now split. }
  constructor.
  - constructor; [cbn [deq qh]; apply Nat.mod_upper_bound; lia|]. intros k K. destruct (V k K) as [V1 V2]. destruct (A2 k V1) as (j & J & E). unfold slot in E. destruct j as [|j].
    + exfalso. apply V2. rewrite E, Nat.add_0_r. apply Nat.mod_small. lia.
    + exists j. cbn [deq qn]. split; [lia|]. unfold slot. cbn [deq qh]. rewrite E. lia.
  - intros k K. destruct (V k K) as [V1 _]. exact (B k V1).
  - intros a b HA HB. destruct (V a HA), (V b HB). now apply C.
Qed.
Lemma wq_pop P s n : forall q, wq P s q -> wq P s (pop_invalid n q).
Proof. induction n as [|n IH]; intros q H; [exact H|]. cbn [pop_invalid]. destruct (qv q (qh q)) eqn:E; [exact H|]. apply IH. now apply wq_deq. Qed.
Lemma wq_enq P s q i : wq P s q -> live s i -> P (slot q (qn q)) (s_st (sq s i)) -> (forall k, qv q k = true -> qi q k <> i) -> wq P s (enq q i).
Proof.
  intros [[A A2] B C] L PI N. unfold enq. cbv zeta. remember (slot q (qn q)) as k0 eqn:K0. constructor.
  - constructor; [exact A|]. intros k K. cbn [qv] in K. unfold fupd in K. destruct (Nat.eqb_spec k k0) as [NE|NE].
    + exists (qn q). cbn [qn]. split; [lia|]. now rewrite NE, K0.
    + destruct (A2 k K) as (j & J & E). exists j. cbn [qn]. split; [lia|exact E].
  - intros k K. cbn [qv qi] in *. unfold fupd in *. destruct (Nat.eqb_spec k k0) as [NE|NE]; [rewrite NE; now split|now apply B].
  - intros a b. cbn [qv qi]. unfold fupd. destruct (Nat.eqb_spec a k0) as [NA|NA]; destruct (Nat.eqb_spec b k0) as [NB|NB]; intros HA HB E; [congruence| | |].
    + exfalso. symmetry in E. exact (N b HB E).
    + exfalso. exact (N a HA E).
    + now apply C.
Qed.
Lemma wq_wipe P s q : vq q -> wq P s (wipe q).
Proof. intros [A _]. constructor; [constructor; [exact A|]| |]; cbn; discriminate. Qed.
Lemma purge_v dead q : vq q -> vq (purge dead q) /\ qi (purge dead q) = qi q /\ (forall k, qv (purge dead q) k = true -> qv q k = true /\ dead (qi q k) = false).
Proof.
  intros V. unfold purge. set (ks := map (slot q) (seq 0 (qn q))).
  assert (G : forall ks q0, vq q0 -> let q' := fold_left (fun q k => if dead (qi q k) then kill q k else q) ks q0 in vq q' /\ qi q' = qi q0 /\ (forall k, qv q' k = true -> qv q0 k = true /\ (In k ks -> dead (qi q0 k) = false))).
  { clear. induction ks as [|a t IH]; intros q0 V; cbv zeta; [cbn; split; [exact V|split; [reflexivity|]]; intros k K; split; [exact K|intros []]|].
    cbn [fold_left]. destruct (dead (qi q0 a)) eqn:D.
    - destruct (IH (kill q0 a) (vq_kill _ _ V)) as (X1 & X2 & X3). split; [exact X1|]. split; [exact X2|]. intros k K. destruct (X3 k K) as [Y1 Y2]. cbn [kill qv qi] in Y1, Y2. unfold fupd in Y1.
      destruct (Nat.eqb_spec k a) as [->|N]; [discriminate|]. split; [exact Y1|]. intros [Z|Z]; [congruence|now apply Y2].
    - destruct (IH q0 V) as (X1 & X2 & X3). split; [exact X1|]. split; [exact X2|]. intros k K. destruct (X3 k K) as [Y1 Y2]. split; [exact Y1|]. intros [->|Z]; [exact D|now apply Y2]. }
  destruct (G ks q V) as (X1 & X2 & X3). split; [exact X1|]. split; [exact X2|]. intros k K. destruct (X3 k K) as [Y1 Y2]. split; [exact Y1|]. apply Y2.
  destruct (vq_in _ V k Y1) as (j & J & ->). unfold ks. apply in_map. apply in_seq. lia.
Qed.
Lemma wq_purge P s s' dead q : (forall x, live s x -> dead x = false -> live s' x) -> sq s' = sq s -> wq P s q -> wq P s' (purge dead q).
Proof.
  intros L E [A B C]. destruct (purge_v dead q A) as (X1 & X2 & X3). constructor; [exact X1| |].
  - intros k K. destruct (X3 k K) as [Y1 Y2]. rewrite X2, E. destruct (B k Y1) as [Z1 Z2]. split; [now apply L|exact Z2].
  - intros a b HA HB. rewrite X2. apply C; [apply (X3 a HA)|apply (X3 b HB)].
Qed.
Lemma live_ptrs s s' x : sh s' = sh s -> sn s' = sn s -> live s x -> live s' x.
Proof. intros A B (j & J & E). exists j. now rewrite A, B. Qed.
Lemma WQ_sbad s b : WQ s -> WQ (set_sbad b s).
Proof. intros [A B]. split; now apply (wq_same _ s). Qed.
Lemma WQ_frame s s' : wms s' = wms s -> dns s' = dns s -> (forall x, live s x -> com (s_st (sq s x)) = false -> s_st (sq s x) <> SWaitCommit -> live s' x /\ s_st (sq s' x) = s_st (sq s x)) -> WQ s -> WQ s'.
Proof.
  intros A B H [W D]. unfold WQ. rewrite A, B. split.
  - eapply wq_frame; [|exact W]. intros k x L P _ _. unfold Ptlb in *. destruct (H x L) as [X Y]; [now rewrite P|now rewrite P|]. split; [exact X|]. now rewrite Y.
  - eapply wq_frame; [|exact D]. intros k x L P _ _. unfold Prdy in *. destruct (H x L) as [X Y]; [destruct P as [-> | ->]; reflexivity|destruct P as [-> | ->]; discriminate|]. split; [exact X|]. now rewrite Y.
Qed.

(** An uncommitted entry keeps its state and its fault bit. *)
Definition keepN (s s' : stqs) : Prop := forall x, com (s_st (sq s x)) = false -> s_st (sq s' x) = s_st (sq s x) /\ s_pf (sq s' x) = s_pf (sq s x).
Definition keepW (s s' : stqs) : Prop := forall x, s_st (sq s x) = SWaitCommit -> s_st (sq s' x) = SWaitCommit /\ s_pf (sq s' x) = s_pf (sq s x).
Lemma keepN_W s s' : keepN s s' -> keepW s s'.
Proof. intros H x X. destruct (H x) as [A B]; [now rewrite X|]. split; congruence. Qed.
Lemma keepN_refl s : keepN s s. Proof. now intros x. Qed.
Lemma keepW_refl s : keepW s s. Proof. now intros x. Qed.
Lemma keepN_trans a b c : keepN a b -> keepN b c -> keepN a c.
Proof. intros H1 H2 x X. destruct (H1 x X) as [A B]. destruct (H2 x) as [C D]; [congruence|]. split; congruence. Qed.
Lemma keepW_trans a b c : keepW a b -> keepW b c -> keepW a c.
Proof. intros H1 H2 x X. destruct (H1 x X) as [A B]. destruct (H2 x A) as [C D]. split; congruence. Qed.
Lemma keepN_upd s i f : com (s_st (sq s i)) = true -> keepN s (upd_s i f s).
Proof. intros H x X. cbn [upd_s set_sq sq]. unfold fupd. destruct (Nat.eqb_spec x i) as [->|]; [congruence|now split]. Qed.
Lemma keepW_upd s i f : s_st (sq s i) <> SWaitCommit -> keepW s (upd_s i f s).
Proof. intros H x X. cbn [upd_s set_sq sq]. unfold fupd. destruct (Nat.eqb_spec x i) as [->|]; [congruence|now split]. Qed.
Lemma keepN_fold {B} (f : stqs -> B -> stqs) l : (forall s b, keepN s (f s b)) -> forall s, keepN s (fold_left f l s).
Proof. intros H. induction l as [|b l IH]; intros s; [apply keepN_refl|]. cbn. eapply keepN_trans; [apply H|apply IH]. Qed.
Lemma keepN_sq s s' : sq s' = sq s -> keepN s s'. Proof. intros E x _. now rewrite E. Qed.

(** *** Phases that leave uncommitted stores alone *)
Lemma mmio_in_keepN resp cur l : keepN (st l) (st (comb_mmio_in resp cur l)).
Proof.
  unfold comb_mmio_in. destruct resp; [|apply keepN_refl]. destruct (negb (u_v cur)); [apply keepN_refl|]. destruct (u_ld cur); [destruct (_ <? _); apply keepN_refl|].
  cbn [st]. destruct (is_s (st l) (u_idx cur) SWaitMmioResp) eqn:E; [|apply keepN_refl]. apply is_s_eq in E. apply keepN_upd. now rewrite E.
Qed.
Lemma mmio_in_q resp cur l : wms (st (comb_mmio_in resp cur l)) = wms (st l) /\ dns (st (comb_mmio_in resp cur l)) = dns (st l).
Proof.
  unfold comb_mmio_in. destruct resp; [|now split]. destruct (negb (u_v cur)); [now split|]. destruct (u_ld cur); [destruct (_ <? _); now split|].
  cbn [st]. destruct (is_s _ _ _); now split.
Qed.
Lemma store_resp_keepN s r : keepN s (store_resp s r).
Proof.
  unfold store_resp. destruct (_ <=? _); [now apply keepN_sq|]. destruct (is_s s (ds_idx r) SWaitDcacheResp) eqn:E; [|apply keepN_refl]. apply is_s_eq in E.
  destruct (ds_rep r); apply keepN_upd; now rewrite E.
Qed.
Lemma store_resp_q s r : wms (store_resp s r) = wms s /\ dns (store_resp s r) = dns s.
Proof. unfold store_resp. destruct (_ <=? _); [now split|]. destruct (is_s _ _ _); [|now split]. destruct (ds_rep r); now split. Qed.
Lemma wake_stores_keepN addr ks : forall n s, keepN s (wake_stores addr ks n s) /\ wms (wake_stores addr ks n s) = wms s /\ dns (wake_stores addr ks n s) = dns s.
Proof.
  induction ks as [|k t IH]; intros n s; cbn [wake_stores]; [split; [apply keepN_refl|now split]|].
  destruct (negb (sst_eqb (s_st (sq s k)) SCommitted) || (s_wait (sq s k) =? 0)) eqn:E; [apply IH|]. apply orb_false_iff in E as [E _]. apply negb_false_iff, sst_eqb_eq in E.
  assert (U : forall m, keepN s (wake_stores addr t m (upd_s k (set_s_wait 0) s)) /\ wms (wake_stores addr t m (upd_s k (set_s_wait 0) s)) = wms s /\ dns (wake_stores addr t m (upd_s k (set_s_wait 0) s)) = dns s).
  { intros m. destruct (IH m (upd_s k (set_s_wait 0) s)) as (A & B & C). split; [|now split]. eapply keepN_trans; [|exact A]. apply keepN_upd. now rewrite E. }
  destruct (s_rep (sq s k)); [apply IH|apply IH| |].
  - destruct (line_match _ _); [apply U|apply IH].
  - destruct (_ <? _); [apply U|apply IH].
Qed.
Lemma dcache_keepN rs fill s : keepN s (comb_dcache2lsu_stq rs fill s) /\ wms (comb_dcache2lsu_stq rs fill s) = wms s /\ dns (comb_dcache2lsu_stq rs fill s) = dns s.
Proof.
  unfold comb_dcache2lsu_stq. assert (F : keepN s (fold_left store_resp rs s) /\ wms (fold_left store_resp rs s) = wms s /\ dns (fold_left store_resp rs s) = dns s).
  { split; [apply keepN_fold, store_resp_keepN|]. apply (fold_left_inv (fun x => wms x = wms s /\ dns x = dns s)); [|now split]. intros a r _ [A B]. destruct (store_resp_q a r). split; congruence. }
  destruct F as (A & B & C). destruct fill; [|now split]. match goal with |- context [wake_stores ?a ?k ?n ?x] => destruct (wake_stores_keepN a k n x) as (D & E & F) end.
  split; [eapply keepN_trans; [exact A|exact D]|]. split; congruence.
Qed.
Lemma issue_stores_keepN cur is : forall n s u out s' u' out', issue_stores cur is n s u out = (s', u', out') -> keepN s s' /\ wms s' = wms s /\ dns s' = dns s.
Proof.
  induction is as [|i t IH]; intros n s u out s' u' out' E; cbn [issue_stores] in E; [injection E as <- _ _; split; [apply keepN_refl|now split]|].
  destruct (_ <=? _) in E; [injection E as <- _ _; split; [apply keepN_refl|now split]|]. set (k := (sh s + i) mod STQ_SIZE) in *.
  destruct (negb (is_s s k SCommitted) || is_s cur k SWaitDcacheResp) eqn:C; [now apply IH in E|]. apply orb_false_iff in C as [C _]. apply negb_false_iff, is_s_eq in C.
  set (s1 := upd_s k (set_s_wait _) s) in E. assert (K1 : keepN s s1) by (apply keepN_upd; now rewrite C). assert (S1 : s_st (sq s1 k) = SCommitted) by (unfold s1; cbn [upd_s set_sq sq]; rewrite fupd_eq; exact C).
  assert (J : forall s2, keepN s1 s2 -> wms s2 = wms s -> dns s2 = dns s -> forall n u out, issue_stores cur t n s2 u out = (s', u', out') -> keepN s s' /\ wms s' = wms s /\ dns s' = dns s).
  { intros s2 K2 W2 D2 n2 u2 out2 E2. apply IH in E2 as (A & B & D). split; [eapply keepN_trans; [exact K1|eapply keepN_trans; [exact K2|exact A]]|]. split; congruence. }
  destruct (0 <? _) in E; [exact (J s1 (keepN_refl _) eq_refl eq_refl _ _ _ E)|]. destruct (blocked s1 i); [exact (J s1 (keepN_refl _) eq_refl eq_refl _ _ _ E)|].
  assert (U : forall f, keepN s1 (upd_s k f s1)) by (intros f; apply keepN_upd; now rewrite S1).
  destruct (s_mmio (sq s1 k)).
  - destruct ((i =? 0) && negb (u_v u)); [exact (J _ (U _) eq_refl eq_refl _ _ _ E)|exact (J s1 (keepN_refl _) eq_refl eq_refl _ _ _ E)].
  - destruct (s_sup (sq s1 k)); exact (J _ (U _) eq_refl eq_refl _ _ _ E).
Qed.
Lemma commit_frame fl cs s : let s' := comb_stq_commit cs fl s in wms s' = wms s /\ dns s' = dns s /\ sh s' = sh s /\ sn s' = sn s /\ (forall x, s_st (sq s x) <> SWaitCommit -> sq s' x = sq s x).
Proof.
  cbv zeta. unfold comb_stq_commit. apply (fold_left_inv (fun a => wms a = wms s /\ dns a = dns s /\ sh a = sh s /\ sn a = sn s /\ (forall x, s_st (sq s x) <> SWaitCommit -> sq a x = sq s x))); [|repeat split].
  intros a k _ (A & B & C & D & E). unfold commit_one. destruct ((k =? scm a) && is_s a k SWaitCommit) eqn:X; [|repeat split; assumption].
  apply andb_true_iff in X as [_ X]. apply is_s_eq in X. repeat split; try assumption. intros x N. cbn [set_scc set_scm upd_s set_sq sq]. unfold fupd. destruct (Nat.eqb_spec x k) as [->|]; [|now apply E].
  specialize (E k N). congruence.
Qed.

(** *** Reports *)
Definition reports (s : stqs) (a : stqs) (o : wb) : Prop :=
  exists x, live s x /\ com (s_st (sq s x)) = false /\ s_rob (sq s x) = w_rob o /\ s_st (sq a x) = SWaitCommit /\ s_pf (sq a x) = w_pfs o.
Lemma sta_wb_step cur s x k : live s = live (x_s x) -> (forall y, s_rob (sq (x_s x) y) = s_rob (sq s y) /\ com (s_st (sq (x_s x) y)) = com (s_st (sq s y))) -> sn (x_s x) = sn s -> sh (x_s x) = sh s ->
  WQ (x_s x) -> (forall o, In o (x_out x) -> reports s (x_s x) o) ->
  let x' := sta_wb cur x k in live s = live (x_s x') /\ (forall y, s_rob (sq (x_s x') y) = s_rob (sq s y) /\ com (s_st (sq (x_s x') y)) = com (s_st (sq s y))) /\ sn (x_s x') = sn s /\ sh (x_s x') = sh s /\
  WQ (x_s x') /\ keepW (x_s x) (x_s x') /\ (forall o, In o (x_out x') -> reports s (x_s x') o).
Proof.
  intros LV RB SN SH W OUT. cbv zeta. unfold sta_wb. destruct (negb (qv (dns (x_s x)) k)) eqn:V; [repeat (split; [first [assumption|apply keepW_refl]|]); assumption|]. apply negb_false_iff in V.
  set (i := qi (dns (x_s x)) k). set (e := sq (x_s x) i).
  destruct (negb (sst_eqb (s_st e) SReady || sst_eqb (s_st e) SPageFault)) eqn:R; [repeat (split; [first [assumption|apply keepW_refl]|]); assumption|]. apply negb_false_iff, orb_true_iff in R. rewrite !sst_eqb_eq in R.
  assert (NW : s_st e <> SWaitCommit) by (destruct R as [-> | ->]; discriminate). assert (NC : com (s_st e) = false) by (destruct R as [-> | ->]; reflexivity).
  destruct W as [W D]. destruct (wq_l _ _ _ D k V) as [LI _]. fold i in LI.
  (* the common part: the entry goes to SWaitCommit and its slot is killed *)
  assert (G : forall e' o, s_st e' = SWaitCommit -> s_rob e' = s_rob e -> s_pf e' = s_pf e -> w_rob o = s_rob e -> w_pfs o = s_pf e ->
    let s' := set_dns (kill (dns (x_s x)) k) (upd_s i (fun _ => e') (x_s x)) in
    live s = live s' /\ (forall y, s_rob (sq s' y) = s_rob (sq s y) /\ com (s_st (sq s' y)) = com (s_st (sq s y))) /\ sn s' = sn s /\ sh s' = sh s /\ WQ s' /\ keepW (x_s x) s' /\ (forall o', In o' (x_out x ++ [o]) -> reports s s' o')).
  { intros e' o E1 E2 E3 O1 O2. cbv zeta. set (s' := set_dns _ _). assert (KW : keepW (x_s x) s') by (intros y Y; apply (keepW_upd (x_s x) i (fun _ => e') NW y Y)).
    assert (RB' : forall y, s_rob (sq s' y) = s_rob (sq s y) /\ com (s_st (sq s' y)) = com (s_st (sq s y))).
    { intros y. destruct (RB y) as [Y1 Y2]. unfold s'. cbn [set_dns upd_s set_sq sq]. unfold fupd. destruct (Nat.eqb_spec y i) as [->|]; [|now split]. fold e in Y1, Y2. split; [congruence|]. rewrite E1, <- Y2, NC. reflexivity. }
    split; [exact LV|]. split; [exact RB'|]. split; [exact SN|]. split; [exact SH|]. split; [|split; [exact KW|]].
    - split.
      + change (wms s') with (wms (x_s x)). eapply wq_frame; [|exact W]. intros k' x' L P _ _. split; [exact L|]. unfold Ptlb in *. unfold s'. cbn [set_dns upd_s set_sq sq]. unfold fupd. destruct (Nat.eqb_spec x' i) as [->|]; [|exact P].
        fold e in P. destruct R; congruence.
      + change (dns s') with (kill (dns (x_s x)) k). eapply wq_frame; [|apply wq_kill; exact D]. intros k' x' L P V' Q. split; [exact L|]. unfold s'. cbn [set_dns upd_s set_sq sq]. unfold fupd. destruct (Nat.eqb_spec x' i) as [->|]; [|exact P].
        exfalso. cbn [kill qv qi] in V', Q. unfold fupd in V'. destruct (Nat.eqb_spec k' k) as [->|NK]; [discriminate|]. apply NK. apply (wq_i _ _ _ D); [exact V'|exact V|exact Q].
    - intros o' O. apply in_app_iff in O as [O|[<-|[]]].
      + destruct (OUT o' O) as (y & Y1 & Y2 & Y3 & Y4 & Y5). exists y. repeat (split; [assumption|]). destruct (KW y Y4). split; congruence.
      + exists i. rewrite LV. split; [exact LI|]. destruct (RB i) as [Y1 Y2]. fold e in Y1, Y2. split; [congruence|]. split; [congruence|]. unfold s'. cbn [set_dns upd_s set_sq sq]. rewrite fupd_eq. split; [exact E1|congruence]. }
  cbv zeta. destruct (s_lrsc e).
  - destruct (_ <=? _); [repeat (split; [first [assumption|apply keepW_refl|now split]|]); assumption|]. cbn [x_s x_out]. destruct (s_pf e) eqn:PF; apply G; cbn; auto.
  - destruct (_ <=? _); [repeat (split; [first [assumption|apply keepW_refl|now split]|]); assumption|]. cbn [x_s x_out]. apply (G (set_s_st SWaitCommit e)); reflexivity.
Qed.
Lemma sta_wbs cur s x ks : live s = live (x_s x) -> (forall y, s_rob (sq (x_s x) y) = s_rob (sq s y) /\ com (s_st (sq (x_s x) y)) = com (s_st (sq s y))) -> sn (x_s x) = sn s -> sh (x_s x) = sh s ->
  WQ (x_s x) -> keepW s (x_s x) -> (forall o, In o (x_out x) -> reports s (x_s x) o) ->
  let x' := fold_left (sta_wb cur) ks x in WQ (x_s x') /\ keepW s (x_s x') /\ (forall o, In o (x_out x') -> reports s (x_s x') o).
Proof.
  revert x. induction ks as [|k t IH]; intros x A B C D E K F; [now split|]. cbn [fold_left]. destruct (sta_wb_step cur s x k A B C D E F) as (A1 & B1 & C1 & D1 & E1 & K1 & F1). apply IH; auto. eapply keepW_trans; eassumption.
Qed.
Definition from_load (d : ldqs) (o : wb) : Prop := w_sta o = false /\ exists i, l_st (lq d i) <> LEmpty /\ l_rob (lq d i) = w_rob o.
Lemma load_wbs d0 ks : forall y, (forall i, l_rob (lq (y_d y) i) = l_rob (lq d0 i)) -> (forall i, l_st (lq (y_d y) i) <> LEmpty -> l_st (lq d0 i) <> LEmpty) -> (forall o, In o (y_out y) -> from_load d0 o) ->
  forall o, In o (y_out (fold_left load_wb ks y)) -> from_load d0 o.
Proof.
  induction ks as [|k t IH]; intros y RB NE OUT; [exact OUT|]. cbn [fold_left].
  assert (S : (forall i, l_rob (lq (y_d (load_wb y k)) i) = l_rob (lq d0 i)) /\ (forall i, l_st (lq (y_d (load_wb y k)) i) <> LEmpty -> l_st (lq d0 i) <> LEmpty) /\ (forall o, In o (y_out (load_wb y k)) -> from_load d0 o)).
  { unfold load_wb. destruct (_ <=? _); [auto|]. destruct (negb (qv _ _)); [auto|]. set (i := qi (fin (y_d y)) k). destruct (negb (_ || _)) eqn:R; [auto|]. apply negb_false_iff, orb_true_iff in R. rewrite !lst_eqb_eq in R. cbn [y_d y_out].
    split; [|split].
    - intros j. cbn [set_fin upd_l set_lq lq]. unfold fupd. destruct (Nat.eqb_spec j i) as [->|]; [|apply RB]. exact (RB i).
    - intros j. cbn [set_fin upd_l set_lq lq]. unfold fupd. destruct (Nat.eqb_spec j i) as [->|]; [|apply NE]. cbn. congruence.
    - intros o O. apply in_app_iff in O as [O|[<-|[]]]; [now apply OUT|]. split; [reflexivity|]. exists i. cbn [w_rob]. split; [|symmetry; apply RB]. apply NE. destruct R as [-> | ->]; discriminate. }
  destruct S as (S1 & S2 & S3). now apply IH.
Qed.
Lemma lsu2exe_reports cur l : WQ (st l) -> let '(l', ws) := comb_lsu2exe cur l in WQ (st l') /\ keepW (st l) (st l') /\ (forall o, In o ws -> reports (st l) (st l') o \/ from_load (ld l) o).
Proof.
  intros W. unfold comb_lsu2exe. cbv zeta. set (x := fold_left _ _ _). set (y := fold_left load_wb _ _).
  destruct (sta_wbs cur (st l) (LX (st l) (lr l) 0 0 []) (window (dns (st l)))) as (A & K & B); try reflexivity; auto; [apply keepW_refl|intros o []|]. fold x in A, K, B.
  split; [|split].
  - cbn [st]. destruct A as [A1 A2]. split; [apply (wq_same _ (x_s x)); auto|]. change (dns (set_dns ?q ?s)) with q. apply wq_pop. apply (wq_same _ (x_s x)); auto.
  - exact K.
  - intros o O. apply in_app_iff in O as [O|O]; [left; exact (B o O)|right]. apply (load_wbs (ld l) (window (fin (ld l))) (LY (ld l) (x_lr x) (x_ld x) [])) in O; auto; intros o' [].
Qed.

(** *** Data and address from execution *)
Lemma store_data_W s r : (sd_idx r < STQ_SIZE -> live s (sd_idx r)) -> WQ s -> WQ (handle_store_data s r) /\ keepW s (handle_store_data s r).
Proof.
  intros L [W D]. unfold handle_store_data. destruct (Nat.leb_spec STQ_SIZE (sd_idx r)) as [|LT]; [split; [now split|apply keepW_refl]|]. specialize (L LT). set (i := sd_idx r) in *. set (e := sq s i).
  destruct (_ || _); [split; [apply WQ_sbad; now split|now intros x]|]. destruct (s_pav e && sst_eqb (s_st e) SWaitData) eqn:R; cbv zeta.
  - apply andb_true_iff in R as [_ R]. apply sst_eqb_eq in R. split; [split|].
    + change (wms (set_dns ?q ?a)) with (wms a). eapply wq_frame; [|exact W]. intros k x LX P _ _. split; [exact LX|]. unfold Ptlb in *. cbn [set_dns upd_s set_sq sq]. unfold fupd. destruct (Nat.eqb_spec x i) as [->|]; [|exact P]. fold e in P. congruence.
    + change (dns (set_dns ?q ?a)) with q. apply wq_enq.
      * eapply wq_frame; [|exact D]. intros k x LX P _ _. split; [exact LX|]. unfold Prdy in *. cbn [set_dns upd_s set_sq sq]. unfold fupd. destruct (Nat.eqb_spec x i) as [->|]; [|exact P]. left. reflexivity.
      * exact L.
      * unfold Prdy. cbn [set_dns upd_s set_sq sq]. rewrite fupd_eq. left. reflexivity.
      * intros k K X. cbn [upd_s set_sq dns] in K, X. destruct (wq_l _ _ _ D k K) as [_ P]. unfold Prdy in P. rewrite X in P. fold e in P. destruct P; congruence.
    + apply (keepW_upd s i). fold e. congruence.
  - split.
    + apply (WQ_frame s); [reflexivity|reflexivity| |now split]. intros x LX _ _. split; [exact LX|]. cbn [upd_s set_sq sq]. unfold fupd. destruct (Nat.eqb_spec x i) as [->|]; reflexivity.
    + intros x X. cbn [upd_s set_sq sq]. unfold fupd. destruct (Nat.eqb_spec x i) as [->|]; [|now split]. split; [exact X|reflexivity].
Qed.
Lemma store_data_ptrs s r : sh (handle_store_data s r) = sh s /\ sn (handle_store_data s r) = sn s.
Proof. unfold handle_store_data. destruct (_ <=? _); [now split|]. destruct (_ || _); [now split|]. cbv zeta. destruct (_ && _); now split. Qed.
Lemma store_datas_W rs : forall s, (forall r, In r rs -> sd_idx r < STQ_SIZE -> live s (sd_idx r)) -> WQ s -> WQ (fold_left handle_store_data rs s) /\ keepW s (fold_left handle_store_data rs s).
Proof.
  induction rs as [|r t IH]; intros s L W; [split; [exact W|apply keepW_refl]|]. cbn [fold_left]. destruct (store_data_W s r (L r (or_introl eq_refl)) W) as [W1 K1]. destruct (store_data_ptrs s r) as [P1 P2].
  destruct (IH (handle_store_data s r)) as [W2 K2]; [|exact W1|].
  - intros r' R LT. apply (live_ptrs s); auto. apply L; [now right|exact LT].
  - split; [exact W2|]. eapply keepW_trans; eassumption.
Qed.
Lemma store_addr_W s r : (sa_idx r < STQ_SIZE -> live s (sa_idx r) /\ s_st (sq s (sa_idx r)) = SAllocated) -> WQ s -> WQ (handle_store_addr s r) /\ keepW s (handle_store_addr s r).
Proof.
  intros L [W D]. unfold handle_store_addr. destruct (Nat.leb_spec STQ_SIZE (sa_idx r)) as [|LT]; [split; [now split|apply keepW_refl]|]. destruct (L LT) as [LV SA]. set (i := sa_idx r) in *. set (e := sq s i).
  destruct (_ || _); [split; [apply WQ_sbad; now split|now intros x]|]. cbv zeta. split; [split|].
  - change (wms (set_wms ?q ?a)) with q. apply wq_enq.
    + eapply wq_frame; [|exact W]. intros k x LX P _ _. split; [exact LX|]. unfold Ptlb in *. cbn [set_wms upd_s set_sq sq]. unfold fupd. destruct (Nat.eqb_spec x i) as [->|]; [reflexivity|exact P].
    + exact LV.
    + unfold Ptlb. cbn [set_wms upd_s set_sq sq]. rewrite fupd_eq. reflexivity.
    + intros k K X. cbn [upd_s set_sq wms] in K, X. destruct (wq_l _ _ _ W k K) as [_ P]. unfold Ptlb in P. rewrite X in P. congruence.
  - change (dns (set_wms ?q ?a)) with (dns a). eapply wq_frame; [|exact D]. intros k x LX P _ _. split; [exact LX|]. unfold Prdy in *. cbn [set_wms upd_s set_sq sq]. unfold fupd. destruct (Nat.eqb_spec x i) as [->|]; [|exact P].
    destruct P; congruence.
  - apply (keepW_upd s i). congruence.
Qed.
Lemma store_addrs_W rs : forall s, NoDup (map sa_idx rs) -> (forall r, In r rs -> sa_idx r < STQ_SIZE -> live s (sa_idx r) /\ s_st (sq s (sa_idx r)) = SAllocated) -> WQ s ->
  WQ (fold_left handle_store_addr rs s) /\ keepW s (fold_left handle_store_addr rs s).
Proof.
  induction rs as [|r t IH]; intros s ND L W; [split; [exact W|apply keepW_refl]|]. cbn [fold_left map] in *. inversion ND as [|? ? N1 N2]; subst. destruct (store_addr_W s r (L r (or_introl eq_refl)) W) as [W1 K1].
  destruct (IH (handle_store_addr s r) N2) as [W2 K2]; [|exact W1|split; [exact W2|eapply keepW_trans; eassumption]].
  intros r' R LT. destruct (L r' (or_intror R) LT) as [A B]. assert (NE : sa_idx r' <> sa_idx r) by (intros X; apply N1; rewrite <- X; now apply in_map).
  unfold handle_store_addr. destruct (_ <=? _); [now split|]. destruct (_ || _); [now split|]. cbv zeta. cbn [set_wms upd_s set_sq sq]. rewrite fupd_ne by exact NE. split; [exact A|exact B].
Qed.

(** *** The answers of the address translation *)
Definition Pin (ks : list nat) (k : nat) (x : sstate) : Prop := x = SWaitTlb \/ In k ks /\ (x = SWaitTlbRetry \/ x = SWaitDone \/ x = SWaitData).
Lemma tlb_resp_W ks p r : In (mr_wait r) ks -> wq (Pin ks) (fst p) (wms (fst p)) -> wq Prdy (fst p) (dns (fst p)) ->
  wq (Pin ks) (fst (tlb_resp_s p r)) (wms (fst (tlb_resp_s p r))) /\ wq Prdy (fst (tlb_resp_s p r)) (dns (fst (tlb_resp_s p r))) /\ keepW (fst p) (fst (tlb_resp_s p r)).
Proof.
  destruct p as [s rl]. cbn [fst]. intros K W D. unfold tlb_resp_s. destruct (_ || _); [split; [exact W|split; [exact D|apply keepW_refl]]|].
  destruct (negb (qv (wms s) (mr_wait r)) || negb (qi (wms s) (mr_wait r) =? mr_ent r)) eqn:V; [split; [exact W|split; [exact D|apply keepW_refl]]|].
  apply orb_false_iff in V as [V1 V2]. apply negb_false_iff in V1, V2. apply Nat.eqb_eq in V2. set (i := mr_ent r) in *.
  destruct (negb (is_s s i SWaitTlb)) eqn:S0; [split; [exact W|split; [exact D|apply keepW_refl]]|]. apply negb_false_iff, is_s_eq in S0.
  assert (G : forall f, (s_st (f (sq s i)) = SWaitTlbRetry \/ s_st (f (sq s i)) = SWaitDone \/ s_st (f (sq s i)) = SWaitData) ->
    wq (Pin ks) (upd_s i f s) (wms s) /\ wq Prdy (upd_s i f s) (dns s) /\ keepW s (upd_s i f s)).
  { intros f F. split; [|split].
    - eapply wq_frame; [|exact W]. intros k x LX P VK QK. split; [exact LX|]. cbn [upd_s set_sq sq]. unfold fupd. destruct (Nat.eqb_spec x i) as [->|]; [|exact P]. right. split; [|exact F].
      assert (k = mr_wait r) by (apply (wq_i _ _ _ W); [exact VK|exact V1|congruence]). now subst.
    - eapply wq_frame; [|exact D]. intros k x LX P _ _. split; [exact LX|]. cbn [upd_s set_sq sq]. unfold fupd. destruct (Nat.eqb_spec x i) as [->|]; [|exact P]. unfold Prdy in P. rewrite S0 in P. destruct P; discriminate.
    - apply keepW_upd. congruence. }
  destruct (mr_res r); cbn [fst].
  - apply (G (set_s_st SWaitTlbRetry)). left. reflexivity.
  - match goal with |- context [upd_s i ?f s] => apply (G f) end. cbn. destruct (s_dv (sq s i)); auto.
  - match goal with |- context [upd_s i ?f s] => apply (G f) end. cbn. auto.
Qed.
Lemma tlb_resps_W ks rs : (forall r, In r rs -> In (mr_wait r) ks) -> forall p, wq (Pin ks) (fst p) (wms (fst p)) -> wq Prdy (fst p) (dns (fst p)) ->
  let p' := fold_left tlb_resp_s rs p in wq (Pin ks) (fst p') (wms (fst p')) /\ wq Prdy (fst p') (dns (fst p')) /\ keepW (fst p) (fst p').
Proof.
  intros H. induction rs as [|r t IH]; intros p W D; [split; [exact W|split; [exact D|apply keepW_refl]]|]. cbn [fold_left]. destruct (tlb_resp_W ks p r (H r (or_introl eq_refl)) W D) as (W1 & D1 & K1).
  destruct (IH (fun r R => H r (or_intror R)) _ W1 D1) as (W2 & D2 & K2). split; [exact W2|]. split; [exact D2|]. eapply keepW_trans; eassumption.
Qed.
Lemma resp_wms p r : wms (fst (tlb_resp_s p r)) = wms (fst p) /\ sh (fst (tlb_resp_s p r)) = sh (fst p) /\ sn (fst (tlb_resp_s p r)) = sn (fst p).
Proof. destruct p as [s rl]. unfold tlb_resp_s. destruct (_ || _); [now repeat split|]. destruct (_ || _); [now repeat split|]. destruct (negb _); [now repeat split|]. destruct (mr_res r); now repeat split. Qed.
Lemma resps_wms rs : forall p, wms (fst (fold_left tlb_resp_s rs p)) = wms (fst p).
Proof. induction rs as [|r t IH]; intros p; [reflexivity|]. cbn [fold_left]. rewrite IH. apply resp_wms. Qed.
Lemma tlb_move_W ks k s : wq (Pin (k :: ks)) s (wms s) -> wq Prdy s (dns s) -> wq (Pin ks) (tlb_move_s s k) (wms (tlb_move_s s k)) /\ wq Prdy (tlb_move_s s k) (dns (tlb_move_s s k)) /\ keepW s (tlb_move_s s k).
Proof.
  intros W D. unfold tlb_move_s. destruct (negb (qv (wms s) k)) eqn:V.
  { split; [|split; [exact D|apply keepW_refl]]. apply negb_true_iff in V. eapply wq_frame; [|exact W]. intros k' x L P VK _. split; [exact L|]. destruct P as [P|[[P|P] Q]]; [now left| |right; now split]. subst. congruence. }
  apply negb_false_iff in V. set (i := qi (wms s) k). destruct (wq_l _ _ _ W k V) as [LI PI]. fold i in LI, PI.
  assert (OTH : forall k', qv (wms s) k' = true -> k' <> k -> qi (wms s) k' <> i) by (intros k' VK N E; apply N; apply (wq_i _ _ _ W); auto).
  assert (OUT : forall k' x, Pin (k :: ks) k' x -> k' <> k -> Pin ks k' x) by (intros k' x [P|[[P|P] Q]] N; [now left|congruence|right; now split]).
  destruct (s_st (sq s i)) eqn:S0; try (exfalso; destruct PI as [PI|[_ [PI|[PI|PI]]]]; congruence).
  - (* still waiting *) split; [|split; [exact D|apply keepW_refl]]. eapply wq_frame; [|exact W]. intros k' x L P VK Q. split; [exact L|]. destruct (Nat.eq_dec k' k) as [->|N]; [|now apply OUT]. left. rewrite <- Q. exact S0.
  - (* retry *) cbn [upd_s set_sq wms dns]. split; [|split].
    + eapply wq_frame; [|exact W]. intros k' x L P VK Q. split; [exact L|]. cbn [upd_s set_sq sq]. unfold fupd. destruct (Nat.eqb_spec x i) as [->|NX]; [left; reflexivity|]. apply OUT; [exact P|]. intros ->. apply NX. now rewrite <- Q.
    + eapply wq_frame; [|exact D]. intros k' x L P _ _. split; [exact L|]. cbn [upd_s set_sq sq]. unfold fupd. destruct (Nat.eqb_spec x i) as [->|]; [|exact P]. unfold Prdy in P. rewrite S0 in P. destruct P; discriminate.
    + apply keepW_upd. congruence.
  - (* data outstanding *) split; [|split; [now apply (wq_same _ s)|now intros x]]. change (wms (set_wms ?q ?a)) with q. eapply wq_frame; [|apply (wq_kill _ _ _ k W)]. intros k' x L P VK Q. split; [exact L|]. apply OUT; [exact P|]. intros ->. cbn [kill qv] in VK. rewrite fupd_eq in VK. discriminate.
  - (* translated, data here *) set (f := fun e => set_s_st (if s_pf e then SPageFault else SReady) e). split; [|split].
    + change (wms (set_wms ?q ?a)) with q. eapply wq_frame; [|apply (wq_kill _ _ _ k W)]. intros k' x L P VK Q. cbn [kill qv qi] in VK, Q. unfold fupd in VK. destruct (Nat.eqb_spec k' k) as [->|NK]; [discriminate|]. split; [exact L|].
      cbn [set_wms set_dns upd_s set_sq sq]. rewrite fupd_ne; [apply OUT; assumption|]. rewrite <- Q. now apply OTH.
    + change (dns (set_wms ?q (set_dns ?q' ?a))) with q'. apply wq_enq.
      * eapply wq_frame; [|exact D]. intros k' x L P _ _. split; [exact L|]. cbn [set_wms set_dns upd_s set_sq sq]. unfold fupd. destruct (Nat.eqb_spec x i) as [->|]; [|exact P]. unfold Prdy in P. rewrite S0 in P. destruct P; discriminate.
      * exact LI.
      * cbn [set_wms set_dns upd_s set_sq sq]. rewrite fupd_eq. unfold Prdy, f. cbn. destruct (s_pf (sq s i)); auto.
      * intros k' K X. cbn [upd_s set_sq dns] in K, X. destruct (wq_l _ _ _ D k' K) as [_ P]. unfold Prdy in P. rewrite X, S0 in P. destruct P; discriminate.
    + apply (keepW_upd s i f). congruence.
Qed.
Lemma tlb_moves_W ks : forall s, wq (Pin ks) s (wms s) -> wq Prdy s (dns s) -> let s' := fold_left tlb_move_s ks s in WQ s' /\ keepW s s'.
Proof.
  induction ks as [|k t IH]; intros s W D; cbv zeta.
  - split; [|apply keepW_refl]. split; [|exact D]. eapply wq_frame; [|exact W]. intros k x L [P|[[] _]] _ _. now split.
  - cbn [fold_left]. destruct (tlb_move_W t k s W D) as (W1 & D1 & K1). destruct (IH _ W1 D1) as [W2 K2]. split; [exact W2|]. eapply keepW_trans; eassumption.
Qed.
Lemma tlb_in_W rs s rl : (forall r, In r rs -> In (mr_wait r) (window (wms s))) -> WQ s -> WQ (fst (comb_tlb_in_stq rs s rl)) /\ keepW s (fst (comb_tlb_in_stq rs s rl)).
Proof.
  intros H [W D]. unfold comb_tlb_in_stq. destruct (fold_left tlb_resp_s rs (s, rl)) as [s1 rl1] eqn:E.
  assert (W0 : wq (Pin (window (wms s))) s (wms s)) by (eapply wq_frame; [|exact W]; intros k x L P _ _; split; [exact L|now left]).
  destruct (tlb_resps_W (window (wms s)) rs H (s, rl) W0 D) as (W1 & D1 & K1). rewrite E in W1, D1, K1. cbn [fst] in W1, D1, K1.
  assert (WE : wms s1 = wms s) by (pose proof (resps_wms rs (s, rl)) as X; rewrite E in X; exact X).
  rewrite WE. rewrite WE in W1. destruct (tlb_moves_W (window (wms s)) s1 ltac:(rewrite WE; exact W1) D1) as [W2 K2]. cbn [fst]. set (s2 := fold_left tlb_move_s _ s1) in *.
  split; [|intros x X; destruct (keepW_trans _ _ _ K1 K2 x X) as [Y1 Y2]; now split]. destruct W2 as [W2 D2]. split; [change (wms (set_wms ?q ?a)) with q; apply wq_pop; now apply (wq_same _ s2)|now apply (wq_same _ s2)].
Qed.

(** *** Allocation, squash, retirement *)
Lemma alive_live s keep x : live s x -> sh s < 16 -> stq_idx_alive_after_flush x (sh s) keep = true -> exists j, j < keep /\ x = (sh s + j) mod STQ_SIZE.
Proof.
  intros (j & J & ->) S A. unfold stq_idx_alive_after_flush in A. apply Nat.ltb_lt in A. unfold STQ_SIZE in *.
  exists (((sh s + j) mod 16 + 16 - sh s) mod 16). split; [exact A|]. lia.
Qed.
Lemma flush_W i cur l : sh (st l) < 16 -> NoDup (stq_slots (st cur) (sn (st cur))) -> WQ (st l) ->
  WQ (st (comb_flush i cur l)) /\ (forall x, s_st (sq (st (comb_flush i cur l)) x) = s_st (sq (st l) x) /\ s_pf (sq (st (comb_flush i cur l)) x) = s_pf (sq (st l) x)).
Proof.
  intros S ND W. unfold comb_flush.
  assert (F1 : exists l1, l1 = (if i_flush i then flush_global l else l) /\ WQ (st l1) /\ sq (st l1) = sq (st l) /\ sh (st l1) = sh (st l)).
  { eexists. split; [reflexivity|]. destruct (i_flush i); [|split; [exact W|now split]]. split; [|now split]. destruct W as [[A _ _] [B _ _]]. split; [exact (wq_wipe _ _ _ A)|exact (wq_wipe _ _ _ B)]. }
  destruct F1 as (l1 & E1 & W1 & Q1 & S1). rewrite <- E1. clear E1.
  assert (F2 : exists l2, l2 = (if i_mispred i then flush_mispred (i_brm i) l1 else l1) /\ WQ (st l2) /\ sq (st l2) = sq (st l)).
  { eexists. split; [reflexivity|]. destruct (i_mispred i); [|now split]. split; [|exact Q1]. destruct W1 as [A B]. set (keep := first_hit (i_brm i) (map (sq (st l1)) (stq_slots (st l1) (sn (st l1))))).
    assert (L : forall x, live (st l1) x -> negb (stq_idx_alive_after_flush x (sh (st l1)) keep) = false -> live (st (flush_mispred (i_brm i) l1)) x).
    { intros x X N. apply negb_false_iff in N. destruct (alive_live (st l1) keep x X) as (j & J & E); [congruence|exact N|]. exists j. split; [exact J|exact E]. }
    split; [exact (wq_purge Ptlb (st l1) _ _ (wms (st l1)) L eq_refl A)|exact (wq_purge Prdy (st l1) _ _ (dns (st l1)) L eq_refl B)]. }
  destruct F2 as (l2 & E2 & W2 & Q2). rewrite <- E2. clear E2. rewrite <- Q2. destruct (nz (i_clear i)); [|split; [exact W2|now intros x]].
  unfold flush_clear. cbn [st]. set (f := fun e => set_s_brm (Z.ldiff (s_brm e) (i_clear i)) e).
  assert (G : forall ks s, let s' := fold_left (fun s k => upd_s k f s) ks s in sh s' = sh s /\ sn s' = sn s /\ wms s' = wms s /\ dns s' = dns s /\ (forall x, s_st (sq s' x) = s_st (sq s x) /\ s_pf (sq s' x) = s_pf (sq s x))).
  { clear. induction ks as [|k t IH]; intros s; cbv zeta; [now repeat split|]. cbn [fold_left]. destruct (IH (upd_s k f s)) as (A & B & C & D & E). repeat (split; [assumption|]). intros x. destruct (E x) as [E1 E2]. rewrite E1, E2.
    cbn [upd_s set_sq sq]. unfold fupd. destruct (Nat.eqb_spec x k) as [->|]; now split. }
  destruct (G (stq_slots (st cur) (sn (st cur))) (st l2)) as (A & B & C & D & E). fold f. split; [|exact E].
  apply (WQ_frame (st l2)); auto. intros x L _ _. split; [now apply (live_ptrs (st l2))|apply E].
Qed.
Lemma tlb_reqs_window s q : In q (tlb_reqs_s s) -> In (snd q) (window (wms s)).
Proof.
  unfold tlb_reqs_s. intros H. assert (FI : forall A n (l : list A) x, In x (firstn n l) -> In x l) by (intros A n l x X; rewrite <- (firstn_skipn n l); apply in_app_iff; now left). apply FI in H. apply in_map_iff in H as (k & <- & K). apply filter_In in K as [K _]. exact K.
Qed.

(** *** Loads keep their index while the answers of the cache come in *)
Definition keepL (d d' : ldqs) : Prop := forall i, l_rob (lq d' i) = l_rob (lq d i) /\ (l_st (lq d' i) <> LEmpty -> l_st (lq d i) <> LEmpty).
Lemma keepL_refl d : keepL d d. Proof. now intros i. Qed.
Lemma keepL_trans a b c : keepL a b -> keepL b c -> keepL a c.
Proof. intros H1 H2 i. destruct (H1 i) as [A B], (H2 i) as [C D]. split; [congruence|auto]. Qed.
Lemma keepL_eq d d' : lq d' = lq d -> keepL d d'. Proof. intros E i. now rewrite E. Qed.
Lemma keepL_upd d i f : (forall e, l_rob (f e) = l_rob e) -> l_st (lq d i) <> LEmpty -> keepL d (upd_l i f d).
Proof. intros F N j. cbn [upd_l set_lq lq]. unfold fupd. destruct (Nat.eqb_spec j i) as [->|]; [|now split]. split; [apply F|auto]. Qed.
Lemma is_l_eq d i x : is_l d i x = true -> l_st (lq d i) = x. Proof. unfold is_l. apply lst_eqb_eq. Qed.
Lemma load_resp_keepL d r : keepL d (load_resp d r).
Proof.
  unfold load_resp. destruct (Z.testbit _ _); [now apply keepL_eq|]. destruct (negb _); [apply keepL_refl|]. destruct (negb _); [now apply keepL_eq|]. set (i := qi _ _).
  destruct (is_l d i LWaitDcacheResp) eqn:E; [|apply keepL_refl]. apply is_l_eq in E. assert (N : l_st (lq d i) <> LEmpty) by congruence.
  destruct (dl_rep r); [apply keepL_upd; [reflexivity|exact N]| | |]; intros j; match goal with |- context [set_wwait _ (upd_l i ?f d)] => apply (keepL_upd d i f (fun _ => eq_refl) N j) end.
Qed.
Lemma wake_loads_lq addr ks : forall n d, lq (wake_loads addr ks n d) = lq d.
Proof.
  induction ks as [|k t IH]; intros n d; [reflexivity|]. cbn [wake_loads]. destruct (_ || _); [apply IH|]. destruct (negb _); [apply IH|]. destruct (l_rep _); try apply IH.
  - destruct (line_match _ _); rewrite IH; reflexivity.
  - destruct (_ <? _); rewrite IH; reflexivity.
Qed.
Lemma dcache_ldq_keepL rs fill d : keepL d (comb_dcache2lsu_ldq rs fill d).
Proof.
  unfold comb_dcache2lsu_ldq. set (d1 := fold_left load_resp rs d). assert (K : keepL d d1).
  { unfold d1. apply (fold_left_inv (keepL d)); [|apply keepL_refl]. intros a r _ H. eapply keepL_trans; [exact H|apply load_resp_keepL]. }
  set (d2 := match fill with Some a => _ | None => _ end). assert (E2 : lq d2 = lq d1) by (unfold d2; destruct fill; [apply wake_loads_lq|reflexivity]).
  set (d3 := fold_left finish_hit _ d2). assert (E3 : lq d3 = lq d2).
  { unfold d3. apply (fold_left_inv (fun x => lq x = lq d2)); [|reflexivity]. intros a k _ H. unfold finish_hit. destruct (_ && _ && _); exact H. }
  intros i. cbn [set_wdl lq]. rewrite E3, E2. apply K.
Qed.
Lemma mmio_in_keepL resp cur l : keepL (ld l) (ld (comb_mmio_in resp cur l)).
Proof.
  unfold comb_mmio_in. destruct resp; [|apply keepL_refl]. destruct (negb (u_v cur)); [apply keepL_refl|]. destruct (u_ld cur); [|apply keepL_refl].
  destruct (_ <? _); [|apply keepL_refl]. cbn [ld]. destruct (is_l (ld l) (u_idx cur) LWaitMmioResp) eqn:E; [|apply keepL_refl]. apply is_l_eq in E. cbv zeta. intros j. cbn [set_fin lq].
  match goal with |- context [lq (upd_l ?i ?f ?d)] => apply (keepL_upd d i f (fun _ => eq_refl)) end. congruence.
Qed.

(** *** The cycle *)
Theorem report_cycle g cur i n : GI g (st cur) -> senv (g_b g) (st cur) i n -> WQ (st cur) -> let '(l', o) := lsu_cycle cur i in
  (forall r, In r (i_ms i) -> exists q, In q (o_ts o) /\ mr_wait r = snd q) ->
  let t := taken (st cur) n in WQ (st l') /\
  (forall k, scc (st cur) + t <= k < sn (st cur) -> s_st (ent (st cur) k) = SWaitCommit -> let e := sq (st l') ((sh (st cur) + k) mod STQ_SIZE) in s_st e = SWaitCommit /\ s_pf e = s_pf (ent (st cur) k)) /\
  (forall w, In w (o_wb o) -> (exists k, scc (st cur) + t <= k < sn (st cur) /\ s_rob (ent (st cur) k) = w_rob w /\ let e := sq (st l') ((sh (st cur) + k) mod STQ_SIZE) in s_st e = SWaitCommit /\ s_pf e = w_pfs w) \/ from_load (ld cur) w).
Proof.
  intros [V OR (acc & H & LG)] [N1 CM PF STD STA ND SA FL MO OLD CLR] W. set (b := g_b g) in *. destruct (lsu_cycle cur i) as [l' o] eqn:LC. unfold lsu_cycle in LC. cbv zeta in LC. rewrite CM in LC.
  pose proof (v_C _ _ V) as (C1 & C2 & C3). unfold STQ_SIZE in C2.
  destruct (commits_spec b (i_flush i) acc (g_pend g) n (st cur) (g_hist g) V H N1 PF) as (V1 & H1 & O1 & SN1 & S1 & SH1 & E1 & _ & _).
  pose proof (commit_keepA (i_flush i) (cslots (st cur) n) (st cur)) as K1. destruct (commit_frame (i_flush i) (cslots (st cur) n) (st cur)) as (CW & CD & _ & _ & CQ).
  set (s1 := comb_stq_commit (cslots (st cur) n) (i_flush i) (st cur)) in *. set (t := taken (st cur) n) in *.
  assert (TN : t <= n) by apply lead_le.
  assert (W1 : WQ s1) by (apply (WQ_frame (st cur)); auto; intros x L _ NW; split; [now apply (live_ptrs (st cur))|now rewrite CQ]).
  set (l1 := Lsu s1 (ld cur) (un cur) (lr cur)) in *.
  pose proof (mmio_in_shape (i_mmio i) (un cur) l1) as SH2. pose proof (SInv_shape b _ _ SH2 (mmio_in_good (i_mmio i) (un cur) l1 (v_good _ _ V1)) V1) as V2.
  pose proof (mmio_in_keepA (i_mmio i) (un cur) l1) as K2. pose proof (mmio_in_keepN (i_mmio i) (un cur) l1) as KN2. destruct (mmio_in_q (i_mmio i) (un cur) l1) as [MW MD]. pose proof (mmio_in_keepL (i_mmio i) (un cur) l1) as KL2.
  set (l2 := comb_mmio_in (i_mmio i) (un cur) l1) in *. change (st l1) with s1 in *. change (ld l1) with (ld cur) in KL2.
  pose proof (dcache2lsu_stq_shape (i_ds i) (i_fill i) (st l2)) as SH3. pose proof (SInv_shape b _ _ SH3 (dcache2lsu_stq_good (i_ds i) (i_fill i) (st l2) (v_good _ _ V2)) V2) as V3.
  pose proof (dcache_keepA (i_ds i) (i_fill i) (st l2)) as K3. destruct (dcache_keepN (i_ds i) (i_fill i) (st l2)) as (KN3 & DW & DD). pose proof (dcache_ldq_keepL (i_dl i) (i_fill i) (ld l2)) as KL3.
  set (s3 := comb_dcache2lsu_stq (i_ds i) (i_fill i) (st l2)) in *.
  set (l3 := Lsu s3 (comb_dcache2lsu_ldq (i_dl i) (i_fill i) (ld l2)) (un l2) (lr l2)) in *.
  assert (SH13 : shape s1 s3) by (eapply shape_trans; eassumption). pose proof (sh_ptrs _ _ SH13) as (Q1 & _ & _ & Q4 & Q5).
  pose proof (keepN_trans _ _ _ KN2 KN3) as KN.
  assert (W3 : WQ s3) by (apply (WQ_frame s1); [congruence|congruence| |exact W1]; intros x L C _; split; [now apply (live_ptrs s1)|apply KN; exact C]).
  pose proof (lsu2exe_shape (lr cur) l3) as SH4. pose proof (SInv_shape b _ _ SH4 (lsu2exe_good (lr cur) l3 (v_good _ _ V3)) V3) as V4. pose proof (lsu2exe_keepA (lr cur) l3) as K4.
  pose proof (lsu2exe_reports (lr cur) l3 W3) as RP. pose proof (lsu2exe_calm (lr cur) l3) as CA4.
  pose proof (HI_mmio b _ acc (g_pend g) (i_mmio i) (un cur) l1 V1 H1) as H2.
  set (hist := g_hist g ++ map (fun k => hcommit (i_flush i) (ent (st cur) (scc (st cur) + k))) (seq 0 t)) in *.
  assert (LG2 : g_log g = map (reqat hist) acc).
  { unfold hist. rewrite reqat_app; [exact LG|]. intros p P. destruct (hi_in _ _ _ _ _ H p P) as [X _]. rewrite (hi_len _ _ _ _ _ H). exact X. }
  destruct (HI_dcache b hist (i_ds i) (i_fill i) acc (g_pend g) (g_log g) (st l2) V2 H2 LG2) as (acc3 & H3 & _).
  set (al := fold_left answer (i_ds i) (g_pend g, g_log g)) in *.
  pose proof (HI_calm b hist acc3 (fst al) _ _ (v_C _ _ V3) (sh_ptrs _ _ SH4) CA4 H3) as H4.
  destruct (comb_lsu2exe (lr cur) l3) as [l4 wbs]. cbn [fst] in SH4, V4, K4, H4. change (st l3) with s3 in *. destruct RP as (W4 & KW4 & RP).
  assert (SH14 : shape s1 (st l4)) by (eapply shape_trans; eassumption).
  pose proof (sh_ptrs _ _ SH14) as (P1 & P2 & P3 & P4 & P5).
  destruct (store_datas b (st cur) i n (st l4) hist acc3 (fst al) V4 H4) as (V5 & H5 & SH5 & K5); [right; split; congruence|lia|exact STD|].
  assert (LIVE : forall s k x, sh s = sh (st cur) -> sn s = sn (st cur) -> k < sn (st cur) -> x = (sh (st cur) + k) mod STQ_SIZE -> live s x) by (intros s k x A B C ->; exists k; rewrite A, B; now split).
  destruct (store_datas_W (i_std i) (st l4)) as [W5 KW5]; [|exact W4|].
  { intros r R _. destruct (STD r R) as (k & K & X). apply (LIVE _ k); [congruence|congruence|lia|exact X]. }
  set (s5 := fold_left handle_store_data (i_std i) (st l4)) in *.
  assert (KA : keepA (st cur) s5).
  { eapply keepA_trans; [exact K1|]. eapply keepA_trans; [exact K2|]. eapply keepA_trans; [exact K3|]. eapply keepA_trans; [exact K4|exact K5]. }
  pose proof (sh_ptrs _ _ SH5) as (R1 & _ & _ & _ & R5).
  destruct (store_addrs b (i_sta i) hist acc3 (fst al) s5 V5 H5 ND) as (V6 & H6 & SH6).
  { intros r R _. destruct (STA r R) as (k & K & X & Y). apply KA. rewrite X. exact Y. }
  destruct (store_addrs_W (i_sta i) s5 ND) as [W6 KW6]; [|exact W5|].
  { intros r R _. destruct (STA r R) as (k & K & X & Y). split; [apply (LIVE _ k); [congruence|congruence|lia|exact X]|]. apply KA. rewrite X. exact Y. }
  set (s6 := fold_left handle_store_addr (i_sta i) s5) in *.
  destruct (comb_tlb_in_ldq (i_ml i) (fold_left handle_load_req (i_ldr i) (ld l4)) (lr l4)) as [d7 r7].
  pose proof (tlb_in_stq_shape (i_ms i) s6 r7) as SH7. pose proof (SInv_shape b _ _ SH7 (tlb_in_stq_good (i_ms i) s6 r7 (v_good _ _ V6)) V6) as V7.
  pose proof (HI_calm b hist acc3 (fst al) _ _ (v_C _ _ V6) (sh_ptrs _ _ SH7) (tlb_in_stq_calm (i_ms i) s6 r7) H6) as H7.
  pose proof (tlb_in_W (i_ms i) s6 r7) as TW.
  destruct (comb_tlb_in_stq (i_ms i) s6 r7) as [s7 r7']. cbn [fst] in SH7, V7, H7, TW.
  assert (SH17 : shape s1 s7) by (eapply shape_trans; [exact SH14|eapply shape_trans; [exact SH5|eapply shape_trans; [exact SH6|exact SH7]]]).
  clear P1 P2 P3 P4 P5. pose proof (sh_ptrs _ _ SH17) as (P1 & P2 & P3 & P4 & P5).
  set (l8 := comb_stlf (i_head i) (Lsu s7 d7 (un l4) r7')) in *. assert (ST8 : st l8 = s7) by apply stlf_st. rewrite ST8 in LC.
  destruct (allocs_spec b (i_sa i) s7 V7) as (V9 & S9 & SH9 & SN9 & O9 & E9 & AW & AD & _); [rewrite P5, SN1; exact SA| |].
  { intros j r J. rewrite (FL j r J), P5, SN1. reflexivity. }
  set (s9 := fold_left alloc_stq (i_sa i) s7) in *.
  assert (H9 : HI b hist acc3 (fst al) s9).
  { apply (HI_ents b hist acc3 (fst al) s7); auto. intros k K. apply E9. pose proof (v_C _ _ V7) as (D1 & _). lia. }
  assert (O17 : order s7 = order (st cur)) by (rewrite <- O1; apply order_shape; [exact (sh_ptrs _ _ SH17)|exact (sh_ent _ _ SH17)]).
  set (l9 := Lsu s9 (fold_left alloc_ldq (i_la i) (ld l8)) (un l8) (lr l8)) in *.
  assert (BR : forall k, k < sn (st cur) -> s_brm (ent s9 k) = s_brm (ent (st cur) k)).
  { intros k K. rewrite E9 by lia. pose proof (f_equal (fun l => nth k l (key stqe0)) O17) as Y. cbv beta in Y. rewrite !order_nth in Y by lia. unfold key in Y. congruence. }
  destruct (flush_spec b i cur l9 hist acc3 (fst al) (scc (st cur) + t)) as (V10 & H10 & O10 & S10 & SH10 & _ & SN10); change (st l9) with s9; auto.
  { congruence. }
  { intros M. rewrite O9, O17. now apply MO. }
  { intros M k K. rewrite BR; [apply OLD; [exact M|]|]; lia. }
  { intros k K1' K2'. assert (X : exists j r, k = sn (st cur) + j /\ nth_error (i_sa i) j = Some r /\ s_brm (ent s9 k) = sl_brm r).
    { assert (JL : k - sn (st cur) < length (i_sa i)) by lia. apply nth_error_Some in JL. destruct (nth_error (i_sa i) (k - sn (st cur))) as [r|] eqn:NE; [|congruence].
      exists (k - sn (st cur)), r. split; [lia|]. split; [exact NE|]. pose proof (order_nth s9 k (key stqe0) K2') as Y. rewrite O9, app_nth2 in Y by (rewrite order_len; lia). rewrite order_len in Y.
      rewrite P5, SN1 in Y. rewrite (nth_indep _ _ (galloc r)) in Y by (rewrite map_length; lia). rewrite map_nth in Y. rewrite (nth_error_nth _ _ r NE) in Y.
      unfold key, galloc in Y. congruence. }
    destruct X as (j & r & _ & NE & ->). apply CLR. eapply nth_error_In. exact NE. }
  { lia. }
  pose proof (flush_W i cur l9) as FW. change (st l9) with s9 in *. set (l10 := comb_flush i cur l9) in *. destruct (comb_lsu2dcache_ldq (ld cur) (ld l10)) as [d11 dlq].
  destruct (comb_lsu2dcache_stq (st cur) (st l10) (un l10)) as [[s11 u11] dsq] eqn:IS.
  destruct (lsu2dcache_stq_spec _ _ _ _ _ _ IS (v_good _ _ V10) (v_C _ _ V10) (v_J _ _ V10)) as (ISS & _ & _). pose proof (SInv_iss b _ _ ISS V10) as V11.
  destruct (issue_stores_keepN _ _ _ _ _ _ _ _ _ IS) as (KN11 & IW & ID).
  injection LC as <- <-. cbn [st o_ts o_wb]. intros MS. unfold comb_check. set (m := Nat.min (Nat.min (scc s11) (sn s11)) WINDOW).
  destruct (retire_spec m b s11 V11 ltac:(unfold m; lia)) as (r & R & V12 & O12 & S12 & Q12 & SN12 & _ & RW & RD & DN & _).
  pose proof (v_C _ _ V11) as (CC1 & CC2 & CC3).
  (* the two index queues *)
  destruct TW as [W7 KW7]; [|exact W6|].
  { intros r0 R0. destruct (MS r0 R0) as (q & Q & ->). exact (tlb_reqs_window s6 q Q). }
  assert (SHM : sh (st cur) < 16) by (rewrite (v_sh _ _ V); unfold STQ_SIZE; lia).
  assert (ENTS : forall s' k, sh s' = sh (st cur) -> ent s' k = sq s' ((sh (st cur) + k) mod STQ_SIZE)) by (intros s' k E; unfold ent; now rewrite E).
  assert (W9 : WQ s9).
  { apply (WQ_frame s7); auto. intros x (k & K & ->) _ _. split; [exists k; split; [lia|now rewrite SH9]|]. pose proof (E9 k K) as Y. unfold ent in Y. rewrite SH9 in Y. now rewrite Y. }
  destruct FW as [W10 FE]; [congruence|apply slots_NoDup; exact C2|exact W9|]. fold l10 in W10, FE.
  pose proof (is_p _ _ ISS) as (I1 & _ & _ & I4 & I5).
  assert (W11 : WQ s11) by (apply (WQ_frame (st l10)); auto; intros x L C _; split; [now apply (live_ptrs (st l10))|apply KN11; exact C]).
  assert (W12 : WQ (retire m s11)).
  { apply (WQ_frame s11); auto. intros x (k & K & ->) C _. rewrite Q12. split; [|reflexivity].
    assert (RK : r <= k). { destruct (Nat.lt_ge_cases k r) as [L|L]; [|exact L]. exfalso. specialize (DN k L). unfold ent in DN. rewrite DN in C. discriminate. }
    exists (k - r). split; [lia|]. rewrite (v_sh _ _ V12), (v_sh _ _ V11). unfold STQ_SIZE. lia. }
  (* from the write-back on, a store that waits for its commit keeps waiting *)
  assert (KT : forall k, k < sn (st cur) -> forall s', keepW s' s7 -> s_st (sq s' ((sh (st cur) + k) mod STQ_SIZE)) = SWaitCommit ->
    s_st (sq (retire m s11) ((sh (st cur) + k) mod STQ_SIZE)) = SWaitCommit /\ s_pf (sq (retire m s11) ((sh (st cur) + k) mod STQ_SIZE)) = s_pf (sq s' ((sh (st cur) + k) mod STQ_SIZE))).
  { intros k K s' KW X. destruct (KW _ X) as [Y1 Y2]. rewrite Q12. set (x := (sh (st cur) + k) mod STQ_SIZE) in *.
    assert (Z : sq s9 x = sq s7 x). { pose proof (E9 k ltac:(lia)) as Y. unfold ent in Y. rewrite SH9 in Y. replace ((sh s7 + k) mod STQ_SIZE) with x in Y by (unfold x; f_equal; lia). exact Y. }
    destruct (FE x) as [F1 F2]. destruct (KN11 x) as [G1 G2]; [rewrite F1, Z, Y1; reflexivity|]. rewrite G1, G2, F1, F2, Z. split; congruence. }
  assert (KW47 : keepW (st l4) s7) by (eapply keepW_trans; [exact KW5|eapply keepW_trans; [exact KW6|exact KW7]]).
  assert (E13 : forall k, scc (st cur) + t <= k < sn (st cur) -> sq s1 ((sh (st cur) + k) mod STQ_SIZE) = ent (st cur) k).
  { intros k K. pose proof (E1 k ltac:(lia) ltac:(lia)) as Y. unfold ent in Y at 1. rewrite SH1 in Y. exact Y. }
  split; [exact W12|]. split.
  - intros k K X. rewrite <- (E13 k K). rewrite <- (E13 k K) in X. apply (KT k ltac:(lia) s1); [|exact X]. eapply keepW_trans; [apply keepN_W; exact KN|]. eapply keepW_trans; [exact KW4|exact KW47].
  - intros w Wn. destruct (RP w Wn) as [(x & (k & K & XE) & X2 & X3 & X4 & X5)|FL0].
    + left. exists k. assert (KS : scc (st cur) + t <= k).
      { destruct (Nat.lt_ge_cases k (scc (st cur) + t)) as [L|L]; [|exact L]. exfalso. pose proof (v_C _ _ V3) as (_ & _ & D3). pose proof (D3 k ltac:(lia)) as D4. unfold ent in D4. rewrite <- XE, X2 in D4. symmetry in D4. apply Nat.ltb_ge in D4. lia. }
      assert (XC : x = (sh (st cur) + k) mod STQ_SIZE) by (rewrite XE; do 2 f_equal; lia).
      split; [split; [exact KS|lia]|]. rewrite <- XC. split.
      * rewrite <- X3. pose proof (E13 k ltac:(lia)) as Y. rewrite <- Y, <- XC. symmetry. exact (le_rob _ _ (sh_ent _ _ SH13 x)).
      * rewrite XC. rewrite XC in X4, X5. destruct (KT k ltac:(lia) (st l4) KW47 X4) as [Y1 Y2]. split; [exact Y1|congruence].
    + right. destruct FL0 as (F1 & j & F2 & F3). split; [exact F1|]. exists j. destruct (keepL_trans _ _ _ KL2 KL3 j) as [L1 L2]. change (ld l3) with (comb_dcache2lsu_ldq (i_dl i) (i_fill i) (ld l2)) in F2, F3. split; [now apply L2|congruence].
Qed.
Lemma WQ0 : WQ (st lsu0).
Proof. split; (constructor; [constructor; [cbn; lia|]| |]; cbn; discriminate). Qed.
