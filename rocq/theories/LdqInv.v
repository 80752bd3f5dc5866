(** The load side of the load/store unit: where every load is. *)
From Verif Require Import Base BaseLemmas Ring MemModel LsuModel LsuStq LsuQ.
Local Open Scope nat_scope.
Ltac Zify.zify_post_hook ::= Z.div_mod_to_equations.

(** The four index queues: waiting for translation, for the store check, for the cache, finished. *)
Inductive qid := QW | QS | QD | QF.
Definition qof (d : ldqs) (Q : qid) : queue := match Q with QW => wml d | QS => stl d | QD => wdl d | QF => fin d end.
Definition setq (Q : qid) (q : queue) (d : ldqs) : ldqs := match Q with QW => set_wml q d | QS => set_stl q d | QD => set_wdl q d | QF => set_fin q d end.
Definition loct := nat -> option (qid * nat).
Record QL (loc : loct) (d : ldqs) : Prop := {
  ql_q : forall Q, QI (qof d Q);
  ql_v : forall Q k, qv (qof d Q) k = true -> loc (qi (qof d Q) k) = Some (Q, k);
  ql_l : forall i Q k, loc i = Some (Q, k) -> qv (qof d Q) k = true /\ qi (qof d Q) k = i }.
(** What the state and the fault bit of a load must be where it is. *)
Definition okb (p : option (qid * nat)) (e : ldqe) : bool :=
  match p, l_st e with
  | None, LEmpty => true
  | None, (LAllocated | LWaitMmioResp) => negb (l_pf e)
  | Some (QW, _), (LWaitTlb | LWaitTlbRetry | LWaitSTLF) => negb (l_pf e)
  | Some (QW, _), LWaitFinish => l_pf e
  | Some (QS, _), (LCheckStlf | LWaitFinish) => negb (l_pf e)
  | Some (QS, _), LWaitDcache => negb (l_pf e) && negb (l_mmio e)
  | Some (QD, _), (LReadyToIssue | LWaitDcacheResp | LReadyToWb) => negb (l_pf e) && negb (l_mmio e)
  | Some (QF, _), LReadyToWb => negb (l_pf e)
  | Some (QF, _), LPageFault => l_pf e
  | _, _ => false
  end.
(** [R]: loads taken out of the store-check queue, to be put back at the end of the phase. *)
Record SL (R : list nat) (loc : loct) (d : ldqs) : Prop := {
  sl_ok : forall i, ~ In i R -> okb (loc i) (lq d i) = true;
  sl_r : forall i, In i R -> i < 16 /\ loc i = None /\ l_st (lq d i) = LCheckStlf /\ l_pf (lq d i) = false;
  sl_hi : forall i, 16 <= i -> l_st (lq d i) = LEmpty;
  sl_nd : NoDup R }.
(** A load in flight stays in flight as the same instruction; one that is finished or that waits to be issued is untouched. *)
Definition settled (s : lstate) : bool := match s with LReadyToWb | LReadyToIssue => true | _ => false end.
Definition K (d d' : ldqs) : Prop := forall i, l_st (lq d i) <> LEmpty ->
  l_st (lq d' i) <> LEmpty /\ l_rob (lq d' i) = l_rob (lq d i) /\ l_robf (lq d' i) = l_robf (lq d i) /\ l_brm (lq d' i) = l_brm (lq d i) /\
  (settled (l_st (lq d i)) = true -> lq d' i = lq d i).
(** No load becomes allocated. *)
Definition AL (d d' : ldqs) : Prop := forall i, l_st (lq d' i) = LAllocated -> l_st (lq d i) = LAllocated.
Definition MI (d : ldqs) (u : uncu) : Prop := forall i, l_st (lq d i) = LWaitMmioResp -> u_v u = true /\ u_ld u = true /\ u_idx u = i.

Lemma qid_dec (a b : qid) : {a = b} + {a <> b}. Proof. decide equality. Qed.
Lemma qof_same Q q d : qof (setq Q q d) Q = q. Proof. now destruct Q. Qed.
Lemma qof_other Q Q' q d : Q <> Q' -> qof (setq Q q d) Q' = qof d Q'. Proof. now destruct Q, Q'. Qed.
Lemma lq_setq Q q d : lq (setq Q q d) = lq d. Proof. now destruct Q. Qed.
Lemma QL_ext loc d d' : (forall Q, qof d' Q = qof d Q) -> QL loc d -> QL loc d'.
Proof. intros E [A B C]. constructor; intros Q; [|intros k|intros Q0 k]; rewrite E; auto. Qed.
Lemma QL_set loc loc' Q q d : QL loc d -> QI q ->
  (forall k, qv q k = true -> loc' (qi q k) = Some (Q, k)) -> (forall i k, loc' i = Some (Q, k) -> qv q k = true /\ qi q k = i) ->
  (forall i Q' k, Q' <> Q -> (loc' i = Some (Q', k) <-> loc i = Some (Q', k))) -> QL loc' (setq Q q d).
Proof.
  intros [A B C] HQ V L O. constructor.
  - intros Q'. destruct (qid_dec Q Q') as [<-|N]; [now rewrite qof_same|rewrite qof_other by auto; apply A].
  - intros Q' k. destruct (qid_dec Q Q') as [<-|N]; [rewrite qof_same; apply V|rewrite qof_other by auto]. intros X. apply O; [congruence|]. now apply B.
  - intros i Q' k. destruct (qid_dec Q Q') as [<-|N]; [rewrite qof_same; apply L|rewrite qof_other by auto]. intros X. apply C. apply O in X; congruence.
Qed.
Lemma QL_kill loc d Q k : QL loc d -> qv (qof d Q) k = true -> QL (fupd loc (qi (qof d Q) k) None) (setq Q (kill (qof d Q) k) d).
Proof.
  intros H V. pose proof H as [A B C]. assert (LK : loc (qi (qof d Q) k) = Some (Q, k)) by now apply B. apply (QL_set loc); [exact H|apply kill_spec; auto| | |].
  - intros j J. cbn [kill qv qi] in *. unfold fupd in J. destruct (Nat.eqb_spec j k) as [|NE]; [discriminate|]. rewrite fupd_ne; [now apply B|]. intros E. rewrite <- E in LK. rewrite (B Q j J) in LK. congruence.
  - intros i j X. unfold fupd in X. destruct (Nat.eqb_spec i (qi (qof d Q) k)) as [|NE]; [discriminate|]. destruct (C i Q j X) as [Y1 Y2]. cbn [kill qv qi]. split; [|exact Y2]. rewrite fupd_ne; [exact Y1|]. intros ->. congruence.
  - intros i Q' j N. unfold fupd. destruct (Nat.eqb_spec i (qi (qof d Q) k)) as [->|NE]; [|tauto]. split; [discriminate|]. intros X. rewrite LK in X. congruence.
Qed.
Lemma slot_taken q k : QI q -> qn q < 16 -> qv q k = true -> k <> slot q (qn q).
Proof. intros (A & B & C) N V ->. destruct (C _ V) as (j & J & E). apply slot_eq in E; lia. Qed.
Lemma QL_enq loc d Q i : QL loc d -> qn (qof d Q) < 16 -> loc i = None -> QL (fupd loc i (Some (Q, slot (qof d Q) (qn (qof d Q))))) (setq Q (enq (qof d Q) i) d).
Proof.
  intros H N L. pose proof H as [A B C]. apply (QL_set loc); [exact H|apply enq_spec; auto| | |].
  - intros j J. cbn [enq qv qi] in *. unfold fupd in J |- *. destruct (Nat.eqb_spec j (slot (qof d Q) (qn (qof d Q)))) as [EJ|NE]; [rewrite Nat.eqb_refl, EJ; reflexivity|].
    destruct (Nat.eqb_spec (qi (qof d Q) j) i) as [E|NE2]; [|now apply B]. rewrite <- E in L. rewrite (B Q j J) in L. discriminate.
  - intros x j X. cbn [enq qv qi]. unfold fupd in *. destruct (Nat.eqb_spec x i) as [->|NE].
    + injection X as <-. rewrite Nat.eqb_refl. now split.
    + destruct (C x Q j X) as [Y1 Y2]. pose proof (slot_taken (qof d Q) j (A Q) N Y1) as SN. apply Nat.eqb_neq in SN. rewrite SN. now split.
  - intros x Q' j NQ. unfold fupd. destruct (Nat.eqb_spec x i) as [->|NE]; [|tauto]. split; [intros X; congruence|]. rewrite L. discriminate.
Qed.
Lemma pop_same n : forall q, (forall k, qv (pop_invalid n q) k = qv q k) /\ qi (pop_invalid n q) = qi q.
Proof.
  induction n as [|n IH]; intros q; cbn [pop_invalid]; [now split|]. destruct (qv q (qh q)) eqn:E; [now split|]. destruct (IH (deq q)) as [A B]. split; [|exact B].
  intros k. rewrite A. cbn [deq qv]. unfold fupd. destruct (Nat.eqb_spec k (qh q)) as [->|]; congruence.
Qed.
Lemma iter_same n : forall q, QI q -> n <= qn q -> (forall j, j < n -> qv q (slot q j) = false) -> (forall k, qv (Nat.iter n deq q) k = qv q k) /\ qi (Nat.iter n deq q) = qi q.
Proof.
  induction n as [|n IH]; intros q Q N V; [now split|]. rewrite iter_r.
  assert (V0 : qv q (qh q) = false). { specialize (V 0 ltac:(lia)). unfold slot in V. rewrite Nat.add_0_r, Nat.mod_small in V by apply Q. exact V. }
  destruct (deq_spec q Q ltac:(lia) V0) as [Q1 _]. destruct (IH (deq q) Q1 ltac:(cbn; lia)) as [A B].
  - intros j J. cbn [deq qv]. unfold fupd. destruct (Nat.eqb_spec (slot (deq q) j) (qh q)); [reflexivity|].
    specialize (V (S j) ltac:(lia)). unfold slot in V |- *. cbn [deq qh]. now replace (((qh q + 1) mod 16 + j) mod 16) with ((qh q + S j) mod 16) by lia.
  - split; [|exact B]. intros k. rewrite A. cbn [deq qv]. unfold fupd. destruct (Nat.eqb_spec k (qh q)) as [->|]; congruence.
Qed.
Lemma QL_same loc d Q q : QL loc d -> QI q -> (forall k, qv q k = qv (qof d Q) k) -> qi q = qi (qof d Q) -> QL loc (setq Q q d).
Proof.
  intros H HQ V I. pose proof H as [A B C]. apply (QL_set loc); [exact H|exact HQ| | |].
  - intros k K. rewrite I. apply B. now rewrite <- V.
  - intros i k X. rewrite V, I. now apply C.
  - tauto.
Qed.
Lemma QL_pop loc d Q n : QL loc d -> n <= qn (qof d Q) -> QL loc (setq Q (pop_invalid n (qof d Q)) d).
Proof. intros H N. destruct (pop_same n (qof d Q)) as [A B]. apply QL_same; [exact H|apply pop_spec; [apply H|exact N]|exact A|exact B]. Qed.
Lemma purge_all dead q : QI q -> QI (purge dead q) /\ qi (purge dead q) = qi q /\ (forall k, qv (purge dead q) k = qv q k && negb (dead (qi q k))) /\ qn (purge dead q) = qn q.
Proof.
  intros Q. pose proof Q as (A & B & C). unfold purge. fold (slots q). destruct (purge_gen dead (slots q) q Q (slots_nodup q B)) as (D & E & F & G & H). cbv zeta in *.
  split; [exact D|]. split; [|split; [|exact F]].
  - clear. generalize (slots q). intros ks. revert q. induction ks as [|a t IH]; intros q; [reflexivity|]. cbn [fold_left]. rewrite IH. now destruct (dead _).
  - intros k. rewrite H. destruct (qv q k) eqn:V; [|reflexivity]. cbn [andb]. assert (EX : existsb (Nat.eqb k) (slots q) = true); [|now rewrite EX].
    apply existsb_exists. exists k. split; [|apply Nat.eqb_refl]. apply in_slots. now apply C.
Qed.

(** *** States *)
Lemma SL_ext R loc d d' : (forall i, lq d' i = lq d i) -> SL R loc d -> SL R loc d'.
Proof. intros E [A B C D]. constructor; intros; rewrite ?E; auto. Qed.
Lemma SL_place R loc d i Q k : SL R loc d -> loc i = Some (Q, k) -> i < 16 /\ ~ In i R.
Proof.
  intros [A B C D] L. assert (N : ~ In i R) by (intros X; destruct (B i X) as (_ & Y & _); congruence). split; [|exact N].
  destruct (le_lt_dec 16 i) as [G|G]; [|exact G]. specialize (A i N). rewrite L in A. unfold okb in A. rewrite (C i G) in A. destruct Q; discriminate.
Qed.
Lemma SL_upd R loc d i f p : SL R loc d -> ~ In i R -> i < 16 -> okb p (f (lq d i)) = true -> SL R (fupd loc i p) (upd_l i f d).
Proof.
  intros [A B C D] N I OK. constructor; [| | |exact D].
  - intros j J. cbn [upd_l set_lq lq]. unfold fupd. destruct (Nat.eqb_spec j i) as [->|]; [exact OK|now apply A].
  - intros j J. destruct (B j J) as (X & Y & Z). assert (j <> i) by (intros ->; contradiction). cbn [upd_l set_lq lq]. rewrite !fupd_ne by assumption. auto.
  - intros j J. cbn [upd_l set_lq lq]. rewrite fupd_ne by lia. auto.
Qed.
Lemma SL_loc R loc loc' d : SL R loc d -> (forall i, loc' i = loc i) -> SL R loc' d.
Proof. intros [A B C D] E. constructor; intros; rewrite ?E; auto. Qed.
Lemma SL_stay R loc d i f : SL R loc d -> ~ In i R -> i < 16 -> okb (loc i) (f (lq d i)) = true -> SL R loc (upd_l i f d).
Proof. intros H N I OK. eapply SL_loc; [exact (SL_upd R loc d i f (loc i) H N I OK)|]. intros j. unfold fupd. destruct (Nat.eqb_spec j i) as [->|]; reflexivity. Qed.
Lemma SL_move R loc d i p : SL R loc d -> ~ In i R -> i < 16 -> okb p (lq d i) = true -> SL R (fupd loc i p) d.
Proof.
  intros [A B C D] N I OK. constructor; [| |exact C|exact D].
  - intros j J. unfold fupd. destruct (Nat.eqb_spec j i) as [->|]; [exact OK|now apply A].
  - intros j J. destruct (B j J) as (X & Y & Z). assert (j <> i) by (intros ->; contradiction). rewrite fupd_ne by assumption. auto.
Qed.
Lemma K_refl d : K d d. Proof. now intros i. Qed.
Lemma K_trans a b c : K a b -> K b c -> K a c.
Proof.
  intros A B i N. destruct (A i N) as (A1 & A2 & A3 & A4 & A5). destruct (B i A1) as (B1 & B2 & B3 & B4 & B5). split; [exact B1|]. split; [congruence|]. split; [congruence|]. split; [congruence|].
  intros X. rewrite B5; [now apply A5|]. now rewrite (A5 X).
Qed.
Lemma K_ext d d' : (forall i, lq d' i = lq d i) -> K d d'. Proof. intros E i N. rewrite E. now repeat split. Qed.
Definition keeps_id (f : ldqe -> ldqe) : Prop := forall e, l_rob (f e) = l_rob e /\ l_robf (f e) = l_robf e /\ l_brm (f e) = l_brm e.
Lemma K_upd d i f : settled (l_st (lq d i)) = false -> keeps_id f -> l_st (f (lq d i)) <> LEmpty -> K d (upd_l i f d).
Proof.
  intros W F E j N. cbn [upd_l set_lq lq]. unfold fupd. destruct (Nat.eqb_spec j i) as [->|]; [|now repeat split]. destruct (F (lq d i)) as (A & B & C). split; [exact E|]. split; [exact A|]. split; [exact B|]. split; [exact C|]. intros X. congruence.
Qed.
Lemma K_fold {B} (f : ldqs -> B -> ldqs) l : (forall d b, K d (f d b)) -> forall d, K d (fold_left f l d).
Proof. intros H. induction l as [|b l IH]; intros d; [apply K_refl|]. cbn. eapply K_trans; [apply H|apply IH]. Qed.
Lemma AL_refl d : AL d d. Proof. now intros i. Qed.
Lemma AL_trans a b c : AL a b -> AL b c -> AL a c. Proof. intros A B i X. apply A, B, X. Qed.
Lemma AL_ext d d' : (forall i, lq d' i = lq d i) -> AL d d'. Proof. intros E i. now rewrite E. Qed.
Lemma AL_upd d i f : l_st (f (lq d i)) <> LAllocated -> AL d (upd_l i f d).
Proof. intros H j. cbn [upd_l set_lq lq]. unfold fupd. destruct (Nat.eqb_spec j i) as [->|]; [contradiction|auto]. Qed.
Lemma MI_ext d d' u : (forall i, l_st (lq d' i) = LWaitMmioResp -> l_st (lq d i) = LWaitMmioResp) -> MI d u -> MI d' u.
Proof. intros H M i X. apply M, H, X. Qed.

(** Loc-level combination: state [st] of a load at its place. *)
Ltac okf H := unfold okb in H |- *.
