(** C70: a misprediction removes from the load/store unit exactly the work that
    depends on the branch. *)
From Verif Require Import Base BaseLemmas Ring MemModel MemSpec MemProofs LsuModel LsuQ LsuStq LsuRun LsuSpec LsuHist LsuCycle.
From Coq Require Import Lia.
Local Open Scope nat_scope.

(** *** Specification: two branch masks meet if they have a branch in common. *)
Definition meet (m b : Z) : Prop := exists k, (0 <= k)%Z /\ Z.testbit m k = true /\ Z.testbit b k = true.
Definition busy (l : lsu) (k : nat) : Prop := k < LDQ_SIZE /\ l_st (lq (ld l) k) <> LEmpty.
(** A live load and all it holds but its mask. *)
Definition same_load (a b : ldqe) : Prop := b = set_l_brm (l_brm b) a.

Lemma hits_meet m b : hits m b = true <-> meet m b.
Proof.
  unfold hits, nz, meet. rewrite negb_true_iff, Z.eqb_neq. split.
  - intros N. assert (E : exists k, (0 <= k)%Z /\ Z.testbit (Z.land m b) k = true).
    { assert (D : (0 < Z.land m b \/ Z.land m b < 0)%Z) by lia. destruct D as [D|D].
      - exists (Z.log2 (Z.land m b)). split; [apply Z.log2_nonneg|now apply Z.bit_log2].
      - exists (Z.log2 (- Z.land m b) + 1)%Z. split; [pose proof (Z.log2_nonneg (- Z.land m b)); lia|]. apply Z.bits_above_log2_neg; [exact D|].
        assert (Z.log2 (Z.pred (- Z.land m b)) <= Z.log2 (- Z.land m b))%Z by (apply Z.log2_le_mono; lia). lia. }
    destruct E as (k & K & T). rewrite Z.land_spec in T. apply andb_true_iff in T. exists k. tauto.
  - intros (k & K & A & B) E. assert (T : Z.testbit (Z.land m b) k = true) by (rewrite Z.land_spec, A, B; reflexivity).
    rewrite E, Z.bits_0 in T. discriminate.
Qed.
Lemma hits_no m b : hits m b = false <-> ~ meet m b.
Proof. rewrite <- hits_meet. destruct (hits m b); split; intros H; try congruence; exfalso; now apply H. Qed.

Lemma lst_eqb_iff a b : lst_eqb a b = true <-> a = b.
Proof. destruct a, b; cbn; split; intros H; try reflexivity; discriminate. Qed.

(** *** The loads *)
(** C70. Of the loads in the unit, those that depend on the branch go and the
    others stay as they are; a flush takes them all. *)
Theorem c70_loads i cur l k :
  let l' := comb_flush i cur l in
  (busy l' k <-> busy l k /\ i_flush i = false /\ ~ (i_mispred i = true /\ meet (l_brm (lq (ld l) k)) (i_brm i))) /\
  (busy l' k -> same_load (lq (ld l) k) (lq (ld l') k) /\
     (forall b, (0 <= b)%Z -> Z.testbit (l_brm (lq (ld l') k)) b = true -> Z.testbit (l_brm (lq (ld l) k)) b = true) /\
     (busy cur k -> l_brm (lq (ld l') k) = Z.ldiff (l_brm (lq (ld l) k)) (i_clear i))).
Proof.
  cbv zeta.
  set (l1 := if i_flush i then flush_global l else l).
  set (l2 := if i_mispred i then flush_mispred (i_brm i) l1 else l1).
  assert (B1 : busy l1 k <-> busy l k /\ i_flush i = false).
  { unfold l1, busy. destruct (i_flush i).
    - unfold flush_global. cbn [ld lq]. split; [|intros [_ X]; discriminate]. intros [K N]. apply Nat.ltb_lt in K. rewrite K in N. exfalso. now apply N.
    - tauto. }
  assert (E1 : i_flush i = false -> lq (ld l1) k = lq (ld l) k) by (intros F; unfold l1; now rewrite F).
  assert (B2 : busy l2 k <-> busy l1 k /\ ~ (i_mispred i = true /\ meet (l_brm (lq (ld l1) k)) (i_brm i))).
  { unfold l2. destruct (i_mispred i); [|split; [intros X; split; [exact X|intros [Y _]; discriminate]|tauto]].
    unfold busy, flush_mispred. cbn [ld lq]. rewrite <- hits_meet. destruct (Nat.ltb_spec k LDQ_SIZE) as [K|K]; [|split; [intros [X _]; lia|intros [[X _] _]; lia]].
    cbn [andb]. destruct (lst_eqb (l_st (lq (ld l1) k)) LEmpty) eqn:Z0; cbn [negb andb].
    - apply lst_eqb_iff in Z0. split; [intros [_ X]; contradiction|intros [[_ X] _]; contradiction].
    - destruct (hits _ _) eqn:H; cbn [set_l_st l_st].
      + split; [intros [_ X]; exfalso; now apply X|intros [_ X]; exfalso; apply X; now split].
      + split; [intros X; split; [exact X|intros [_ Y]; discriminate]|tauto]. }
  assert (E2 : busy l2 k -> lq (ld l2) k = lq (ld l1) k).
  { unfold l2. destruct (i_mispred i); [|reflexivity]. unfold busy, flush_mispred. cbn [ld lq]. intros [K N].
    destruct (_ && _ && _); [exfalso; now apply N|reflexivity]. }
  assert (CF : comb_flush i cur l = if nz (i_clear i) then flush_clear cur (i_clear i) l2 else l2) by reflexivity.
  rewrite CF. clear CF.
  assert (E3 : let e := lq (ld (if nz (i_clear i) then flush_clear cur (i_clear i) l2 else l2)) k in
    same_load (lq (ld l2) k) e /\ l_st e = l_st (lq (ld l2) k) /\ (l_brm e = l_brm (lq (ld l2) k) \/ l_brm e = Z.ldiff (l_brm (lq (ld l2) k)) (i_clear i)) /\
    (busy cur k -> l_brm e = Z.ldiff (l_brm (lq (ld l2) k)) (i_clear i))).
  { destruct (nz (i_clear i)) eqn:NZ; cbv zeta.
    - unfold flush_clear. cbn [ld lq set_lq]. destruct (Nat.ltb_spec k LDQ_SIZE) as [K|K]; cbn [andb].
      + destruct (lst_eqb (l_st (lq (ld cur) k)) LEmpty) eqn:Z0; cbn [negb andb].
        * split; [unfold same_load; destruct (lq (ld l2) k); reflexivity|]. split; [reflexivity|]. split; [now left|]. intros [_ N]. apply lst_eqb_iff in Z0. contradiction.
        * split; [reflexivity|]. split; [reflexivity|]. split; [now right|]. reflexivity.
      + split; [unfold same_load; destruct (lq (ld l2) k); reflexivity|]. split; [reflexivity|]. split; [now left|]. intros [K' _]. lia.
    - split; [unfold same_load; destruct (lq (ld l2) k); reflexivity|]. split; [reflexivity|]. split; [now left|]. intros _. now rewrite nz_ldiff. }
  cbv zeta in E3. set (l3 := if nz (i_clear i) then flush_clear cur (i_clear i) l2 else l2) in *.
  destruct E3 as (S3 & T3 & M3 & C3).
  assert (B3 : busy l3 k <-> busy l2 k) by (unfold busy; rewrite T3; tauto).
  split.
  - rewrite B3, B2, B1. split.
    + intros ((A & F) & N). rewrite (E1 F) in N. tauto.
    + intros (A & F & N). rewrite (E1 F). tauto.
  - intros B. assert (B2' : busy l2 k) by now apply B3. assert (F : i_flush i = false) by (apply B2 in B2' as [X _]; now apply B1 in X).
    rewrite (E2 B2'), (E1 F) in *. split; [exact S3|]. split; [|exact C3].
    intros b Hb. destruct M3 as [-> | ->]; [auto|]. rewrite Z.ldiff_spec. intros X. now apply andb_true_iff in X as [X _].
Qed.

(** *** The whole cycle *)
Lemma issue_loads_frame g0 ks : forall n d out k, let d' := fst (issue_loads g0 ks n d out) in
  (l_st (lq d' k) = LEmpty <-> l_st (lq d k) = LEmpty) /\ l_brm (lq d' k) = l_brm (lq d k) /\ l_pa (lq d' k) = l_pa (lq d k).
Proof.
  induction ks as [|x t IH]; intros n d out k; cbn [issue_loads]; [cbn; tauto|].
  destruct (LSU_LDU_COUNT <=? n); [cbn; tauto|].
  destruct (negb (qv (wdl d) x)); [apply IH|].
  destruct (is_l d (qi (wdl d) x) LReadyToIssue) eqn:R; cbn [negb]; [|apply IH].
  set (d1 := set_wwait _ d). assert (Q1 : lq d1 = lq d) by reflexivity.
  destruct (0 <? pred (wwait d x)); [specialize (IH n d1 out k); cbv zeta in *; now rewrite Q1 in IH|].
  set (dd := if l_mmio (lq d1 (qi (wdl d) x)) then _ else _).
  assert (Q2 : lq dd = fupd (lq d) (qi (wdl d) x) (set_l_st LWaitDcacheResp (lq d (qi (wdl d) x)))).
  { unfold dd. destruct (l_mmio _); reflexivity. }
  match goal with |- context [issue_loads g0 t (S n) dd ?o] => specialize (IH (S n) dd o k) end. cbv zeta in *.
  destruct IH as (A & B & C). rewrite A, B, C, Q2. unfold fupd. destruct (Nat.eqb_spec k (qi (wdl d) x)) as [->|N]; [|tauto].
  apply lst_eqb_iff in R. cbn [set_l_st l_st l_brm l_pa]. rewrite R. split; [split; discriminate|]. split; reflexivity.
Qed.

(** The state right before the flush step of the cycle. *)
Definition before_flush (cur : lsu) (i : lin) : lsu :=
  let l := Lsu (comb_stq_commit (i_commit i) (i_flush i) (st cur)) (ld cur) (un cur) (lr cur) in
  let l := comb_mmio_in (i_mmio i) (un cur) l in
  let l := Lsu (comb_dcache2lsu_stq (i_ds i) (i_fill i) (st l)) (comb_dcache2lsu_ldq (i_dl i) (i_fill i) (ld l)) (un l) (lr l) in
  let '(l, wbs) := comb_lsu2exe (lr cur) l in
  let s := fold_left handle_store_data (i_std i) (st l) in
  let s := fold_left handle_store_addr (i_sta i) s in
  let d := fold_left handle_load_req (i_ldr i) (ld l) in
  let '(d, r) := comb_tlb_in_ldq (i_ml i) d (lr l) in
  let '(s, r) := comb_tlb_in_stq (i_ms i) s r in
  let l := comb_stlf (i_head i) (Lsu s d (un l) r) in
  Lsu (fold_left alloc_stq (i_sa i) (st l)) (fold_left alloc_ldq (i_la i) (ld l)) (un l) (lr l).
Lemma cycle_after cur i : exists s u dsq dlq wbs tl ts mm,
  let l := comb_flush i cur (before_flush cur i) in
  lsu_cycle cur i = (Lsu (comb_check s) (fst (comb_lsu2dcache_ldq (ld cur) (ld l))) u (lr l), LOut wbs tl ts dlq dsq mm) /\ dlq = snd (comb_lsu2dcache_ldq (ld cur) (ld l)).
Proof.
  unfold lsu_cycle, before_flush.
  destruct (comb_lsu2exe _ _) as [l1 wbs]. destruct (comb_tlb_in_ldq _ _ _) as [d r]. destruct (comb_tlb_in_stq _ _ _) as [s r'].
  cbv zeta. match goal with |- context [comb_flush i cur ?x] => set (lf := comb_flush i cur x) end.
  destruct (comb_lsu2dcache_ldq (ld cur) (ld lf)) as [dq dlq]. destruct (comb_lsu2dcache_stq _ _ _) as [[sq' u'] dsq].
  repeat eexists.
Qed.
(** C70. At the end of a cycle with a misprediction no load that depends on the
    branch is left, whatever else happened in the cycle. *)
Theorem c70_none_left cur i k : i_mispred i = true -> let l' := fst (lsu_cycle cur i) in
  busy l' k -> busy (before_flush cur i) k /\ ~ meet (l_brm (lq (ld (before_flush cur i)) k)) (i_brm i) /\ ~ meet (l_brm (lq (ld l') k)) (i_brm i).
Proof.
  intros M. cbv zeta. destruct (cycle_after cur i) as (s & u & dsq & dlq & wbs & tl & ts & mm & E & _). cbv zeta in E. rewrite E. cbn [fst ld].
  unfold comb_lsu2dcache_ldq. set (lf := comb_flush i cur (before_flush cur i)).
  destruct (issue_loads (rgen (ld cur)) (window (wdl (ld lf))) 0 (ld lf) []) as [d out] eqn:ED. cbn [fst].
  pose proof (issue_loads_frame (rgen (ld cur)) (window (wdl (ld lf))) 0 (ld lf) [] k) as F. cbv zeta in F. rewrite ED in F. cbn [fst] in F.
  destruct F as (F1 & F2 & _). unfold busy at 1. cbn [ld lq set_rgen]. intros [K N].
  assert (B : busy lf k) by (split; [exact K|now rewrite <- F1]).
  pose proof (c70_loads i cur (before_flush cur i) k) as [A C]. fold lf in A, C. cbv zeta in A, C.
  pose proof (proj1 A B) as (A1 & A2 & A3). split; [exact A1|].
  assert (NM : ~ meet (l_brm (lq (ld (before_flush cur i)) k)) (i_brm i)) by (intros X; apply A3; now split). split; [exact NM|].
  rewrite F2. destruct (C B) as (_ & C2 & _). intros (b & Hb & T1 & T2). apply NM. exists b. split; [exact Hb|]. split; [now apply C2|exact T2].
Qed.

(** *** The reservation and the uncached unit *)
Theorem c70_reservation i cur l : let r := lr (comb_flush i cur l) in
  (r_v r = true <-> r_v (lr l) = true /\ ~ (i_mispred i = true /\ meet (r_brm (lr l)) (i_brm i))) /\ r_addr r = r_addr (lr l).
Proof.
  cbv zeta. unfold comb_flush.
  set (l1 := if i_flush i then flush_global l else l). assert (E1 : lr l1 = lr l) by (unfold l1; destruct (i_flush i); reflexivity).
  set (l2 := if i_mispred i then flush_mispred (i_brm i) l1 else l1).
  assert (E2 : (r_v (lr l2) = true <-> r_v (lr l) = true /\ ~ (i_mispred i = true /\ meet (r_brm (lr l)) (i_brm i))) /\ r_addr (lr l2) = r_addr (lr l)).
  { unfold l2. destruct (i_mispred i).
    - unfold flush_mispred. cbn [lr]. rewrite E1, <- hits_meet. destruct (r_v (lr l)) eqn:V; cbn [andb]; [|rewrite V; split; [|reflexivity]; split; [discriminate|tauto]].
      destruct (hits _ _) eqn:H; cbn [set_r_v r_v r_addr]; (split; [|reflexivity]).
      + split; [discriminate|]. intros [_ X]. exfalso. apply X. now split.
      + rewrite V. split; [|tauto]. intros _. split; [reflexivity|]. intros [_ X]. discriminate.
    - rewrite E1. split; [|reflexivity]. split; [|tauto]. intros X. split; [exact X|]. intros [Y _]. discriminate. }
  destruct (nz (i_clear i)); [|exact E2]. unfold flush_clear. cbn [lr]. destruct (r_v (lr l2)) eqn:V; [cbn [set_r_brm r_v r_addr]; rewrite V; exact E2|rewrite V; exact E2].
Qed.

(** *** The stores *)
(** C70. Of the stores in program order, exactly those that do not depend on the
    branch stay, in order. *)
Theorem c70_stores b m l : SInv b (st l) -> mono m (order (st l)) ->
  let o := order (st l) in let o' := order (st (flush_mispred m l)) in
  exists young, o = o' ++ young /\ (forall g, In g o' -> ~ meet (g_brm g) m) /\ (forall g, In g young -> meet (g_brm g) m).
Proof.
  intros V M. cbv zeta. destruct (flush_mispred_spec b m l V M) as (_ & O & _ & _). rewrite O. clear O.
  set (o := order (st l)) in *.
  assert (G : forall o, mono m o -> exists young, o = filter (spared m) o ++ young /\ forall g, In g young -> hits (g_brm g) m = true).
  { clear. induction o as [|g t IH]; intros M; [exists []; split; [reflexivity|intros g []]|].
    assert (MT : mono m t). { intros i j d IJ JL H. exact (M (S i) (S j) d ltac:(lia) ltac:(cbn; lia) H). }
    destruct (IH MT) as (y & E & A). cbn [filter]. unfold spared at 1. destruct (hits (g_brm g) m) eqn:H; cbn [negb].
    - exists (g :: t). assert (Z0 : forall x, In x t -> hits (g_brm x) m = true).
      { intros x X. apply (In_nth _ _ g) in X as (n & N & <-). exact (M 0 (S n) g ltac:(lia) ltac:(cbn; lia) H). }
      replace (filter (spared m) t) with (@nil gst).
      2:{ symmetry. clear -Z0. induction t as [|x t IH]; [reflexivity|]. cbn [filter]. unfold spared at 1. rewrite (Z0 x (or_introl eq_refl)). cbn [negb]. apply IH. intros y Y. apply Z0. now right. }
      split; [reflexivity|]. intros x [<- |X]; [exact H|now apply Z0].
    - exists y. split; [cbn [app]; now rewrite <- E|exact A]. }
  destruct (G o M) as (y & E & A). exists y. split; [exact E|]. split.
  - intros g I. apply filter_In in I as [_ I]. apply hits_no. unfold spared in I. now apply negb_true_iff in I.
  - intros g I. apply hits_meet. now apply A.
Qed.

(** *** Index queues: no slot of a waiting list points to a load that has gone. *)
Theorem c70_lists m l : let l' := flush_mispred m l in
  forall q q', (q = wml (ld l) /\ q' = wml (ld l')) \/ (q = stl (ld l) /\ q' = stl (ld l')) \/ (q = wdl (ld l) /\ q' = wdl (ld l')) \/ (q = fin (ld l) /\ q' = fin (ld l')) ->
  QI q -> live q' = filter (fun k => negb (lst_eqb (l_st (lq (ld l') k)) LEmpty)) (live q).
Proof.
  cbv zeta. intros q q' C Q. unfold flush_mispred in *. cbn [ld lq wml stl wdl fin] in *.
  destruct C as [[-> ->]|[[-> ->]|[[-> ->]|[-> ->]]]]; now apply purge_spec.
Qed.

(** *** Examples *)
Definition c70_l0 : lsu := Lsu (st lsu0)
  (set_lq (fun k => if k =? 1 then set_l_brm 6 (set_l_st LReadyToIssue ldqe0) else if k =? 2 then set_l_brm 4 (set_l_st LWaitTlb ldqe0) else ldqe0) (ld lsu0)) (un lsu0) (LR true 64 2).
Definition c70_in : lin := LIn [] false true 2 0 None false [] [] None [] [] [] [] [] None [] [].
Example c70_ex : let l' := fst (lsu_cycle c70_l0 c70_in) in
  (l_st (lq (ld l') 1), l_st (lq (ld l') 2), r_v (lr l')) = (LEmpty, LWaitTlb, false).
Proof. vm_compute. reflexivity. Qed.

Print Assumptions c70_loads.
Print Assumptions c70_none_left.
Print Assumptions c70_reservation.
Print Assumptions c70_stores.
Print Assumptions c70_lists.
