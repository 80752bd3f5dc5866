(** The loads of the unit over a whole cycle. *)
From Verif Require Import Base BaseLemmas Ring MemModel MemProofs MemProps LsuModel LsuStq LsuQ LdqInv LdqPhase LdqPhase2 LdqPhase3 LsuSquashProps.
Local Open Scope nat_scope.
Ltac Zify.zify_post_hook ::= Z.div_mod_to_equations.

(** *** The environment
    [pend]: the requests the unit made to the data cache in the cycle before.
    Every one is answered in this cycle, on its port (c56_lsu_load_answered);
    dispatch takes indices the unit offered, each once; a load instruction
    executes once, in the entry it was given; the translations are answers to
    requests of this cycle. *)
Record lenv (cur : lsu) (pend : list dlreq) (i : lin) : Prop := {
  ev_dl : map dl_id (i_dl i) = map q_id pend;
  ev_la : NoDup (map la_idx (i_la i)) /\ forall r, In r (i_la i) -> In (la_idx r) (ldq_alloc_idx (ld cur));
  ev_lr : NoDup (map lr_idx (i_ldr i)) /\ forall r, In r (i_ldr i) -> let e := lq (ld cur) (lr_idx r) in lr_idx r < 16 /\ l_st e = LAllocated /\ l_rob e = lr_rob r /\ l_robf e = lr_robf r;
  ev_tl : NoDup (map mr_wait (i_ml i)) /\ forall r, In r (i_ml i) -> exists va, In (va, mr_ent r, mr_wait r) (o_tl (snd (lsu_cycle cur i))) }.
Inductive lreach : lsu -> list dlreq -> Prop :=
| lreach0 : lreach lsu0 []
| lreach1 cur pend i : lreach cur pend -> lenv cur pend i -> lreach (fst (lsu_cycle cur i)) (o_dl (snd (lsu_cycle cur i))).

Record Linv (l : lsu) (pend : list dlreq) : Prop := { iv_l : LI [] (ld l); iv_m : MI (ld l) (un l); iv_p : PI (ld l) pend; iv_c : cap (ld l) <= 16 }.
Lemma Linv0 : Linv lsu0 [].
Proof.
  constructor.
  - exists (fun _ => None). split.
    + constructor; [|intros []; discriminate|discriminate]. intros []; (split; [cbn; lia|split; [cbn; lia|intros k X; discriminate]]).
    + constructor; [reflexivity|intros i []|reflexivity|constructor].
  - intros i X. discriminate.
  - constructor; [intros q []|intros k X; discriminate|constructor].
  - vm_compute. lia.
Qed.

(** The unit after the answers of the cycle, right before the reports. *)
Definition answered (cur : lsu) (i : lin) : lsu :=
  let l := comb_mmio_in (i_mmio i) (un cur) (Lsu (comb_stq_commit (i_commit i) (i_flush i) (st cur)) (ld cur) (un cur) (lr cur)) in
  Lsu (comb_dcache2lsu_stq (i_ds i) (i_fill i) (st l)) (comb_dcache2lsu_ldq (i_dl i) (i_fill i) (ld l)) (un l) (lr l).
(** The reports of stores of the cycle. *)
Definition store_wbs (cur : lsu) (i : lin) : list wb := x_out (fold_left (sta_wb (lr cur)) (window (dns (st (answered cur i)))) (LX (st (answered cur i)) (lr (answered cur i)) 0 0 [])).

Lemma in_firstn {A} n (l : list A) x : In x (firstn n l) -> In x l.
Proof. revert l. induction n as [|n IH]; intros [|a l] X; cbn in *; try contradiction. destruct X as [->|X]; [now left|right; now apply IH]. Qed.
Lemma alloc_idx_ok d x : In x (ldq_alloc_idx d) -> x < 16 /\ l_st (lq d x) = LEmpty.
Proof. unfold ldq_alloc_idx. intros X. apply in_firstn in X. apply filter_In in X as [X Y]. apply in_seq in X. unfold LDQ_SIZE in X. apply is_l_eq in Y. split; [lia|exact Y]. Qed.
Lemma alloc_room d : cap d <= 16 -> cap d + length (ldq_alloc_idx d) <= 16.
Proof.
  intros C. unfold ldq_alloc_idx. rewrite firstn_length. enough (Z.of_nat (cap d) + ldq_free d <= 16)%Z by lia. unfold ldq_free, cap in *. set (a := cnt_ld d LAllocated) in *. set (w := qn (wml d)) in *. unfold u32sub, w32.
  rewrite (Z.mod_small (16 - Z.of_nat a)) by lia. rewrite Z.mod_small by lia. lia.
Qed.

Record Cyc (cur : lsu) (pend : list dlreq) (i : lin) (d2 d3 : ldqs) (is : list nat) : Prop := {
  cy_1 : forall j, l_st (lq (ld cur) j) <> LWaitDcacheResp -> l_st (lq (ld cur) j) <> LWaitMmioResp -> lq d2 j = lq (ld cur) j;
  cy_k : K (ld cur) d2;
  cy_2 : forall n r q, nth_error (i_dl i) n = Some r -> nth_error pend n = Some q -> exists k, let j := qi (wdl (ld cur)) k in
     k < 16 /\ q_id q = rid (ld cur) k /\ qv (wdl (ld cur)) k = true /\ l_st (lq (ld cur) j) = LWaitDcacheResp /\ q_addr q = l_pa (lq (ld cur) j) /\ lq d2 j = taken_by (ld cur) r k (lq (ld cur) j);
  cy_w : o_wb (snd (lsu_cycle cur i)) = store_wbs cur i ++ map (fun j => wb_of (lq d2 j)) is;
  cy_o : wrote d2 d3 is;
  cy_b : K d3 (ld (before_flush cur i));
  cy_e : forall j, l_st (lq d3 j) = LEmpty -> ~ In j (map la_idx (i_la i)) -> l_st (lq (ld (before_flush cur i)) j) = LEmpty;
  cy_n : forall r, In r (i_la i) -> lq (ld (before_flush cur i)) (la_idx r) = fresh r;
  cy_f : let lf := comb_flush i cur (before_flush cur i) in forall j, let e := lq (ld lf) j in let e' := lq (ld (fst (lsu_cycle cur i))) j in
     e' = e \/ l_st e = LReadyToIssue /\ e' = set_l_st LWaitDcacheResp e;
  cy_i : Linv (fst (lsu_cycle cur i)) (o_dl (snd (lsu_cycle cur i)));
  cy_m : forall j, lq d2 j = lq (ld cur) j \/ l_st (lq (ld cur) j) = LWaitDcacheResp \/ l_st (lq (ld cur) j) = LWaitMmioResp /\ (l_st (lq d2 j) = LReadyToWb /\ exists v, i_mmio i = Some v /\ lq d2 j = set_l_st LReadyToWb (set_l_res v (lq (ld cur) j)));
  cy_g : lbad d2 = lbad (ld cur) }.

Lemma cyc cur pend i : Linv cur pend -> lenv cur pend i -> exists d3 is, Cyc cur pend i (ld (answered cur i)) d3 is.
Proof.
  intros [H0 M0 P0 C0] [E1 [E2 E2'] [E3 E3'] [E4 E4']].
  (* uncached answers *)
  set (la := Lsu (comb_stq_commit (i_commit i) (i_flush i) (st cur)) (ld cur) (un cur) (lr cur)).
  destruct (mmio_in_ok (i_mmio i) la H0 M0) as (A1 & A2 & A3 & A4 & A5 & A6 & A7 & A8 & A9 & A10). cbn [la un ld] in A1, A2, A3, A4, A5, A6, A7, A8, A9, A10. set (l1 := comb_mmio_in (i_mmio i) (un cur) la) in *. cbv zeta in *.
  assert (P1 : PI (ld l1) pend).
  { destruct P0 as [PA PB PN]. constructor; [| |exact PN].
    - intros q Q. destruct (PA q Q) as (k & K1 & K2 & K3 & K4 & K5 & K6). exists k. unfold rid in *. rewrite A7, A8. assert (X : lq (ld l1) (qi (wdl (ld cur)) k) = lq (ld cur) (qi (wdl (ld cur)) k)) by (destruct (A9 (qi (wdl (ld cur)) k)) as [X|[X _]]; [exact X|congruence]). rewrite X. do 5 (split; [assumption|]). assumption.
    - intros k V S. rewrite A7 in V, S. unfold rid. rewrite A8. apply PB; [exact V|]. destruct (A9 (qi (wdl (ld cur)) k)) as [X|[_ X]]; [now rewrite <- X|congruence]. }
  (* answers of the cache *)
  destruct (dcache_in_ok (i_dl i) (i_fill i) pend (ld l1) A1 P1 E1) as (B1 & B2 & B3 & B4 & B5). cbv zeta in B1, B2, B3, B4, B5.
  change (comb_dcache2lsu_ldq (i_dl i) (i_fill i) (ld l1)) with (ld (answered cur i)) in *. set (d2 := ld (answered cur i)) in *.
  assert (M2 : MI d2 (un l1)). { apply (MI_ext (ld l1)); [|exact A6]. intros j J. destruct (l_st (lq (ld l1) j)) eqn:S; try (rewrite B4 in J by congruence; congruence). exfalso. pose proof (g_l _ _ B1) as _. clear - J S B1 B5 B3 A1 P1 E1.
    destruct (LI_where [] (ld l1) j A1 (fun x => x)) as [(Q & k & V & X)|X]; [|unfold okb in X; rewrite S in X; discriminate].
    assert (Q = QD) as ->. { destruct (LI_at _ _ _ _ A1 V) as (_ & _ & _ & OK). rewrite X in OK. unfold okb in OK. rewrite S in OK. destruct Q; try discriminate. reflexivity. }
    cbn [qof] in V, X. destruct (pi_b _ _ P1 k V) as (q & Q1 & Q2); [now rewrite X|]. apply In_nth_error in Q1 as [n N].
    assert (exists r, nth_error (i_dl i) n = Some r) as [r R]. { destruct (nth_error (i_dl i) n) eqn:R; [eauto|]. apply nth_error_None in R. assert (n < length pend) by (apply nth_error_Some; congruence). rewrite <- (map_length dl_id), E1, map_length in R. lia. }
    destruct (B5 n r q R N) as (k' & K1 & K2 & K3 & K4 & K5 & K6). cbv zeta in *. destruct (LI_at [] (ld l1) QD k A1 V) as (_ & _ & KL & _). rewrite K2 in Q2. apply rid_inj in Q2; [|exact K1|exact KL]. subst k'. rewrite X in K6. rewrite K6 in J. unfold taken_by in J. destruct (dl_rep r); cbn in J; discriminate. }
  assert (KD : K (ld cur) d2) by (apply (K_trans _ (ld l1)); [exact A2|apply B1]).
  (* reports *)
  destruct (comb_lsu2exe (lr cur) (answered cur i)) as [l3 wbs] eqn:EX. pose proof EX as EX'. unfold comb_lsu2exe in EX. fold d2 in EX.
  set (x := fold_left (sta_wb (lr cur)) (window (dns (st (answered cur i)))) (LX (st (answered cur i)) (lr (answered cur i)) 0 0 [])) in EX.
  destruct (load_wbs_ok (window (fin d2)) (LY d2 (x_lr x) (x_ld x) []) B2) as (is & D1 & D2 & D3 & D4 & D5 & D6). cbv zeta in D1, D2, D3, D4, D5, D6. cbn [y_d y_out app] in D1, D2, D3, D4, D5, D6.
  set (y := fold_left load_wb (window (fin d2)) (LY d2 (x_lr x) (x_ld x) [])) in *. cbv zeta in EX. injection EX as EL EW.
  assert (D3' : LI [] (ld l3) /\ (forall j, lq (ld l3) j = lq (y_d y) j) /\ wml (ld l3) = wml d2 /\ un l3 = un l1).
  { rewrite <- EL. cbn [ld un]. split; [|split; [reflexivity|split; [exact D4|reflexivity]]]. apply (LI_pop [] (y_d y) QF (Nat.min (qn (fin d2)) WINDOW)); [exact D3|]. cbn [qof]. rewrite D6. apply Nat.le_min_l. }
  destruct D3' as (L3 & Q3 & W3 & U3). assert (W : wrote d2 (ld l3) is) by (destruct D2 as (X & Y & Z); split; [exact X|split; [intros j J; rewrite Q3; now apply Y|intros j J; rewrite Q3; now apply Z]]).
  assert (IN : forall j, {In j is} + {~ In j is}) by (intros j; apply in_dec, Nat.eq_dec).
  assert (ST3 : forall j, l_st (lq (ld l3) j) = LEmpty \/ lq (ld l3) j = lq d2 j) by (intros j; destruct (IN j) as [X|X]; [left; destruct W as (_ & Y & _); destruct (Y j X) as [_ Z]; now rewrite Z|right; now apply W]).
  assert (C3 : cap (ld l3) <= 16).
  { enough (cap (ld l3) <= cap d2 /\ cap d2 <= cap (ld l1) /\ cap (ld l1) <= cap (ld cur)) by lia. split; [|split; [apply B1|]].
    - apply AL_cap; [intros j J; destruct (ST3 j) as [X|X]; congruence|rewrite W3; lia].
    - apply AL_cap; [exact A3|rewrite A4; lia]. }
  assert (C30 : cap (ld l3) <= cap (ld cur)).
  { enough (cap (ld l3) <= cap d2 /\ cap d2 <= cap (ld l1) /\ cap (ld l1) <= cap (ld cur)) by lia. split; [|split; [apply B1|]].
    - apply AL_cap; [intros j J; destruct (ST3 j) as [X|X]; congruence|rewrite W3; lia].
    - apply AL_cap; [exact A3|rewrite A4; lia]. }
  assert (M3 : MI (ld l3) (un l3)) by (rewrite U3; apply (MI_ext d2); [intros j J; destruct (ST3 j) as [X|X]; congruence|exact M2]).
  assert (SM : forall j, l_st (lq (ld cur) j) <> LWaitDcacheResp -> l_st (lq (ld cur) j) <> LWaitMmioResp -> lq d2 j = lq (ld cur) j).
  { intros j J1 J2. assert (X : lq (ld l1) j = lq (ld cur) j) by (destruct (A9 j) as [X|[X _]]; [exact X|contradiction]). rewrite B4; rewrite X; auto. }
  assert (SA : forall j, l_st (lq (ld cur) j) = LAllocated \/ l_st (lq (ld cur) j) = LEmpty -> lq (ld l3) j = lq (ld cur) j).
  { intros j J. assert (X : lq d2 j = lq (ld cur) j) by (apply SM; destruct J; congruence). rewrite <- X. destruct (IN j) as [Y|Y]; [|now apply W]. destruct W as (_ & Z & _). destruct (Z j Y) as [[[D _]|[D _]] _]; rewrite X in D; destruct J; congruence. }
  (* requests *)
  assert (OKR : forall r, In r (i_ldr i) -> ld_ok (ld l3) r). { intros r R. destruct (E3' r R) as (X1 & X2 & X3 & X4). unfold ld_ok. rewrite SA by now left. auto. }
  destruct (handles_ok (i_ldr i) (ld l3) L3 C3 E3 OKR) as (F1 & F2 & F3 & F4). cbv zeta in F1, F2, F3, F4. set (d4 := fold_left handle_load_req (i_ldr i) (ld l3)) in *.
  (* translation *)
  set (s4 := fold_left handle_store_addr (i_sta i) (fold_left handle_store_data (i_std i) (st l3))).
  assert (OTL : o_tl (snd (lsu_cycle cur i)) = tlb_reqs_l d4 /\ o_wb (snd (lsu_cycle cur i)) = wbs).
  { unfold lsu_cycle. fold la. fold l1. change (Lsu (comb_dcache2lsu_stq (i_ds i) (i_fill i) (st l1)) (comb_dcache2lsu_ldq (i_dl i) (i_fill i) (ld l1)) (un l1) (lr l1)) with (answered cur i).
    rewrite EX'. fold d4.
    destruct (comb_tlb_in_ldq _ _ _) as [? ?]. destruct (comb_tlb_in_stq _ _ _) as [? ?]. cbv zeta. destruct (comb_lsu2dcache_ldq _ _) as [? ?]. destruct (comb_lsu2dcache_stq _ _ _) as [[? ?] ?]. split; reflexivity. }
  destruct OTL as [OTL OWB]. rewrite OTL in E4'.
  assert (OKT : forall r, In r (i_ml i) -> tl_ok d4 r).
  { intros r R. destruct (E4' r R) as [va X]. unfold tlb_reqs_l in X. apply in_firstn in X. apply in_map_iff in X as (k & X & Y). injection X as X1 X2 X3. apply filter_In in Y as [_ Y]. apply andb_true_iff in Y as [Y1 Y2]. apply is_l_eq in Y2. subst k. rewrite X2 in Y2.
    unfold tl_ok. split; [|auto]. change (qv (qof d4 QW) (mr_wait r) = true) in Y1. now destruct (LI_at _ _ _ _ F2 Y1) as (_ & _ & Z & _). }
  destruct (tlb_in_ok (i_ml i) d4 (lr l3) F2 E4 OKT) as (G1 & G2 & G3). cbv zeta in G1, G2, G3.
  destruct (comb_tlb_in_ldq (i_ml i) d4 (lr l3)) as [d5 r5] eqn:E5. cbn [fst] in G1, G2, G3. destruct (comb_tlb_in_stq (i_ms i) s4 r5) as [s5 r5'] eqn:E5'.
  assert (M5 : MI d5 (un l3)).
  { apply (MI_ext (ld l3)); [|exact M3]. intros j J. rewrite (G3 j (or_introl J)) in J. destruct (F4 j) as [X|X]; congruence. }
  (* store check *)
  destruct (stlf_ok (i_head i) (Lsu s5 d5 (un l3) r5') G2 M5) as (I1 & I2 & I3). cbv zeta in I1, I2, I3. cbn [ld] in I3. set (l6 := comb_stlf (i_head i) (Lsu s5 d5 (un l3) r5')) in *.
  assert (NW6 : forall j, l_st (lq (ld l6) j) <> LWaitDcacheResp).
  { intros j J. rewrite (h_d _ _ I3 j J) in J. rewrite (G3 j (or_intror J)) in J. destruct (F4 j) as [X|X]; [|congruence]. rewrite X in J. destruct (ST3 j) as [Y|Y]; [congruence|]. rewrite Y in J. now apply (B3 j). }
  assert (EM6 : EM (ld l3) (ld l6)) by (apply (EM_trans _ d4); [apply F1|apply (EM_trans _ d5); [apply G1|apply I3]]).
  assert (K6 : K (ld l3) (ld l6)) by (apply (K_trans _ d4); [apply F1|apply (K_trans _ d5); [apply G1|apply I3]]).
  assert (C6 : cap (ld l6) <= cap (ld cur)).
  { assert (cap (ld l6) <= cap d5) by (apply AL_cap; [apply I3|rewrite (h_w _ _ I3); lia]). pose proof (g_w _ _ F1). pose proof (g_w _ _ G1). lia. }
  (* allocation *)
  assert (OKA : forall r, In r (i_la i) -> la_idx r < 16 /\ l_st (lq (ld cur) (la_idx r)) = LEmpty) by (intros r R; apply alloc_idx_ok; now apply E2').
  assert (OKA' : forall r, In r (i_la i) -> la_idx r < 16 /\ l_st (lq (ld l6) (la_idx r)) = LEmpty).
  { intros r R. destruct (OKA r R) as [X Y]. split; [exact X|]. pose proof (SA _ (or_intror Y)) as Z. rewrite EM6; rewrite Z; exact Y. }
  destruct (allocs_ok (i_la i) (ld l6) I1 E2 OKA') as (N1 & N2 & N3 & N4 & N5). cbv zeta in N1, N2, N3, N4, N5. set (d7 := fold_left alloc_ldq (i_la i) (ld l6)) in *.
  assert (C7 : cap d7 <= 16).
  { pose proof (alloc_room (ld cur) C0). assert (length (i_la i) <= length (ldq_alloc_idx (ld cur))); [|lia]. rewrite <- (map_length la_idx). apply NoDup_incl_length; [exact E2|]. intros j J. apply in_map_iff in J as (r & <- & R). now apply E2'. }
  assert (BF : before_flush cur i = Lsu (fold_left alloc_stq (i_sa i) (st l6)) d7 (un l6) (lr l6)).
  { unfold before_flush. fold la. fold l1. change (Lsu (comb_dcache2lsu_stq (i_ds i) (i_fill i) (st l1)) (comb_dcache2lsu_ldq (i_dl i) (i_fill i) (ld l1)) (un l1) (lr l1)) with (answered cur i).
    rewrite EX'. fold s4 d4. rewrite E5, E5'. reflexivity. }
  assert (M7 : MI (ld (before_flush cur i)) (un (before_flush cur i))).
  { rewrite BF. cbn [ld un]. apply (MI_ext (ld l6)); [|exact I2]. intros j J. destruct (in_dec Nat.eq_dec j (map la_idx (i_la i))) as [X|X]; [|now rewrite <- N4]. apply in_map_iff in X as (r & <- & R). rewrite N3 in J by exact R. discriminate. }
  assert (L7 : LI [] (ld (before_flush cur i))) by (rewrite BF; exact N1).
  destruct (flush_ok i cur (before_flush cur i) L7 M7) as (O1 & O2 & O3 & O4). cbv zeta in O1, O2, O3, O4. set (lf := comb_flush i cur (before_flush cur i)) in *.
  assert (PF : PI (ld lf) []).
  { constructor; [intros q []| |constructor]. intros k V S. exfalso. change (qv (qof (ld lf) QD) k = true) in V. destruct (LI_at _ _ _ _ O1 V) as (X & _). change (qi (qof (ld lf) QD) k) with (qi (wdl (ld lf)) k) in X. set (j := qi (wdl (ld lf)) k) in *.
    assert (BJ : busy lf j) by (split; [exact X|congruence]). destruct (c70_loads i cur (before_flush cur i) j) as [_ Y]. destruct (Y BJ) as [Z _]. fold lf in Z. unfold same_load in Z. rewrite Z in S. cbn [l_st set_l_brm] in S. rewrite BF in S. cbn [ld] in S.
    destruct (in_dec Nat.eq_dec j (map la_idx (i_la i))) as [T|T]; [|rewrite N4 in S by exact T; now apply (NW6 j)]. apply in_map_iff in T as (r & <- & R). rewrite N3 in S by exact R. discriminate. }
  pose proof (issue_ok (rgen (ld cur)) (window (wdl (ld lf))) 0 (ld lf) [] O1 PF) as IS. destruct (issue_loads (rgen (ld cur)) (window (wdl (ld lf))) 0 (ld lf) []) as [d9 out] eqn:E9. destruct IS as (R1 & R2 & R3 & R4 & R5).
  destruct (cycle_after cur i) as (s & u & dsq & dlq & wbs' & tl & ts & mm & EC & EO). cbv zeta in EC. fold lf in EC, EO. unfold comb_lsu2dcache_ldq in EC, EO. rewrite E9 in EC, EO. cbn [fst snd] in EC, EO. subst dlq.
  (* the uncached unit after the stores *)
  assert (MU : MI (ld lf) u).
  { assert (X : exists s9, u = snd (fst (comb_lsu2dcache_stq (st cur) s9 (un lf)))).
    { unfold lsu_cycle in EC. fold la in EC. fold l1 in EC. change (Lsu (comb_dcache2lsu_stq (i_ds i) (i_fill i) (st l1)) (comb_dcache2lsu_ldq (i_dl i) (i_fill i) (ld l1)) (un l1) (lr l1)) with (answered cur i) in EC.
      rewrite EX' in EC. fold s4 d4 in EC. rewrite E5, E5' in EC. fold l6 in EC. fold d7 in EC. cbv zeta in EC. rewrite <- BF in EC. fold lf in EC.
      unfold comb_lsu2dcache_ldq in EC. rewrite E9 in EC. destruct (comb_lsu2dcache_stq (st cur) (st lf) (un lf)) as [[s9 u9] q9] eqn:E10. injection EC as _ EU _ _ _ _ _. exists (st lf). rewrite E10. symmetry. exact EU. }
    destruct X as [s9 ->]. unfold comb_lsu2dcache_stq. intros j J. destruct (O2 j J) as (X & Y & Z). rewrite issue_stores_un by exact X. auto. }
  rewrite EC in *. cbn [fst snd o_dl o_wb] in *.
  exists (ld l3), is. constructor; rewrite ?EC; cbn [fst snd o_dl o_wb ld lq set_rgen].
  - exact SM.
  - exact KD.
  - intros n r q X Y. destruct (B5 n r q X Y) as (k & K1 & K2 & K3 & K4 & K5 & K7). exists k. cbv zeta in *. unfold rid in *. rewrite A7, A8 in *. assert (Z : lq (ld l1) (qi (wdl (ld cur)) k) = lq (ld cur) (qi (wdl (ld cur)) k)) by (destruct (A9 (qi (wdl (ld cur)) k)) as [Z|[_ Z]]; [exact Z|congruence]). rewrite Z in *.
    do 5 (split; [assumption|]). rewrite K7. reflexivity.
  - rewrite OWB, <- EW, D1. reflexivity.
  - exact W.
  - rewrite BF. cbn [ld]. apply (K_trans _ (ld l6)); [exact K6|]. intros j J. rewrite N4; [now repeat split|]. intros X. apply in_map_iff in X as (r & <- & R). apply J. now apply OKA'.
  - intros j J X. rewrite BF. cbn [ld]. rewrite N4 by exact X. rewrite EM6 by exact J. exact J.
  - intros r R. rewrite BF. cbn [ld]. now apply N3.
  - exact R5.
  - constructor; cbn [ld un].
    + apply (LI_ext _ d9); [now intros []|reflexivity|exact R1].
    + intros j J. cbn [set_rgen lq] in J. apply MU. destruct (R5 j) as [X|[X Y]]; [congruence|]. rewrite Y in J. discriminate.
    + destruct R2; constructor; assumption.
    + enough (cap d9 <= cap (ld lf)) by (rewrite BF in O3; cbn [ld] in O3; unfold cap, cnt_ld, is_l in *; cbn [set_rgen lq wml]; lia). apply AL_cap; [intros j J; destruct (R5 j) as [X|[X Y]]; [congruence|rewrite Y in J; discriminate]|]. cbn [qof] in R4. rewrite R4. lia.
  - intros j. destruct (A9 j) as [X|[X Y]].
    + destruct (l_st (lq (ld cur) j)) eqn:S; try (left; rewrite B4; rewrite X; [reflexivity|congruence]). right. now left.
    + right. right. split; [exact X|]. assert (Z : lq d2 j = lq (ld l1) j) by (apply B4; congruence). rewrite Z. split; [exact Y|].
      clear - X Y. unfold l1, comb_mmio_in in *. destruct (i_mmio i) as [v|]; [|cbn in Y; congruence]. destruct (negb (u_v (un cur))); [cbn in Y; congruence|]. destruct (u_ld (un cur)); [|cbn in Y; congruence].
      cbn [la ld] in *. destruct (qn (fin (ld cur)) <? LDQ_SIZE); [|cbn in Y; congruence]. destruct (is_l (ld cur) (u_idx (un cur)) LWaitMmioResp); cbn [ld] in *; [|congruence].
      exists v. split; [reflexivity|]. cbn [set_fin upd_l set_lq lq fin] in *. unfold fupd in *. destruct (Nat.eqb_spec j (u_idx (un cur))) as [->|]; [reflexivity|congruence].
  - rewrite (g_b _ _ B1). exact A5.
Qed.
Lemma reach_inv l pend : lreach l pend -> Linv l pend.
Proof. induction 1 as [|cur pend i R IH E]; [exact Linv0|]. destruct (cyc cur pend i IH E) as (d3 & is & C). apply C. Qed.
