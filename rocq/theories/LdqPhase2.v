(** The remaining phases: requests, translation, store check. *)
From Verif Require Import Base BaseLemmas Ring MemModel MemProofs MemProps LsuModel LsuStq LsuQ LdqInv LdqPhase.
Local Open Scope nat_scope.
Ltac Zify.zify_post_hook ::= Z.div_mod_to_equations.

(** A phase that does one update of one load. *)
Lemma G_one d d' i f : LI [] d' -> (forall j, lq d' j = lq (upd_l i f d) j) -> settled (l_st (lq d i)) = false -> l_st (lq d i) <> LEmpty -> keeps_id f -> l_st (f (lq d i)) <> LEmpty -> l_st (f (lq d i)) <> LAllocated ->
  qn (wml d') <= qn (wml d) -> lbad d' = lbad d -> G d d'.
Proof.
  intros L E N1 N2 KI N3 N4 W B. assert (A : AL d d') by (eapply AL_trans; [apply (AL_upd d i f); exact N4|apply AL_ext; exact E]).
  constructor; [intros _; exact L|eapply K_trans; [apply (K_upd d i f); assumption|apply K_ext; exact E]|exact A|now apply AL_cap|exact B|eapply EM_trans; [apply (EM_upd d i f); exact N2|apply EM_ext; exact E]].
Qed.

(** *** handle_load_req *)
Definition ld_ok (d : ldqs) (r : ldreq) : Prop := lr_idx r < 16 /\ l_st (lq d (lr_idx r)) = LAllocated /\ l_rob (lq d (lr_idx r)) = lr_rob r /\ l_robf (lq d (lr_idx r)) = lr_robf r.
Definition request (r : ldreq) (e : ldqe) : ldqe := set_l_lrsc (lr_lr r) (set_l_sf (lr_sf r) (set_l_si (lr_si r) (set_l_st LWaitTlb (set_l_f3 (lr_f3 r) (set_l_pa 0%Z (set_l_preg (lr_preg r) (set_l_va (lr_addr r) e))))))).
Lemma handle_ok d r : LI [] d -> cap d <= 16 -> ld_ok d r -> let d' := handle_load_req d r in G d d' /\ LI [] d' /\ (forall j, lq d' j = lq (upd_l (lr_idx r) (request r) d) j).
Proof.
  intros H CP (I & SA & RB & RF). cbv zeta. unfold handle_load_req. destruct (LDQ_SIZE <=? lr_idx r) eqn:X; [apply Nat.leb_le in X; unfold LDQ_SIZE in X; lia|]. rewrite RF, RB, Bool.eqb_reflx, Nat.eqb_refl. cbn [negb orb].
  set (i := lr_idx r) in *. change (fun e => set_l_lrsc (lr_lr r) (set_l_sf (lr_sf r) (set_l_si (lr_si r) (set_l_st LWaitTlb (set_l_f3 (lr_f3 r) (set_l_pa 0%Z (set_l_preg (lr_preg r) (set_l_va (lr_addr r) e)))))))) with (request r).
  assert (CT : forall d', (forall j, lq d' j = lq (upd_l i (request r) d) j) -> S (cnt_ld d' LAllocated) <= cnt_ld d LAllocated).
  { intros d' E. apply (filter_lt _ _ _ i).
    - intros x _ Y. apply is_l_eq in Y. rewrite E in Y. cbn [upd_l set_lq lq] in Y. unfold fupd in Y. destruct (Nat.eqb_spec x i); [discriminate|]. now apply is_l_eq.
    - apply in_seq. unfold LDQ_SIZE. lia.
    - now apply is_l_eq.
    - unfold is_l. rewrite E. cbn [upd_l set_lq lq]. now rewrite fupd_eq. }
  assert (O : okb None (lq d i) = true /\ l_pf (lq d i) = false).
  { destruct (LI_where [] d i H (fun x => x)) as [(Q & k & V & E)|O].
    - exfalso. at_ H V A B C D. rewrite E in D. unfold okb in D. rewrite SA in D. destruct Q; discriminate.
    - split; [exact O|]. unfold okb in O. rewrite SA in O. now apply negb_true_iff. }
  destruct O as [O PF]. set (d1 := upd_l i (request r) d). set (d2 := set_wml (enq (wml d1) i) d1). assert (E2 : forall j, lq d2 j = lq d1 j) by reflexivity. pose proof (CT d2 E2) as C2.
  assert (L2 : LI [] d2). { apply (LI_ext _ (setq QW (enq (qof d QW) i) (upd_l i (request r) d))); [intros []; reflexivity|reflexivity|]. apply LI_enq; auto; [unfold cap in CP; cbn [qof]; lia|unfold okb; cbn; now rewrite PF|congruence]. }
  split; [|split; [exact L2|exact E2]]. constructor; [intros _; exact L2| | | |reflexivity|].
  - eapply K_trans; [apply (K_upd d i (request r))|apply K_ext; exact E2]; [now rewrite SA|intros e; now repeat split|discriminate].
  - eapply AL_trans; [apply (AL_upd d i (request r))|apply AL_ext; exact E2]. discriminate.
  - unfold cap. change (qn (wml d2)) with (S (qn (wml d))). lia.
  - apply (EM_upd d i (request r)). congruence.
Qed.
Lemma handles_ok rs : forall d, LI [] d -> cap d <= 16 -> NoDup (map lr_idx rs) -> (forall r, In r rs -> ld_ok d r) -> let d' := fold_left handle_load_req rs d in
  G d d' /\ LI [] d' /\ (forall i, l_st (lq d i) <> LAllocated -> lq d' i = lq d i) /\ (forall i, lq d' i = lq d i \/ l_st (lq d' i) = LWaitTlb).
Proof.
  induction rs as [|r t IH]; intros d H CP ND OK; cbv zeta; cbn [fold_left]; [split; [apply G_refl|split; [exact H|split; [reflexivity|now left]]]|].
  destruct (handle_ok d r H CP (OK r (or_introl eq_refl))) as (A & B & C). set (d1 := handle_load_req d r) in *. cbn [map] in ND. inversion ND as [|? ? N1 N2]; subst.
  destruct (OK r (or_introl eq_refl)) as (I0 & S0 & _).
  assert (OT : forall j, j <> lr_idx r -> lq d1 j = lq d j) by (intros j J; rewrite C; cbn [upd_l set_lq lq]; now apply fupd_ne).
  destruct (IH d1 B) as (A' & B' & C' & D'); [destruct A; lia|exact N2| |].
  - intros r' R'. destruct (OK r' (or_intror R')) as (X1 & X2 & X3 & X4). assert (NE : lr_idx r' <> lr_idx r) by (intros X; apply N1; rewrite <- X; now apply in_map). unfold ld_ok. rewrite (OT _ NE). auto.
  - cbv zeta in *. split; [now apply (G_trans _ d1)|]. split; [exact B'|]. split.
    + intros i X. assert (i <> lr_idx r) by (intros ->; contradiction). rewrite C'; [now apply OT|]. now rewrite OT.
    + intros i. destruct (D' i) as [E|E]; [|now right]. destruct (Nat.eq_dec i (lr_idx r)) as [->|NE]; [right|left; rewrite E; now apply OT]. rewrite E, C. cbn [upd_l set_lq lq]. now rewrite fupd_eq.
Qed.

(** *** comb_tlb_in_ldq *)
Definition tl_ok (d : ldqs) (r : mmuresp) : Prop := mr_wait r < 16 /\ qv (wml d) (mr_wait r) = true /\ qi (wml d) (mr_wait r) = mr_ent r /\ l_st (lq d (mr_ent r)) = LWaitTlb.
Definition translated (r : mmuresp) (e : ldqe) : ldqe := match mr_res r with
  | MHit pa => set_l_st LWaitSTLF (set_l_mmio (lsu_is_mmio_addr pa) (set_l_pa pa e))
  | MFault => set_l_st LWaitFinish (set_l_res (l_va e) (set_l_diag (l_va e) (set_l_pf true e)))
  | MMiss => set_l_st LWaitTlbRetry e end.
Lemma tlb_resp_ok d rl r : LI [] d -> tl_ok d r -> let d' := fst (tlb_resp_l (d, rl) r) in G d d' /\ LI [] d' /\ wml d' = wml d /\ (forall j, j <> mr_ent r -> lq d' j = lq d j) /\ l_st (lq d' (mr_ent r)) <> LWaitMmioResp /\ l_st (lq d' (mr_ent r)) <> LWaitDcacheResp.
Proof.
  intros H (W & V & E & S). cbv zeta. unfold tlb_resp_l. change (qv (qof d QW) (mr_wait r) = true) in V. at_ H V A B C OK. change (qi (qof d QW) (mr_wait r)) with (qi (wml d) (mr_wait r)) in *. rewrite E in *.
  unfold okb in OK. rewrite S in OK. apply negb_true_iff in OK.
  destruct (LDQ_SIZE <=? mr_wait r) eqn:X; [apply Nat.leb_le in X; unfold LDQ_SIZE in X; lia|]. destruct (LDQ_SIZE <=? mr_ent r) eqn:Y; [apply Nat.leb_le in Y; unfold LDQ_SIZE in Y; lia|].
  cbn [orb]. cbn [qof] in V. rewrite V. cbn [negb orb]. rewrite Nat.eqb_refl. cbn [negb]. unfold is_l. rewrite S. cbn [lst_eqb negb].
  assert (X0 : fst (match mr_res r with | MMiss => (upd_l (mr_ent r) (set_l_st LWaitTlbRetry) d, rl)
    | MHit pa => (upd_l (mr_ent r) (fun e => set_l_st LWaitSTLF (set_l_mmio (lsu_is_mmio_addr pa) (set_l_pa pa e))) d, rl)
    | MFault => (upd_l (mr_ent r) (fun e => set_l_st LWaitFinish (set_l_res (l_va e) (set_l_diag (l_va e) (set_l_pf true e)))) d, set_r_v false rl) end) = upd_l (mr_ent r) (translated r) d) by (unfold translated; destruct (mr_res r); reflexivity).
  rewrite X0. clear X0. set (i := mr_ent r) in *.
  assert (ST : l_st (translated r (lq d i)) = LWaitSTLF \/ l_st (translated r (lq d i)) = LWaitFinish \/ l_st (translated r (lq d i)) = LWaitTlbRetry) by (unfold translated; destruct (mr_res r); cbn; auto).
  assert (L' : LI [] (upd_l i (translated r) d)).
  { change (qv (qof d QW) (mr_wait r) = true) in V. pose proof (LI_stay_at [] d QW (mr_wait r) (translated r) H V) as Z. cbn [qof] in Z. rewrite E in Z. apply Z. fold i. unfold okb, translated. destruct (mr_res r); cbn; now rewrite ?OK. }
  split; [|split; [exact L'|split; [reflexivity|split]]].
  - apply (G_one d _ i (translated r)); auto; try congruence; try (rewrite S; reflexivity); try (destruct ST as [-> |[-> | ->]]; discriminate). intros e. unfold translated. destruct (mr_res r); now repeat split.
  - intros j J. cbn [upd_l set_lq lq]. now apply fupd_ne.
  - cbn [upd_l set_lq lq]. rewrite fupd_eq. destruct ST as [-> |[-> | ->]]; split; discriminate.
Qed.
Lemma tlb_resps_ok rs : forall d rl, LI [] d -> NoDup (map mr_wait rs) -> (forall r, In r rs -> tl_ok d r) -> let d' := fst (fold_left tlb_resp_l rs (d, rl)) in
  G d d' /\ LI [] d' /\ wml d' = wml d /\ (forall i, l_st (lq d' i) = LWaitMmioResp \/ l_st (lq d' i) = LWaitDcacheResp -> lq d' i = lq d i).
Proof.
  induction rs as [|r t IH]; intros d rl H ND OK; cbv zeta; cbn [fold_left]; [split; [apply G_refl|split; [exact H|split; [reflexivity|reflexivity]]]|].
  destruct (tlb_resp_ok d rl r H (OK r (or_introl eq_refl))) as (A & B & C & D & E & F). destruct (tlb_resp_l (d, rl) r) as [d1 rl1]. cbn [fst] in *. cbn [map] in ND. inversion ND as [|? ? N1 N2]; subst.
  destruct (IH d1 rl1 B N2) as (A' & B' & C' & D').
  - intros r' R'. destruct (OK r' (or_intror R')) as (X1 & X2 & X3 & X4). unfold tl_ok. rewrite C. rewrite D; [auto|]. intros X. apply N1. destruct (OK r (or_introl eq_refl)) as (Y1 & Y2 & Y3 & Y4).
    assert (mr_wait r' = mr_wait r) as <-; [|now apply in_map]. change (wml d) with (qof d QW) in X2, X3, Y2, Y3. apply (LI_inj [] d QW _ QW _ H X2 Y2). congruence.
  - cbv zeta in *. split; [now apply (G_trans _ d1)|]. split; [exact B'|]. split; [congruence|]. intros i X. pose proof (D' i X) as Y. destruct (Nat.eq_dec i (mr_ent r)) as [->|NE]; [|rewrite Y; now apply D]. rewrite Y in X. destruct X; contradiction.
Qed.
Lemma tlb_move_ok ks : forall ns nf d, LI [] d -> let d' := tlb_move_l ks ns nf d in
  G d d' /\ LI [] d' /\ qn (wml d') = qn (wml d) /\ qh (wml d') = qh (wml d) /\ (forall i, l_st (lq d' i) = LWaitMmioResp \/ l_st (lq d' i) = LWaitDcacheResp -> lq d' i = lq d i).
Proof.
  induction ks as [|k t IH]; intros ns nf d H; cbv zeta; cbn [tlb_move_l].
  { split; [apply G_refl|]. split; [exact H|]. do 2 (split; [reflexivity|]). reflexivity. }
  destruct (qv (wml d) k) eqn:V; cbn [negb]; [|apply IH; exact H]. change (qv (qof d QW) k = true) in V. at_ H V A B C OK. change (qi (qof d QW) k) with (qi (wml d) k) in *. set (i := qi (wml d) k) in *.
  assert (STEP : forall d1 ns' nf' f, LI [] d1 -> (forall j, lq d1 j = lq (upd_l i f d) j) -> keeps_id f -> settled (l_st (lq d i)) = false -> l_st (lq d i) <> LEmpty -> l_st (f (lq d i)) <> LEmpty -> l_st (f (lq d i)) <> LAllocated ->
    l_st (f (lq d i)) <> LWaitMmioResp -> l_st (f (lq d i)) <> LWaitDcacheResp -> qn (wml d1) = qn (wml d) -> qh (wml d1) = qh (wml d) -> lbad d1 = lbad d ->
    let d' := tlb_move_l t ns' nf' d1 in G d d' /\ LI [] d' /\ qn (wml d') = qn (wml d) /\ qh (wml d') = qh (wml d) /\ (forall i, l_st (lq d' i) = LWaitMmioResp \/ l_st (lq d' i) = LWaitDcacheResp -> lq d' i = lq d i)).
  { intros d1 ns' nf' f L1 E1 KI N1 N2 N3 N4 N5 N6 Q1 Q2 B1. cbv zeta. destruct (IH ns' nf' d1 L1) as (X1 & X2 & X3 & X4 & X5). cbv zeta in *. split; [apply (G_trans _ d1); [|exact X1]; apply (G_one d d1 i f); auto; lia|]. split; [exact X2|]. split; [congruence|]. split; [congruence|].
    intros j J. pose proof (X5 j J) as Y. rewrite Y in J |- *. rewrite E1 in J |- *. cbn [upd_l set_lq lq] in *. unfold fupd in *. destruct (j =? i); [destruct J; contradiction|reflexivity]. }
  unfold okb in OK. destruct (l_st (lq d i)) eqn:SE; try discriminate OK; try (apply IH; exact H).
  - (* LWaitTlbRetry *) apply (STEP _ ns nf (set_l_st LWaitTlb)); try reflexivity; try discriminate; [|intros e; now repeat split]. pose proof (LI_stay_at [] d QW k (set_l_st LWaitTlb) H V) as Z. apply Z. fold i. unfold okb. cbn. exact OK.
  - (* LWaitSTLF *) destruct (_ && _) eqn:R; [|apply IH; exact H]. apply andb_true_iff in R as [_ R]. apply Nat.ltb_lt in R. unfold LDQ_SIZE in R.
    apply (STEP _ (S ns) nf (set_l_st LCheckStlf)); try reflexivity; try discriminate; [|intros e; now repeat split].
    apply (LI_ext _ (setq QW (kill (qof d QW) k) (setq QS (enq (qof d QS) i) (upd_l i (set_l_st LCheckStlf) d)))); [intros []; reflexivity|reflexivity|]. apply LI_move; [exact H|exact V|discriminate|exact R|]. fold i. unfold okb. cbn. exact OK.
  - (* LWaitFinish *) destruct (_ && _) eqn:R; [|apply IH; exact H]. apply andb_true_iff in R as [_ R]. apply Nat.ltb_lt in R. unfold LDQ_SIZE in R.
    apply (STEP _ ns (S nf) (set_l_st LPageFault)); try reflexivity; try discriminate; [|intros e; now repeat split].
    apply (LI_ext _ (setq QW (kill (qof d QW) k) (setq QF (enq (qof d QF) i) (upd_l i (set_l_st LPageFault) d)))); [intros []; reflexivity|reflexivity|]. apply LI_move; [exact H|exact V|discriminate|exact R|]. fold i. unfold okb. cbn. exact OK.
Qed.
Lemma tlb_in_ok rs d rl : LI [] d -> NoDup (map mr_wait rs) -> (forall r, In r rs -> tl_ok d r) -> let d' := fst (comb_tlb_in_ldq rs d rl) in
  G d d' /\ LI [] d' /\ (forall i, l_st (lq d' i) = LWaitMmioResp \/ l_st (lq d' i) = LWaitDcacheResp -> lq d' i = lq d i).
Proof.
  intros H ND OK. cbv zeta. unfold comb_tlb_in_ldq. destruct (tlb_resps_ok rs d rl H ND OK) as (A & B & C & D). cbv zeta in *. destruct (fold_left tlb_resp_l rs (d, rl)) as [d1 rl1]. cbn [fst] in *.
  destruct (tlb_move_ok (window (wml d1)) 0 0 d1 B) as (A' & B' & C' & D' & E'). cbv zeta in *. set (d2 := tlb_move_l (window (wml d1)) 0 0 d1) in *.
  assert (P : G d2 (setq QW (pop_invalid (Nat.min (qn (wml d2)) WINDOW) (qof d2 QW)) d2)) by (apply pop_G; cbn [qof]; lia). cbn [setq qof] in P.
  split; [apply (G_trans _ d2); [now apply (G_trans _ d1)|exact P]|]. split; [now apply P|]. cbn [set_wml lq]. intros i X. pose proof (E' i X) as Y. rewrite Y in X |- *. now apply D.
Qed.
