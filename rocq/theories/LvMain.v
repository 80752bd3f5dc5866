(** Loads and stores over a whole cycle: every load keeps its place among the
    stores, and its value has a source. *)
From Verif Require Import Base BaseLemmas Ring MemModel MemSpec MemProofs LsuModel LsuStq LsuQ LsuRun LsuSpec LsuHist LsuSquashProps LdqInv LdqPhase LdqPhase2 LdqPhase3 LdqMain LsuCycle LvStab LvLoads LvStores LvMem.
Local Open Scope nat_scope.
Ltac Zify.zify_post_hook ::= Z.div_mod_to_equations.

(** *** The comparison with older stores *)
Lemma tag_mod p : stq_tag_value (p mod STQ_SIZE) (Nat.odd (p / STQ_SIZE)) = p mod 32.
Proof. unfold stq_tag_value, STQ_SIZE. destruct (Nat.odd (p / 16)) eqn:O; [apply Nat.odd_spec in O as [k K]|assert (E : Nat.even (p / 16) = true) by (rewrite <- Nat.negb_odd, O; reflexivity); apply Nat.even_spec in E as [k K]]; lia. Qed.
Lemma distance_at b P n : b <= P <= b + n -> n <= 16 -> stq_distance (b mod STQ_SIZE) (Nat.odd (b / STQ_SIZE)) n (P mod STQ_SIZE) (Nat.odd (P / STQ_SIZE)) = Some (P - b).
Proof.
  intros A B. unfold stq_distance. rewrite !tag_mod. assert (E : (P mod 32 + STQ_SIZE * 2 - b mod 32) mod (STQ_SIZE * 2) = P - b) by (unfold STQ_SIZE; lia). rewrite E.
  assert (X : (P - b <=? n) = true) by (apply Nat.leb_le; lia). now rewrite X.
Qed.
Lemma older_S s n : older s (S n) = fs_of (ent s n) :: older s n.
Proof. unfold older, stq_slots. rewrite seq_S, map_app, rev_app_distr. reflexivity. Qed.
Lemma seen_known e : good e -> fs_alloc (fs_of e) = false -> fs_paddr_valid (fs_of e) = true -> known e = true.
Proof. unfold good, known. cbn [fs_of fs_alloc fs_paddr_valid]. destruct (s_st e); cbn; intros G A B; try exact B; try discriminate; destruct G as (_ & _ & G); congruence. Qed.
Lemma scan_dcache s pa f3 n : allgood s -> stlf_scan pa f3 (older s n) = ToDcache -> forall k, k < n -> known (ent s k) = true /\ check_stlf pa f3 (s_pa (ent s k)) (s_f3 (ent s k)) = Disjoint.
Proof.
  intros G. induction n as [|n IH]; intros Sc k Kn; [lia|]. rewrite older_S in Sc. cbn [stlf_scan] in Sc. destruct (fs_alloc (fs_of (ent s n))) eqn:E1; [discriminate|]. destruct (fs_paddr_valid (fs_of (ent s n))) eqn:E2; [|discriminate]. cbn [negb] in Sc.
  change (fs_paddr (fs_of (ent s n))) with (s_pa (ent s n)) in Sc. change (fs_func3 (fs_of (ent s n))) with (s_f3 (ent s n)) in Sc.
  destruct (check_stlf pa f3 (s_pa (ent s n)) (s_f3 (ent s n))) eqn:C; [|destruct (negb (fs_data_valid (fs_of (ent s n)))); discriminate|discriminate].
  destruct (Nat.eq_dec k n) as [->|N]; [split; [apply seen_known; auto; apply G|exact C]|apply IH; [exact Sc|lia]].
Qed.
Lemma scan_fwd s pa f3 v n : allgood s -> stlf_scan pa f3 (older s n) = Forward v -> exists k, k < n /\ known (ent s k) = true /\ s_dv (ent s k) = true /\
  check_stlf pa f3 (s_pa (ent s k)) (s_f3 (ent s k)) = Overlap /\ v = extract_data (s_data (ent s k)) (w32 (pa - s_pa (ent s k))) f3 /\
  forall k', k < k' < n -> known (ent s k') = true /\ check_stlf pa f3 (s_pa (ent s k')) (s_f3 (ent s k')) = Disjoint.
Proof.
  intros G. induction n as [|n IH]; intros Sc; [discriminate|]. rewrite older_S in Sc. cbn [stlf_scan] in Sc. destruct (fs_alloc (fs_of (ent s n))) eqn:E1; [discriminate|]. destruct (fs_paddr_valid (fs_of (ent s n))) eqn:E2; [|discriminate]. cbn [negb] in Sc.
  change (fs_paddr (fs_of (ent s n))) with (s_pa (ent s n)) in Sc. change (fs_func3 (fs_of (ent s n))) with (s_f3 (ent s n)) in Sc. change (fs_data_valid (fs_of (ent s n))) with (s_dv (ent s n)) in Sc. change (fs_data (fs_of (ent s n))) with (s_data (ent s n)) in Sc.
  assert (KN : known (ent s n) = true) by (apply seen_known; auto; apply G).
  destruct (check_stlf pa f3 (s_pa (ent s n)) (s_f3 (ent s n))) eqn:C; try discriminate.
  - destruct (IH Sc) as (k & A & B & D & E & F & H). exists k. split; [lia|]. do 4 (split; [assumption|]). intros k' X. destruct (Nat.eq_dec k' n) as [->|N]; [split; assumption|apply H; lia].
  - destruct (s_dv (ent s n)) eqn:D; [|discriminate]. cbn [negb] in Sc. injection Sc as <-. exists n. split; [lia|]. split; [exact KN|]. split; [exact D|]. split; [exact C|]. split; [reflexivity|]. intros k' X. lia.
Qed.

(** *** The environment
    [pos j]: the number of stores before the load in entry [j], over the whole
    run ([np]: for the loads executed in this cycle). *)
Definition asks (i : lin) (j : nat) : bool := existsb (fun r => lr_idx r =? j) (i_ldr i).
Definition pos1 (i : lin) (np pos : nat -> nat) (j : nat) : nat := if asks i j then np j else pos j.
Record oenv (W : Z -> Z) (g : gs) (cur : lsu) (pend : list dlreq) (pos : nat -> nat) (i : lin) (n : nat) (np : nat -> nat) : Prop := {
  oe_once : once (st cur) i;
  (* dispatch gave the load the place of the next store; commit is in order *)
  oe_req : forall r, In r (i_ldr i) -> let p := np (lr_idx r) in g_b g + scc (st cur) <= p <= g_b g + sn (st cur) /\ (i_flush i = false -> g_b g + scc (st cur) + n <= p) /\ lr_si r = p mod STQ_SIZE /\ lr_sf r = Nat.odd (p / STQ_SIZE);
  oe_com : i_flush i = false -> forall j, j < LDQ_SIZE -> live (lq (ld cur) j) = true -> g_b g + scc (st cur) + n <= pos j;
  (* a store before a load depends on no branch the load does not depend on *)
  oe_brm : i_mispred i = true -> forall j, j < LDQ_SIZE -> live (lq (ld cur) j) = true \/ asks i j = true -> hits (l_brm (lq (ld cur) j)) (i_brm i) = false ->
    forall k, g_b g + k < pos1 i np pos j -> hits (s_brm (ent (st cur) k)) (i_brm i) = false;
  (* the data cache answers with the memory made by the stores it acknowledged and some of those it is working on *)
  oe_mem : forall m r q, nth_error (i_dl i) m = Some r -> nth_error pend m = Some q -> dl_rep r = RHit ->
    exists X, (forall x, In x X -> exists k, g_pend g k = Some x) /\ dl_data r = fold_left perform (g_log g ++ X) W (q_addr q / 4)%Z;
  (* no store conditional, uncached store or suppressed store is forwarded from: see C22 *)
  oe_plain : forall j k, let e := ent (st (checkpt cur i)) k in let l := lq (ld (checkpt cur i)) j in
    j < LDQ_SIZE -> chk l = true -> g_b g + k < pos1 i np pos j -> known e = true -> check_stlf (l_pa l) (l_f3 l) (s_pa e) (s_f3 e) = Overlap -> s_lrsc e = false /\ s_mmio e = false /\ s_sup e = false }.

Inductive vstep (W : Z -> Z) (l : lsu) (g : gs) (pend : list dlreq) (pos : nat -> nat) (i : lin) (l' : lsu) (g' : gs) (pend' : list dlreq) (pos' : nat -> nat) : Prop :=
| Vstep n np r : senv (g_b g) (st l) i n -> lenv l pend i -> oenv W g l pend pos i n np ->
    l' = fst (lsu_cycle l i) -> r + sn (st l') = length (squash i (scc (st l) + taken (st l) n) (g_ord g ++ map galloc (i_sa i))) ->
    g' = gstep (st l) i n (snd (lsu_cycle l i)) g r -> pend' = o_dl (snd (lsu_cycle l i)) -> pos' = pos1 i np pos ->
    vstep W l g pend pos i l' g' pend' pos'.
Inductive vreach (W : Z -> Z) : lsu -> gs -> list dlreq -> (nat -> nat) -> Prop :=
| vreach0 : vreach W lsu0 g0 [] (fun _ => 0)
| vreach1 l g pend pos i l' g' pend' pos' : vreach W l g pend pos -> vstep W l g pend pos i l' g' pend' pos' -> vreach W l' g' pend' pos'.

(** *** The invariant *)
Definition clear (g : gs) (s : stqs) (P : nat) (pa f3 : Z) : Prop := forall p, g_b g <= p < P -> known (sq s (p mod STQ_SIZE)) = true /\ check_stlf pa f3 (s_pa (sq s (p mod STQ_SIZE))) (s_f3 (sq s (p mod STQ_SIZE))) = Disjoint.
Record lv (W : Z -> Z) (g : gs) (s : stqs) (P : nat) (e : ldqe) : Prop := {
  lv_i : l_si e = P mod STQ_SIZE /\ l_sf e = Nat.odd (P / STQ_SIZE); lv_p : g_b g + scc s <= P <= g_b g + sn s;
  lv_c : checked e = true -> clear g s P (l_pa e) (l_f3 e);
  lv_m : at_bus e = true -> l_mmio e = true;
  lv_v : valued e = true -> l_mmio e = false -> src W g s P (l_pa e) (l_f3 e) (l_res e) }.
Record VI (W : Z -> Z) (l : lsu) (g : gs) (pend : list dlreq) (pos : nat -> nat) : Prop := {
  vi_g : GI g (st l); vi_l : Linv l pend; vi_b : forall j, live (lq (ld l) j) = true -> j < LDQ_SIZE; vi_v : forall j, j < LDQ_SIZE -> live (lq (ld l) j) = true -> lv W g (st l) (pos j) (lq (ld l) j) }.

(** *** The phases *)
Lemma chainA cur i : FE (ld (comb_stlf (i_head i) (checkpt cur i))) (ld (fst (lsu_cycle cur i))).
Proof.
  destruct (cycle_after cur i) as (s & u & dsq & dlq & wbs & tl & ts & mm & E & _). cbv zeta in E. rewrite E. cbn [fst ld].
  assert (B : FE (ld (comb_stlf (i_head i) (checkpt cur i))) (ld (before_flush cur i))).
  { unfold before_flush, checkpt. destruct (comb_lsu2exe _ _) as [l1 w]. cbn [fst]. destruct (comb_tlb_in_ldq _ _ _) as [d r]. destruct (comb_tlb_in_stq _ _ _) as [s1 r']. cbv zeta. cbn [ld]. apply alloc_FE. }
  eapply FE_trans; [exact B|]. eapply FE_trans; [apply flush_FE|]. unfold comb_lsu2dcache_ldq. match goal with |- context [issue_loads ?a ?b ?c ?d ?e] => pose proof (issue_FE a b c d e) as X; destruct (issue_loads a b c d e) as [d' out] end. cbn [fst] in *. eapply FE_trans; [exact X|]. now apply FE_lq.
Qed.
Lemma requested_fe rs j e e' : requested rs j e -> fe e e' -> live e' = true -> requested rs j e'.
Proof.
  intros (r & A & B & C & D & E & F & G) X L. destruct (X L) as (X1 & X2 & X3 & X4 & X5 & X6). exists r. do 2 (split; [assumption|]). split; [congruence|]. split; [congruence|].
  split; [|split]; match goal with |- ?t = false => destruct t eqn:T; [|reflexivity] end; [destruct (X4 eq_refl)|destruct (X5 eq_refl)|destruct (X6 eq_refl)]; congruence.
Qed.
Lemma chainB cur i j : live (lq (ld (checkpt cur i)) j) = true -> requested (i_ldr i) j (lq (ld (checkpt cur i)) j) \/ fe (lq (ld (answered cur i)) j) (lq (ld (checkpt cur i)) j).
Proof.
  unfold checkpt. cbv zeta. fold (answered cur i). change (Lsu (comb_dcache2lsu_stq (i_ds i) (i_fill i) (st (comb_mmio_in (i_mmio i) (un cur) (Lsu (comb_stq_commit (i_commit i) (i_flush i) (st cur)) (ld cur) (un cur) (lr cur)))))
    (comb_dcache2lsu_ldq (i_dl i) (i_fill i) (ld (comb_mmio_in (i_mmio i) (un cur) (Lsu (comb_stq_commit (i_commit i) (i_flush i) (st cur)) (ld cur) (un cur) (lr cur)))))
    (un (comb_mmio_in (i_mmio i) (un cur) (Lsu (comb_stq_commit (i_commit i) (i_flush i) (st cur)) (ld cur) (un cur) (lr cur))))
    (lr (comb_mmio_in (i_mmio i) (un cur) (Lsu (comb_stq_commit (i_commit i) (i_flush i) (st cur)) (ld cur) (un cur) (lr cur))))) with (answered cur i).
  pose proof (lsu2exe_FE (lr cur) (answered cur i) j) as F1. set (l3 := fst (comb_lsu2exe (lr cur) (answered cur i))) in *.
  pose proof (handles_FE (i_ldr i) (ld l3) j) as F2. set (d4 := fold_left handle_load_req (i_ldr i) (ld l3)) in *.
  pose proof (tlb_in_FE (i_ml i) d4 (lr l3) j) as F3. destruct (comb_tlb_in_ldq (i_ml i) d4 (lr l3)) as [d5 r5]. cbn [fst] in F3. destruct (comb_tlb_in_stq _ _ _) as [s5 r5']. cbn [ld].
  intros L. destruct F2 as [R|F2]; [left; exact (requested_fe _ _ _ _ R F3 L)|right]. exact (fe_trans _ _ _ F1 (fe_trans _ _ _ F2 F3)).
Qed.
(** What the answers do to a load. *)
Inductive ans (cur : lsu) (pend : list dlreq) (i : lin) (e e' : ldqe) : Prop :=
| an_id : e' = e -> ans cur pend i e e'
| an_hit m r q : nth_error (i_dl i) m = Some r -> nth_error pend m = Some q -> dl_rep r = RHit -> l_st e = LWaitDcacheResp -> q_addr q = l_pa e ->
    e' = set_l_rep RHit (set_l_st LReadyToWb (set_l_res (extract_data (dl_data r) (l_pa e) (l_f3 e)) e)) -> ans cur pend i e e'
| an_rep rp : l_st e = LWaitDcacheResp -> e' = set_l_rep rp (set_l_st LReadyToIssue e) -> ans cur pend i e e'
| an_bus v : l_st e = LWaitMmioResp -> e' = set_l_st LReadyToWb (set_l_res v e) -> ans cur pend i e e'.
Lemma chainC cur pend i d3 is : Linv cur pend -> lenv cur pend i -> Cyc cur pend i (ld (answered cur i)) d3 is -> forall j, ans cur pend i (lq (ld cur) j) (lq (ld (answered cur i)) j).
Proof.
  intros I EV C j. destruct (cy_m _ _ _ _ _ _ C j) as [E|[E|(E & _ & v & _ & E2)]]; [now apply an_id| |now apply (an_bus _ _ _ _ _ v)].
  destruct (LI_where [] (ld cur) j (iv_l _ _ I) (fun x => x)) as [(Q & k & V & X)|X]; [|unfold okb in X; rewrite E in X; discriminate].
  assert (Q = QD) as ->. { destruct (LI_at _ _ _ _ (iv_l _ _ I) V) as (_ & _ & _ & OK). rewrite X in OK. unfold okb in OK. rewrite E in OK. destruct Q; try discriminate. reflexivity. }
  cbn [qof] in V, X. destruct (pi_b _ _ (iv_p _ _ I) k V) as (q & Q1 & Q2); [now rewrite X|]. apply In_nth_error in Q1 as [m M].
  assert (exists r, nth_error (i_dl i) m = Some r) as [r R]. { destruct (nth_error (i_dl i) m) eqn:R; [eauto|]. apply nth_error_None in R. assert (m < length pend) by (apply nth_error_Some; congruence). rewrite <- (map_length dl_id), (ev_dl _ _ _ EV), map_length in R. lia. }
  destruct (cy_2 _ _ _ _ _ _ C m r q R M) as (k' & K1 & K2 & K3 & K4 & K5 & K6). destruct (LI_at [] (ld cur) QD k (iv_l _ _ I) V) as (_ & _ & KL & _). rewrite K2 in Q2. apply rid_inj in Q2; [|exact K1|exact KL]. subst k'. rewrite X in *.
  unfold taken_by in K6. destruct (dl_rep r) eqn:RP; try (eapply an_rep; [exact E|exact K6]). now apply (an_hit _ _ _ _ _ m r q).
Qed.

(** A load that outlives the cycle still has all its older stores. *)
Lemma filter_first {A} (f : A -> bool) d P : forall l, P <= length l -> (forall k, k < P -> f (nth k l d) = true) -> P <= length (filter f l).
Proof.
  induction P as [|P IH]; intros l L H; [lia|]. destruct l as [|a l]; [cbn in L; lia|]. cbn [filter]. rewrite (H 0 ltac:(lia) : f a = true). cbn [length]. apply le_n_S. apply IH; [cbn in L; lia|]. intros k Kk. exact (H (S k) ltac:(lia)).
Qed.
Lemma live_busy l j : j < LDQ_SIZE -> live (lq (ld l) j) = true -> busy l j.
Proof. intros J L. split; [exact J|]. intros X. unfold live in L. rewrite X in L. discriminate. Qed.
Lemma flush_none cur i j : i_flush i = true -> j < LDQ_SIZE -> live (lq (ld (fst (lsu_cycle cur i))) j) = false.
Proof.
  intros F J. destruct (live _) eqn:L; [exfalso|reflexivity]. destruct (cycle_after cur i) as (s & u & dsq & dlq & wbs & tl & ts & mm & E & _). cbv zeta in E. rewrite E in L. cbn [fst ld] in L.
  set (lf := comb_flush i cur (before_flush cur i)) in *. assert (X : FE (ld lf) (fst (comb_lsu2dcache_ldq (ld cur) (ld lf)))).
  { unfold comb_lsu2dcache_ldq. match goal with |- context [issue_loads ?a ?b ?c ?d ?e] => pose proof (issue_FE a b c d e) as X; destruct (issue_loads a b c d e) as [d' out] end. cbn [fst] in *. eapply FE_trans; [exact X|]. now apply FE_lq. }
  destruct (X j L) as (L2 & _). destruct (c70_loads i cur (before_flush cur i) j) as [A _]. cbv zeta in A. apply proj1 in A. specialize (A (live_busy lf j J L2)). destruct A as (_ & A & _). congruence.
Qed.
Lemma chainA2 cur i : FE (ld (before_flush cur i)) (ld (fst (lsu_cycle cur i))).
Proof.
  destruct (cycle_after cur i) as (s & u & dsq & dlq & wbs & tl & ts & mm & E & _). cbv zeta in E. rewrite E. cbn [fst ld].
  eapply FE_trans; [apply flush_FE|]. unfold comb_lsu2dcache_ldq. match goal with |- context [issue_loads ?a ?b ?c ?d ?e] => pose proof (issue_FE a b c d e) as X; destruct (issue_loads a b c d e) as [d' out] end. cbn [fst] in *. eapply FE_trans; [exact X|]. now apply FE_lq.
Qed.
Lemma chk_live e : chk e = true -> live e = true. Proof. unfold chk, live. now destruct (l_st e). Qed.
Lemma ck_live s e e' : ck s e e' -> live e' = true -> live e = true.
Proof. intros [->|A B C|A B C D|v A B C D E|A B C|A B C D] L; try assumption; try now apply chk_live. all: unfold live; rewrite A; reflexivity. Qed.
Lemma ans_live cur pend i e e' : ans cur pend i e e' -> live e' = true -> live e = true.
Proof. intros [->|m r q A B C D E F|rp A B|v A B] L; [exact L| | |]; unfold live; [now rewrite D|now rewrite A|now rewrite A]. Qed.
Lemma asks_in i j : asks i j = true <-> exists r, In r (i_ldr i) /\ lr_idx r = j.
Proof. unfold asks. rewrite existsb_exists. split; intros (r & A & B); exists r; split; auto; now apply Nat.eqb_eq. Qed.
(** Where a load of the next cycle comes from. *)
Lemma back cur pend i d3 is j : Linv cur pend -> lenv cur pend i -> Cyc cur pend i (ld (answered cur i)) d3 is -> live (lq (ld (fst (lsu_cycle cur i))) j) = true ->
  live (lq (ld cur) j) = true \/ asks i j = true.
Proof.
  intros I EV C L. destruct (chainA cur i j L) as (L6 & _). pose proof (ck_live _ _ _ (stlf_CK _ _ j) L6) as L5. destruct (chainB cur i j L5) as [(r & R & X & _)|F]; [right; apply asks_in; eauto|left].
  destruct (F L5) as (L2 & _). exact (ans_live _ _ _ _ _ (chainC _ _ _ _ _ I EV C j) L2).
Qed.
Lemma same_brm cur pend i d3 is j : Linv cur pend -> lenv cur pend i -> Cyc cur pend i (ld (answered cur i)) d3 is -> live (lq (ld (fst (lsu_cycle cur i))) j) = true ->
  l_brm (lq (ld (before_flush cur i)) j) = l_brm (lq (ld cur) j).
Proof.
  intros I EV C L. assert (NE : l_st (lq (ld cur) j) <> LEmpty).
  { destruct (back _ _ _ _ _ _ I EV C L) as [X|X]; [intros Y; unfold live in X; rewrite Y in X; discriminate|]. apply asks_in in X as (r & R & <-). destruct (proj2 (ev_lr _ _ _ EV) r R) as (_ & X & _). congruence. }
  destruct (cy_k _ _ _ _ _ _ C j NE) as (K1 & _ & _ & K2 & _). destruct (chainA2 cur i j L) as (LB & _).
  destruct (cy_o _ _ _ _ _ _ C) as (_ & O1 & O2). destruct (in_dec Nat.eq_dec j is) as [X|X].
  - exfalso. destruct (O1 j X) as (_ & E). assert (E3 : l_st (lq d3 j) = LEmpty) by now rewrite E. destruct (in_dec Nat.eq_dec j (map la_idx (i_la i))) as [Y|Y].
    + apply in_map_iff in Y as (r & <- & R). rewrite (cy_n _ _ _ _ _ _ C r R) in LB. discriminate.
    + pose proof (cy_e _ _ _ _ _ _ C j E3 Y) as Z0. unfold live in LB. rewrite Z0 in LB. discriminate.
  - rewrite <- (O2 j X) in K1, K2. destruct (cy_b _ _ _ _ _ _ C j K1) as (_ & _ & _ & K3 & _). congruence.
Qed.
Lemma survive W g cur pend pos i n np d3 is j P : GI g (st cur) -> Linv cur pend -> lenv cur pend i -> Cyc cur pend i (ld (answered cur i)) d3 is -> oenv W g cur pend pos i n np ->
  j < LDQ_SIZE -> live (lq (ld (fst (lsu_cycle cur i))) j) = true -> P = pos1 i np pos j -> P <= g_b g + sn (st cur) ->
  P <= g_b g + length (squash i (scc (st cur) + taken (st cur) n) (g_ord g ++ map galloc (i_sa i))).
Proof.
  intros G I EV C OE J L EP LE. assert (F : i_flush i = false) by (destruct (i_flush i) eqn:F; [rewrite (flush_none cur i j F J) in L; discriminate|reflexivity]).
  unfold squash. rewrite F. assert (ML : forall c (x : list gst), length (if nz c then map (clear_g c) x else x) = length x) by (intros c x; destruct (nz c); [apply map_length|reflexivity]). rewrite ML.
  rewrite (gi_ord _ _ G). destruct (i_mispred i) eqn:M; [|rewrite app_length, order_len; lia].
  enough (P - g_b g <= length (filter (spared (i_brm i)) (order (st cur) ++ map galloc (i_sa i)))) by lia.
  apply (filter_first _ (key stqe0)); [rewrite app_length, order_len; lia|]. intros k Kk. rewrite app_nth1 by (rewrite order_len; lia). rewrite order_nth by lia. unfold spared. cbn [key g_brm].
  rewrite (oe_brm _ _ _ _ _ _ _ _ OE M j J (back _ _ _ _ _ _ I EV C L)); [reflexivity| |lia].
  rewrite <- (same_brm _ _ _ _ _ _ I EV C L). destruct (c70_none_left cur i j M (live_busy _ _ J L)) as (_ & X & _). destruct (hits _ _) eqn:H; [|reflexivity]. exfalso. apply X. now apply hits_meet.
Qed.

(** *** Stores carried over a cycle *)
Record Car (fl : bool) (g : gs) (s : stqs) (g' : gs) (s' : stqs) : Prop := {
  ca_e : forall p, g_b g <= p < g_b g + sn s -> known (sq s (p mod STQ_SIZE)) = true -> stabe fl (sq s (p mod STQ_SIZE)) (sq s' (p mod STQ_SIZE));
  ca_n : forall p, g_b g <= p < length (g_hist g') -> nth p (g_hist g') h0 = hof (sq s' (p mod STQ_SIZE));
  ca_h : exists h2, g_hist g' = g_hist g ++ h2; ca_b : g_b g <= g_b g' /\ g_b g <= length (g_hist g);
  ca_c : forall p, g_b g <= p < length (g_hist g) -> com (s_st (sq s (p mod STQ_SIZE))) = true }.
Lemma stabe_com fl e e' : stabe fl e e' -> com (s_st e) = true -> stabe false e e'.
Proof. intros [] C. constructor; auto. Qed.
Lemma trk_step fl g s g' s' p e : Car fl g s g' s' -> trk g s p e -> p < g_b g' + sn s' -> (fl = true -> p < length (g_hist g)) -> trk g' s' p e.
Proof.
  intros [E1 E2 [h2 EH] [EB EL] CM] (T1 & e' & T2 & T3 & T4) LT FL. split; [exact LT|]. destruct (Nat.ltb_spec p (g_b g)) as [B|B].
  - exists e'. split; [exact T2|]. split; [lia|]. intros _. rewrite EH, app_nth1 by lia. apply T4. lia.
  - specialize (T3 B). subst e'. exists (sq s' (p mod STQ_SIZE)). split; [|split; [reflexivity|intros Y; apply E2; lia]].
    pose proof (E1 p ltac:(lia) (sb_known _ _ _ T2)) as X. apply (stabe_trans _ _ _ _ T2). destruct fl; [|exact X]. apply (stabe_com true); [exact X|]. apply CM. specialize (FL eq_refl). lia.
Qed.
Lemma src_step W fl g s g' s' P pa f3 v : Car fl g s g' s' -> src W g s P pa f3 v -> P <= g_b g' + sn s' -> (fl = true -> P <= length (g_hist g)) -> src W g' s' P pa f3 v.
Proof.
  intros CA X LE FL. assert (TS : forall p e, p < P -> trk g s p e -> trk g' s' p e). { intros p e L T. apply (trk_step fl g s); [exact CA|exact T|lia|intros F; specialize (FL F); lia]. }
  destruct X as [p0 e0 L0 T0 DV LR MM SU OV EV DJ|g1 s1 X h2 G1 EH LH PX EV DJ].
  - apply (src_fwd _ _ _ _ _ _ _ p0 e0); auto. intros p Pp. destruct (DJ p Pp) as (e & T & D). exists e. split; [apply TS; [lia|exact T]|exact D].
  - destruct (ca_h _ _ _ _ _ CA) as [h3 E3]. apply (src_mem _ _ _ _ _ _ _ g1 s1 X (h2 ++ h3)); auto; [rewrite E3, EH, app_assoc; reflexivity|]. intros p Pp. destruct (DJ p Pp) as (e & T & D). exists e. split; [apply TS; [lia|exact T]|exact D].
Qed.
(** The answer of the cache and of earlier cycles. *)
Lemma trk_now g s p : GI g s -> g_b g <= p < g_b g + sn s -> known (sq s (p mod STQ_SIZE)) = true -> trk g s p (sq s (p mod STQ_SIZE)).
Proof.
  intros [V _ (acc & H & _)] B Kn. split; [lia|]. exists (sq s (p mod STQ_SIZE)). split; [now apply stabe_refl|]. split; [reflexivity|]. intros L. rewrite (hi_len _ _ _ _ _ H) in L. pose proof (hi_at _ _ _ _ _ H (p - g_b g) ltac:(lia)) as X.
  replace (g_b g + (p - g_b g)) with p in X by lia. rewrite X. f_equal. unfold ent. rewrite (v_sh _ _ V). f_equal. unfold STQ_SIZE. lia.
Qed.
Lemma answered_src W l g pend pos i n np d3 is j : VI W l g pend pos -> lenv l pend i -> oenv W g l pend pos i n np -> Cyc l pend i (ld (answered l i)) d3 is -> j < LDQ_SIZE ->
  let e := lq (ld (answered l i)) j in valued e = true -> l_mmio e = false -> live (lq (ld l) j) = true /\ src W g (st l) (pos j) (l_pa e) (l_f3 e) (l_res e).
Proof.
  intros [G I _ V] EV OE C J. cbv zeta. intros VA NM. pose proof (chainC _ _ _ _ _ I EV C j) as A.
  assert (L2 : live (lq (ld (answered l i)) j) = true) by (revert VA; unfold valued, live; now destruct (l_st _)). pose proof (ans_live _ _ _ _ _ A L2) as L. split; [exact L|]. destruct (V j J L) as [V1 V2 V3 V4 V5].
  destruct A as [E|m r q A1 A2 A3 A4 A5 E|rp A1 E|v A1 E]; rewrite E in *.
  - now apply V5.
  - cbn [set_l_rep set_l_st set_l_res l_pa l_f3 l_res l_mmio] in *. destruct (oe_mem _ _ _ _ _ _ _ _ OE m r q A1 A2 A3) as (X & X1 & X2). rewrite A5 in X2. destruct G as [GV GO (acc & H & LG)].
    apply (src_mem _ _ _ _ _ _ _ g (st l) X []); [constructor; eauto|now rewrite app_nil_r|rewrite (hi_len _ _ _ _ _ H); lia|exact X1|now rewrite X2|].
    intros p Pp. assert (CH : checked (lq (ld l) j) = true) by (unfold checked; now rewrite A4). destruct (V3 CH p Pp) as [D1 D2]. exists (sq (st l) (p mod STQ_SIZE)). split; [|exact D2]. apply trk_now; [constructor; eauto|lia|exact D1].
  - discriminate VA.
  - cbn [set_l_st set_l_res l_mmio] in NM. assert (B : at_bus (lq (ld l) j) = true) by (unfold at_bus; now rewrite A1). rewrite (V4 B) in NM. discriminate.
Qed.

Lemma ent_pos b s k : SInv b s -> ent s k = sq s ((b + k) mod STQ_SIZE).
Proof. intros V. unfold ent. rewrite (v_sh _ _ V). f_equal. unfold STQ_SIZE. lia. Qed.
Lemma ent_at b s p : SInv b s -> b <= p -> sq s (p mod STQ_SIZE) = ent s (p - b).
Proof. intros V L. rewrite (ent_pos b s _ V). do 2 f_equal. lia. Qed.
(** The store side of a step. *)
Lemma step_stores W l g pend pos i n np l' r : GI g (st l) -> senv (g_b g) (st l) i n -> oenv W g l pend pos i n np -> l' = fst (lsu_cycle l i) ->
  r + sn (st l') = length (squash i (scc (st l) + taken (st l) n) (g_ord g ++ map galloc (i_sa i))) -> let g' := gstep (st l) i n (snd (lsu_cycle l i)) g r in let s7 := st (checkpt l i) in
  GI g' (st l') /\ Car (i_flush i) g (st l) g' (st l') /\ length (g_hist g') = g_b g + scc (st l) + taken (st l) n /\ taken (st l) n <= n /\ g_b g' = g_b g + r /\ g_b g' + scc (st l') = length (g_hist g') /\
  SInv (g_b g) s7 /\ sn s7 = sn (st l) /\
  (forall k, k < sn (st l) -> known (ent s7 k) = true -> stabe (i_flush i) (ent s7 k) (sq (st l') ((g_b g + k) mod STQ_SIZE))).
Proof.
  intros G SE OE EL ER. cbv zeta. pose proof (stores g l i n G SE (oe_once _ _ _ _ _ _ _ _ OE)) as S0. destruct (lsu_cycle l i) as [l1 o] eqn:LC. cbn [fst snd] in *. subst l1.
  destruct S0 as (r0 & (A1 & A2 & A3 & A4) & (B1 & B2 & B3 & B4 & B5) & C1 & C2). assert (r0 = r) by lia. subst r0. cbv zeta in *.
  destruct G as [V GO (acc & H & LG)]. pose proof (hi_len _ _ _ _ _ H) as HL.
  assert (LH : length (g_hist (gstep (st l) i n o g r)) = g_b g + scc (st l) + taken (st l) n) by (cbn [gstep g_hist]; unfold newly; rewrite app_length, map_length, seq_length; lia).
  split; [exact A1|]. split; [|split; [exact LH|split; [apply lead_le|split; [reflexivity|split; [rewrite LH; cbn [gstep g_b]; lia|split; [exact B1|split; [exact B2|exact C1]]]]]]].
  constructor.
  - intros p Pp Kn. pose proof (B5 _ Kn) as X. apply (stabe_trans _ _ _ _ X). rewrite (ent_at _ _ p B1) by lia. replace p with (g_b g + (p - g_b g)) at 2 by lia. apply C1; [lia|]. rewrite <- (ent_at _ _ p B1) by lia. exact (sb_known _ _ _ X).
  - intros p Pp. rewrite LH in Pp. pose proof (C2 (p - g_b g) ltac:(lia)) as X. replace (g_b g + (p - g_b g)) with p in X by lia. exact X.
  - exists (newly (st l) i n). reflexivity.
  - cbn [gstep g_b]. lia.
  - intros p Pp. rewrite HL in Pp. rewrite (ent_at _ _ p V) by lia. destruct (v_C _ _ V) as (V1 & V2 & V3). rewrite V3 by lia. apply Nat.ltb_lt. lia.
Qed.
Theorem vstep_VI W l g pend pos i l' g' pend' pos' : VI W l g pend pos -> vstep W l g pend pos i l' g' pend' pos' -> VI W l' g' pend' pos'.
Proof.
  intros VV [n np r SE EV OE EL ER EG EP EO]. pose proof VV as [G I VB V]. destruct (cyc l pend i I EV) as (d3 & is & C).
  destruct (step_stores W l g pend pos i n np l' r G SE OE EL ER) as (G' & CA & LH & TN & BR & BS & V7 & SN7 & AF). rewrite <- EG in *. subst pend'. constructor; [exact G'|subst l'; exact (cy_i _ _ _ _ _ _ C)| |].
  { intros j L. rewrite EL in L. destruct (back _ _ _ _ _ _ I EV C L) as [X|X]; [now apply VB|]. apply asks_in in X as (q & Q & <-). destruct (proj2 (ev_lr _ _ _ EV) q Q) as (X & _). exact X. }
  intros j J L. pose proof L as L0. rewrite EL in L0. assert (F : i_flush i = false) by (destruct (i_flush i) eqn:F; [rewrite (flush_none l i j F J) in L0; discriminate|reflexivity]). rewrite F in *.
  destruct (v_C _ _ (gi_inv _ _ G)) as (SC1 & SC2 & _). unfold STQ_SIZE in SC2.
  (* the place *)
  assert (PB : g_b g + scc (st l) + n <= pos' j <= g_b g + sn (st l)).
  { subst pos'. unfold pos1. destruct (asks i j) eqn:AS; [apply asks_in in AS as (q & Q & <-); destruct (oe_req _ _ _ _ _ _ _ _ OE q Q) as (Y1 & Y2 & _); specialize (Y2 F); lia|]. destruct (back _ _ _ _ _ _ I EV C L0) as [X|X]; [|congruence]. pose proof (oe_com _ _ _ _ _ _ _ _ OE F j J X). pose proof (lv_p _ _ _ _ _ (V j J X)). lia. }
  assert (PU : pos' j <= g_b g' + sn (st l')). { pose proof (survive W g l pend pos i n np d3 is j (pos' j) G I EV C OE J L0 ltac:(now subst pos') ltac:(lia)) as X. rewrite <- ER in X. rewrite BR. lia. }
  (* the load right before and after the comparison *)
  destruct (chainA l i j L0) as (L6 & A1 & A2 & A3 & A4 & A5). rewrite <- EL in *. set (e' := lq (ld l') j) in *. set (e6 := lq (ld (comb_stlf (i_head i) (checkpt l i))) j) in *.
  pose proof (stlf_CK (i_head i) (checkpt l i) j) as CK0. fold e6 in CK0. pose proof (ck_live _ _ _ CK0 L6) as L5. set (e5 := lq (ld (checkpt l i)) j) in *. set (s7 := st (checkpt l i)) in *.
  assert (IX : l_si e5 = pos' j mod STQ_SIZE /\ l_sf e5 = Nat.odd (pos' j / STQ_SIZE)).
  { subst pos'. unfold pos1. destruct (chainB l i j L5) as [(q & Q & QJ & Q1 & Q2 & _)|FE0].
    - assert (AS : asks i j = true) by (apply asks_in; eauto). rewrite AS. destruct (oe_req _ _ _ _ _ _ _ _ OE q Q) as (_ & _ & X & Y). rewrite QJ in X, Y. fold e5 in Q1, Q2. split; congruence.
    - destruct (FE0 L5) as (L2 & X1 & X2 & _). fold e5 in X1, X2. pose proof (chainC _ _ _ _ _ I EV C j) as AN. pose proof (ans_live _ _ _ _ _ AN L2) as LC. destruct (lv_i _ _ _ _ _ (V j J LC)) as [Y1 Y2].
      assert (AS : asks i j = false). { destruct (asks i j) eqn:AS; [|reflexivity]. exfalso. apply asks_in in AS as (q & Q & <-). destruct (proj2 (ev_lr _ _ _ EV) q Q) as (_ & Z0 & _). unfold live in LC. rewrite Z0 in LC. discriminate. }
      rewrite AS, X1, X2. destruct AN as [E|m r0 q B1 B2 B3 B4 B5 E|rp B1 E|v B1 E]; rewrite E; cbn [set_l_rep set_l_st set_l_res l_si l_sf]; split; assumption. }
  (* loads of earlier cycles *)
  assert (OLD : checked e5 = true \/ valued e5 = true \/ at_bus e5 = true -> pos' j = pos j /\ fe (lq (ld (answered l i)) j) e5).
  { intros X. destruct (chainB l i j L5) as [(q & _ & _ & _ & _ & Q1 & Q2 & Q3)|FE0]; [exfalso; fold e5 in Q1, Q2, Q3; destruct X as [X|[X|X]]; congruence|]. split; [|exact FE0].
    destruct (FE0 L5) as (L2 & _). pose proof (ans_live _ _ _ _ _ (chainC _ _ _ _ _ I EV C j) L2) as LC. subst pos'. unfold pos1. destruct (asks i j) eqn:AS; [|reflexivity]. exfalso. apply asks_in in AS as (q & Q & <-). destruct (proj2 (ev_lr _ _ _ EV) q Q) as (_ & Z0 & _). unfold live in LC. rewrite Z0 in LC. discriminate. }
  assert (OC : checked e5 = true -> clear g' (st l') (pos' j) (l_pa e5) (l_f3 e5)).
  { intros X. destruct (OLD (or_introl X)) as [EPJ FE0]. destruct (FE0 L5) as (L2 & _ & _ & X1 & _). destruct (X1 X) as (C2 & -> & ->). pose proof (chainC _ _ _ _ _ I EV C j) as AN. pose proof (ans_live _ _ _ _ _ AN L2) as LC. destruct (V j J LC) as [_ _ Y _ _].
    assert (Z0 : checked (lq (ld l) j) = true /\ l_pa (lq (ld (answered l i)) j) = l_pa (lq (ld l) j) /\ l_f3 (lq (ld (answered l i)) j) = l_f3 (lq (ld l) j)).
    { destruct AN as [E|m r0 q B1 B2 B3 B4 B5 E|rp B1 E|v B1 E]; rewrite E in *; [auto|split; [unfold checked; now rewrite B4|split; reflexivity]|split; [unfold checked; now rewrite B1|split; reflexivity]|discriminate C2]. }
    destruct Z0 as (Z1 & -> & ->). intros p Pp. rewrite EPJ in *. destruct (Y Z1 p ltac:(lia)) as [D1 D2]. pose proof (ca_e _ _ _ _ _ CA p ltac:(lia) D1) as ST. split; [exact (sb_known _ _ _ ST)|]. now rewrite (sb_pa _ _ _ ST), (sb_f3 _ _ _ ST). }
  assert (OV : valued e5 = true -> l_mmio e5 = false -> src W g' (st l') (pos' j) (l_pa e5) (l_f3 e5) (l_res e5)).
  { intros X NM. destruct (OLD (or_intror (or_introl X))) as [EPJ FE0]. destruct (FE0 L5) as (L2 & _ & _ & _ & X1 & _). destruct (X1 X) as (C2 & E1 & E2 & E3 & E4). rewrite E1, E2, E3. rewrite E4 in NM.
    destruct (answered_src W l g pend pos i n np d3 is j VV EV OE C J C2 NM) as [_ SR]. rewrite EPJ in *. apply (src_step W false g (st l)); [exact CA|exact SR|exact PU|discriminate]. }
  assert (OB : at_bus e5 = true -> l_mmio e5 = true).
  { intros X. destruct (OLD (or_intror (or_intror X))) as [_ FE0]. destruct (FE0 L5) as (L2 & _ & _ & _ & _ & X1). destruct (X1 X) as (C2 & ->). pose proof (chainC _ _ _ _ _ I EV C j) as AN. pose proof (ans_live _ _ _ _ _ AN L2) as LC. destruct (V j J LC) as [_ _ _ Y _].
    destruct AN as [E|m r0 q B1 B2 B3 B4 B5 E|rp B1 E|v B1 E]; rewrite E in *; [now apply Y|discriminate C2|discriminate C2|discriminate C2]. }
  (* the comparison *)
  assert (VD : forall o, verdict s7 e5 o -> stlf_scan (l_pa e5) (l_f3 e5) (older s7 (pos' j - g_b g)) = o).
  { intros o (_ & m & D1 & D2). destruct IX as [IX1 IX2]. rewrite IX1, IX2, (v_sh _ _ V7), (v_shf _ _ V7), SN7, distance_at in D1 by lia. injection D1 as <-. exact D2. }
  assert (S6 : l_si e6 = l_si e5 /\ l_sf e6 = l_sf e5 /\ (checked e6 = true -> clear g' (st l') (pos' j) (l_pa e6) (l_f3 e6)) /\ (valued e6 = true -> l_mmio e6 = false -> src W g' (st l') (pos' j) (l_pa e6) (l_f3 e6) (l_res e6)) /\ (at_bus e6 = true -> l_mmio e6 = true)).
  { destruct CK0 as [E|K1 K2 K3|K1 K2 K3 K4|v K1 K2 K3 K4 K5|K1 K2 K3|K1 K2 K3 K4].
    - rewrite E. auto.
    - destruct K3 as (Q1 & Q2 & Q3 & Q4 & Q5 & Q6). split; [exact Q3|]. split; [exact Q4|]. assert (ST : l_st e6 = LCheckStlf \/ l_st e6 = LCheckStlfRetry \/ l_st e6 = LWaitMmioResp /\ l_mmio e5 = true) by (destruct K2 as [K2|K2]; [unfold chk in K2; destruct (l_st e6); auto; discriminate|auto]).
      unfold checked, valued, at_bus. destruct ST as [->|[->|[-> Y]]]; (split; [discriminate|split; [discriminate|]]); try discriminate. intros _. congruence.
    - destruct K4 as (Q1 & Q2 & Q3 & Q4 & Q5 & Q6). split; [exact Q3|]. split; [exact Q4|]. split; [|split; [unfold valued; destruct K3 as [-> | ->]; discriminate|unfold at_bus; destruct K3 as [-> | ->]; discriminate]].
      intros _. rewrite Q1, Q2. pose proof (scan_dcache s7 _ _ _ (v_good _ _ V7) (VD _ K2)) as SD. intros p Pp. destruct (SD (p - g_b g) ltac:(lia)) as [D1 D2]. pose proof (AF (p - g_b g) ltac:(lia) D1) as ST. replace (g_b g + (p - g_b g)) with p in ST by lia.
      split; [exact (sb_known _ _ _ ST)|]. now rewrite (sb_pa _ _ _ ST), (sb_f3 _ _ _ ST).
    - destruct K5 as (Q1 & Q2 & Q3 & Q4 & Q5 & Q6). split; [exact Q3|]. split; [exact Q4|]. split; [unfold checked; destruct K3 as [-> | ->]; discriminate|]. split; [|unfold at_bus; destruct K3 as [-> | ->]; discriminate].
      intros _ NM. rewrite Q1, Q2, K4. destruct (scan_fwd s7 _ _ _ _ (v_good _ _ V7) (VD _ K2)) as (k & X1 & X2 & X3 & X4 & X5 & X6).
      destruct (oe_plain _ _ _ _ _ _ _ _ OE j k J K1) as (Y1 & Y2 & Y3); [subst pos'; lia|exact X2|exact X4|].
      assert (TK : forall m, m < pos' j - g_b g -> known (ent s7 m) = true -> trk g' (st l') (g_b g + m) (ent s7 m)).
      { intros m M1 M2. split; [lia|]. pose proof (AF m ltac:(lia) M2) as ST. eexists. split; [exact ST|]. split; [reflexivity|]. intros ML. apply (ca_n _ _ _ _ _ CA). lia. }
      apply (src_fwd _ _ _ _ _ _ _ (g_b g + k) (ent s7 k)); auto; [lia|]. intros p Pp. destruct (X6 (p - g_b g) ltac:(lia)) as [D1 D2]. exists (ent s7 (p - g_b g)). split; [|exact D2]. replace p with (g_b g + (p - g_b g)) at 1 by lia. apply TK; [lia|exact D1].
    - destruct K3 as (Q1 & Q2 & Q3 & Q4 & Q5 & Q6). split; [exact Q3|]. split; [exact Q4|]. split; [|split; [unfold valued; rewrite K2; discriminate|unfold at_bus; rewrite K2; discriminate]]. intros _. rewrite Q1, Q2. apply OC. unfold checked. now rewrite K1.
    - destruct K4 as (Q1 & Q2 & Q3 & Q4 & Q5 & Q6). split; [exact Q3|]. split; [exact Q4|]. split; [unfold checked; rewrite K2; discriminate|]. split; [|unfold at_bus; rewrite K2; discriminate].
      intros X NM. rewrite Q1, Q2, K3. apply OV; [|congruence]. unfold valued in *. rewrite K2 in X. rewrite K1. congruence. }
  destruct S6 as (S1 & S2 & S3 & S4 & S5). constructor.
  - destruct IX. split; congruence.
  - rewrite BS, LH. lia.
  - intros X. destruct (A3 X) as (X1 & -> & ->). now apply S3.
  - intros X. destruct (A5 X) as (X1 & ->). now apply S5.
  - intros X. destruct (A4 X) as (X1 & -> & -> & -> & ->). now apply S4.
Qed.
Lemma VI0 W : VI W lsu0 g0 [] (fun _ => 0).
Proof. constructor; [exact GI0|exact Linv0|intros j L; discriminate|]. intros j J L. discriminate. Qed.
Theorem vreach_VI W l g pend pos : vreach W l g pend pos -> VI W l g pend pos.
Proof. induction 1 as [|l g pend pos i l' g' pend' pos' R IH ST]; [apply VI0|]. exact (vstep_VI _ _ _ _ _ _ _ _ _ _ IH ST). Qed.
(** Every load under comparison knows its place. *)
Lemma place W l g pend pos i n np j : VI W l g pend pos -> senv (g_b g) (st l) i n -> lenv l pend i -> oenv W g l pend pos i n np -> j < LDQ_SIZE -> let e := lq (ld (checkpt l i)) j in live e = true ->
  let P := pos1 i np pos j in l_si e = P mod STQ_SIZE /\ l_sf e = Nat.odd (P / STQ_SIZE) /\ g_b g + scc (st l) <= P <= g_b g + sn (st l).
Proof.
  intros VV SE EV OE J. cbv zeta. intros L5. pose proof VV as [G I VB V]. destruct (cyc l pend i I EV) as (d3 & is & C). unfold pos1. destruct (chainB l i j L5) as [(q & Q & QJ & Q1 & Q2 & _)|FE0].
  - assert (AS : asks i j = true) by (apply asks_in; eauto). rewrite AS. destruct (oe_req _ _ _ _ _ _ _ _ OE q Q) as (Z0 & _ & X & Y). rewrite QJ in X, Y, Z0. split; [congruence|]. split; [congruence|]. lia.
  - destruct (FE0 L5) as (L2 & X1 & X2 & _). pose proof (chainC _ _ _ _ _ I EV C j) as AN. pose proof (ans_live _ _ _ _ _ AN L2) as LC. destruct (lv_i _ _ _ _ _ (V j J LC)) as [Y1 Y2]. pose proof (lv_p _ _ _ _ _ (V j J LC)) as Y3.
    assert (AS : asks i j = false). { destruct (asks i j) eqn:AS; [|reflexivity]. exfalso. apply asks_in in AS as (q & Q & <-). destruct (proj2 (ev_lr _ _ _ EV) q Q) as (_ & Z0 & _). unfold live in LC. rewrite Z0 in LC. discriminate. }
    rewrite AS, X1, X2. destruct AN as [E|m r0 q B1 B2 B3 B4 B5 E|rp B1 E|v B1 E]; rewrite E; cbn [set_l_rep set_l_st set_l_res l_si l_sf]; (split; [assumption|split; [assumption|lia]]).
Qed.
(** *** Until all older stores are committed *)
Inductive onward (W : Z -> Z) (P : nat) (l : lsu) (g : gs) (pend : list dlreq) (pos : nat -> nat) : lsu -> gs -> list dlreq -> (nat -> nat) -> Prop :=
| on0 : onward W P l g pend pos l g pend pos
| on1 l1 g1 pend1 pos1 i l2 g2 pend2 pos2 : onward W P l g pend pos l1 g1 pend1 pos1 -> vstep W l1 g1 pend1 pos1 i l2 g2 pend2 pos2 ->
    P <= g_b g2 + sn (st l2) -> (i_flush i = true -> P <= length (g_hist g1)) -> onward W P l g pend pos l2 g2 pend2 pos2.
Lemma onward_src W P l g pend pos l2 g2 pend2 pos2 pa f3 v : VI W l g pend pos -> onward W P l g pend pos l2 g2 pend2 pos2 -> src W g (st l) P pa f3 v -> VI W l2 g2 pend2 pos2 /\ src W g2 (st l2) P pa f3 v.
Proof.
  intros I0. induction 1 as [|l1 g1 pend1 q1 i l2 g2 pend2 q2 O IH ST LE FL]; intros SR; [split; assumption|]. destruct (IH SR) as [I1 S1]. split; [exact (vstep_VI _ _ _ _ _ _ _ _ _ _ I1 ST)|].
  destruct ST as [n np r SE EV OE EL ER EG EP EO]. destruct (step_stores W l1 g1 pend1 q1 i n np l2 r (vi_g _ _ _ _ _ I1) SE OE EL ER) as (_ & CA & _). rewrite <- EG in CA. exact (src_step _ _ _ _ _ _ _ _ _ _ CA S1 LE FL).
Qed.
