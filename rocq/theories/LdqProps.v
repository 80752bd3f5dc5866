(** C25, C75: the load queue and the answers of the data cache, over executions. *)
From Verif Require Import Base BaseLemmas Ring MemModel MemProofs MemProps LsuModel LsuStq LsuQ LdqInv LdqPhase LdqPhase2 LdqPhase3 LsuSquashProps LdqMain.
Local Open Scope nat_scope.
Ltac Zify.zify_post_hook ::= Z.div_mod_to_equations.

(** *** What is claimed *)
Definition in_flight (l : lsu) (j : nat) : Prop := l_st (lq (ld l) j) <> LEmpty.
(** The load is squashed by the redirects of the cycle. *)
Definition squashed (i : lin) (e : ldqe) : Prop := i_flush i = true \/ i_mispred i = true /\ meet (l_brm e) (i_brm i).
(** Request [q] is the one of load [j]: its address, and the id of a slot that names [j]. *)
Definition asked (l : lsu) (q : dlreq) (j : nat) : Prop := exists k, k < 16 /\ qv (wdl (ld l)) k = true /\ qi (wdl (ld l)) k = j /\ q_id q = make_lsu_load_req_id (Z.of_nat k) (wgen (ld l) k) /\ q_addr q = l_pa (lq (ld l) j).
(** The answer the cache gives to load [j] in this cycle. *)
Definition answer (l : lsu) (pend : list dlreq) (i : lin) (j : nat) (r : dlresp) : Prop := exists n q, nth_error (i_dl i) n = Some r /\ nth_error pend n = Some q /\ asked l q j.
(** The value of load [j] is known in this cycle: it was before, or the cache hits. *)
Definition valued (l : lsu) (pend : list dlreq) (i : lin) (j : nat) (v : Z) : Prop := let e := lq (ld l) j in
  l_st e = LReadyToWb /\ v = l_res e \/
  l_st e = LWaitDcacheResp /\ exists r, answer l pend i j r /\ dl_rep r = RHit /\ v = extract_data (dl_data r) (l_pa e) (l_f3 e).
(** The report [w] is right for load [j]. *)
Definition reports (l : lsu) (pend : list dlreq) (i : lin) (j : nat) (w : wb) : Prop := let e := lq (ld l) j in
  w_rob w = l_rob e /\ w_brm w = l_brm e /\ w_preg w = l_preg e /\ w_en w = true /\ w_pfs w = false /\ w_sta w = false /\
  (w_pfl w = false /\ valued l pend i j (w_res w) \/
   w_pfl w = true /\ l_st e = LPageFault /\ w_res w = l_diag e \/
   w_pfl w = false /\ l_st e = LWaitMmioResp /\ i_mmio i = Some (w_res w) /\ u_v (un l) = true /\ u_ld (un l) = true /\ u_idx (un l) = j).
(** The queue a load of this state waits in. *)
Definition waits_in (e : ldqe) : option qid := match l_st e with
  | LWaitTlb | LWaitTlbRetry | LWaitSTLF => Some QW
  | LCheckStlf | LWaitDcache => Some QS
  | LWaitFinish => Some (if l_pf e then QW else QS)
  | LReadyToIssue | LWaitDcacheResp => Some QD
  | LPageFault => Some QF
  | _ => None end.

(** C75. Every load that has executed is in exactly one valid slot of one of the
    four queues, the one its state calls for, or it is the one in the uncached
    unit; a slot never names a free entry. *)
Theorem c75_one_place l pend j : lreach l pend -> let d := ld l in
  match l_st (lq d j) with
  | LEmpty | LAllocated => forall Q k, qv (qof d Q) k = true -> qi (qof d Q) k <> j
  | LWaitMmioResp => (u_v (un l) = true /\ u_ld (un l) = true /\ u_idx (un l) = j) /\ forall Q k, qv (qof d Q) k = true -> qi (qof d Q) k <> j
  | LCheckStlfRetry => False
  | _ => j < 16 /\ exists Q k, k < 16 /\ qv (qof d Q) k = true /\ qi (qof d Q) k = j /\
           (forall Q' k', qv (qof d Q') k' = true -> qi (qof d Q') k' = j -> Q' = Q /\ k' = k) /\
           match waits_in (lq d j) with Some Q0 => Q = Q0 | None => Q = QF \/ Q = QD end
  end.
Proof.
  intros R. cbv zeta. apply reach_inv in R. destruct R as [H M _ _]. set (d := ld l) in *.
  assert (NONE : okb None (lq d j) = true -> forall Q k, qv (qof d Q) k = true -> qi (qof d Q) k <> j).
  { intros O Q k V E. destruct (LI_at _ _ _ _ H V) as (_ & _ & _ & O'). rewrite E in O'. unfold okb in O, O'. destruct (l_st (lq d j)); try discriminate O; destruct Q; discriminate O'. }
  destruct (LI_where [] d j H (fun x => x)) as [(Q & k & V & E)|O].
  - destruct (LI_at _ _ _ _ H V) as (I & _ & KL & O). rewrite E in I, O.
    assert (U : forall Q' k', qv (qof d Q') k' = true -> qi (qof d Q') k' = j -> Q' = Q /\ k' = k) by (intros Q' k' V' E'; apply (LI_inj [] d Q' k' Q k H V' V); congruence).
    unfold okb in O. unfold waits_in. destruct (l_st (lq d j)) eqn:S; destruct Q; try discriminate O; (split; [exact I|]); eexists _, k; (split; [exact KL|]); (split; [exact V|]); (split; [exact E|]); (split; [exact U|]); try reflexivity; auto;
    destruct (l_pf (lq d j)); try discriminate O; reflexivity.
  - pose proof (NONE O) as N. unfold okb in O. destruct (l_st (lq d j)) eqn:S; try discriminate O; try exact N. split; [now apply M|exact N].
Qed.
(** C75. The queues have room: no more slots than there are, and the loads still
    to execute find a place among those that wait for translation. *)
Theorem c75_room l pend : lreach l pend -> (forall Q, qn (qof (ld l) Q) <= 16) /\ qn (wml (ld l)) + length (filter (fun j => lst_eqb (l_st (lq (ld l) j)) LAllocated) (seq 0 16)) <= 16.
Proof. intros R. apply reach_inv in R. destruct R as [H _ _ C]. split; [intros Q; now apply (LI_QI _ _ Q) in H as (_ & X & _)|exact C]. Qed.

(** C25. No answer of the cache is for a load that no longer waits, so the
    assertions on unknown ids and generations never fail. *)
Theorem c25_no_stale_answer cur pend i : lreach cur pend -> lenv cur pend i ->
  (forall n r, nth_error (i_dl i) n = Some r -> exists j, l_st (lq (ld cur) j) = LWaitDcacheResp /\ answer cur pend i j r) /\ lbad (ld (answered cur i)) = lbad (ld cur).
Proof.
  intros R E. apply reach_inv in R. destruct (cyc cur pend i R E) as (d3 & is & C). split; [|apply C]. intros n r N.
  assert (exists q, nth_error pend n = Some q) as [q Q]. { destruct (nth_error pend n) eqn:X; [eauto|]. apply nth_error_None in X. assert (n < length (i_dl i)) by (apply nth_error_Some; congruence). pose proof (f_equal (@length _) (ev_dl _ _ _ E)) as Y. rewrite !map_length in Y. lia. }
  destruct (cy_2 _ _ _ _ _ _ C n r q N Q) as (k & K1 & K2 & K3 & K4 & K5 & K6). cbv zeta in *. exists (qi (wdl (ld cur)) k). split; [exact K4|]. exists n, q. split; [exact N|]. split; [exact Q|]. exists k. now repeat split.
Qed.

Lemma answer_taken cur pend i d3 is j r : Linv cur pend -> Cyc cur pend i (ld (answered cur i)) d3 is -> answer cur pend i j r -> exists k, lq (ld (answered cur i)) j = taken_by (ld cur) r k (lq (ld cur) j) /\ l_st (lq (ld cur) j) = LWaitDcacheResp.
Proof.
  intros I C (n & q & N & Q & k & K1 & K2 & K3 & K4 & K5). destruct (cy_2 _ _ _ _ _ _ C n r q N Q) as (k' & L1 & L2 & L3 & L4 & L5 & L6). cbv zeta in *. change (q_id q = rid (ld cur) k) in K4. rewrite L2 in K4. apply rid_inj in K4; [|exact L1|exact K1]. subst k'. rewrite K3 in *. exists k. now split.
Qed.
Lemma has_answer cur pend i j : Linv cur pend -> lenv cur pend i -> l_st (lq (ld cur) j) = LWaitDcacheResp -> exists r, answer cur pend i j r.
Proof.
  intros [H _ P _] E S. destruct (LI_where [] (ld cur) j H (fun x => x)) as [(Q & k & V & X)|X]; [|unfold okb in X; rewrite S in X; discriminate].
  assert (Q = QD) as ->. { destruct (LI_at _ _ _ _ H V) as (_ & _ & _ & OK). rewrite X in OK. unfold okb in OK. rewrite S in OK. destruct Q; try discriminate. reflexivity. }
  destruct (LI_at [] (ld cur) QD k H V) as (_ & _ & KL & _). cbn [qof] in V, X. destruct (pi_b _ _ P k V) as (q & Q1 & Q2); [now rewrite X|]. destruct (pi_a _ _ P q Q1) as (k' & L1 & L2 & L3 & L4 & L5 & _). pose proof Q2 as Q3. rewrite L2 in Q3. apply rid_inj in Q3; [|exact L1|exact KL]. subst k'. rewrite X in L5.
  apply In_nth_error in Q1 as [n N]. assert (exists r, nth_error (i_dl i) n = Some r) as [r R]. { destruct (nth_error (i_dl i) n) eqn:R; [eauto|]. apply nth_error_None in R. assert (n < length pend) by (apply nth_error_Some; congruence). pose proof (f_equal (@length _) (ev_dl _ _ _ E)) as Y. rewrite !map_length in Y. lia. }
  exists r, n, q. split; [exact R|]. split; [exact N|]. exists k. now repeat split.
Qed.
(** The end of the cycle for a load that is not reported. *)
Lemma end_of cur pend i d3 is j : Linv cur pend -> Cyc cur pend i (ld (answered cur i)) d3 is -> in_flight cur j -> ~ In j is ->
  (in_flight (fst (lsu_cycle cur i)) j <-> ~ squashed i (lq (ld cur) j)) /\
  (in_flight (fst (lsu_cycle cur i)) j -> let e := lq (ld cur) j in let e' := lq (ld (fst (lsu_cycle cur i))) j in l_rob e' = l_rob e /\ l_robf e' = l_robf e /\ l_brm e' = Z.ldiff (l_brm e) (i_clear i) /\
     (let ea := lq (ld (answered cur i)) j in settled (l_st ea) = true -> l_res e' = l_res ea /\ l_pa e' = l_pa ea /\ (l_st e' = l_st ea \/ l_st ea = LReadyToIssue /\ l_st e' = LWaitDcacheResp))).
Proof.
  intros I C F N. set (a := answered cur i) in *. set (l' := fst (lsu_cycle cur i)) in *.
  assert (J : j < 16). { destruct (le_lt_dec 16 j) as [X|X]; [|exact X]. exfalso. apply F. exact (LI_hi [] _ j (iv_l _ _ I) X). }
  destruct (cy_k _ _ _ _ _ _ C j F) as (A1 & A2 & A3 & A4 & A5). destruct (cy_o _ _ _ _ _ _ C) as (_ & _ & W). pose proof (W j N) as WJ. assert (F3 : l_st (lq d3 j) <> LEmpty) by (rewrite WJ; exact A1).
  destruct (cy_b _ _ _ _ _ _ C j F3) as (B1 & B2 & B3 & B4 & B5). rewrite WJ in B2, B3, B4, B5. set (bf := before_flush cur i) in *.
  pose proof (cy_f _ _ _ _ _ _ C) as CF. cbv zeta in CF. specialize (CF j). fold bf l' in CF. destruct (c70_loads i cur bf j) as [D1 D2]. cbv zeta in D1, D2. set (lf := comb_flush i cur bf) in *.
  assert (EF : in_flight l' j <-> busy lf j). { unfold in_flight, busy. fold l'. destruct CF as [-> |[X ->]]; [unfold LDQ_SIZE; tauto|]. rewrite X. cbn. unfold LDQ_SIZE. split; [intros _; split; [exact J|discriminate]|intros _; discriminate]. }
  assert (BF : busy bf j) by (split; [exact J|exact B1]).
  split.
  - rewrite EF, D1. unfold squashed. rewrite B4, A4. split.
    + intros (_ & X & Y) [Z|Z]; [congruence|contradiction].
    + intros X. split; [exact BF|]. split; [destruct (i_flush i); [exfalso; apply X; now left|reflexivity]|]. intros Y. apply X. now right.
  - intros X. apply EF in X. destruct (D2 X) as (S1 & S2 & S3). specialize (S3 (conj J F)). cbv zeta. unfold same_load in S1.
    assert (Q : l_rob (lq (ld l') j) = l_rob (lq (ld lf) j) /\ l_robf (lq (ld l') j) = l_robf (lq (ld lf) j) /\ l_brm (lq (ld l') j) = l_brm (lq (ld lf) j)) by (destruct CF as [-> |[_ ->]]; repeat split).
    destruct Q as (-> & -> & ->). rewrite S3. rewrite S1. cbn [l_rob l_robf set_l_brm]. rewrite B2, B3, B4, A2, A3, A4. do 3 (split; [reflexivity|]).
    intros RW. pose proof (B5 RW) as EB. assert (SL : l_st (lq (ld lf) j) = l_st (lq (ld a) j) /\ l_res (lq (ld lf) j) = l_res (lq (ld a) j) /\ l_pa (lq (ld lf) j) = l_pa (lq (ld a) j)) by (rewrite S1; cbn [l_st l_res l_pa set_l_brm]; rewrite EB, ?WJ; now repeat split).
    destruct SL as (SL1 & SL2 & SL3). destruct CF as [-> |[Z ->]]; [split; [exact SL2|split; [exact SL3|left; exact SL1]]|]. cbn [l_res l_pa l_st set_l_st]. split; [exact SL2|]. split; [exact SL3|]. right. split; [congruence|reflexivity].
Qed.

(** C75. One cycle of the load queue.  The loads that report are loads in flight,
    each at most once, each with its own identity and value, and they are gone
    afterwards.  Any other load in flight stays, as the same instruction, unless
    it is squashed.  New in the queue are exactly the loads dispatched in the
    cycle that are not squashed at once. *)
Theorem c75_cycle cur pend i : lreach cur pend -> lenv cur pend i -> let l' := fst (lsu_cycle cur i) in exists is ws,
  o_wb (snd (lsu_cycle cur i)) = store_wbs cur i ++ ws /\ NoDup is /\ length ws = length is /\
  (forall n j w, nth_error is n = Some j -> nth_error ws n = Some w -> in_flight cur j /\ reports cur pend i j w /\ ~ in_flight l' j) /\
  (forall j, in_flight cur j -> ~ In j is -> (in_flight l' j <-> ~ squashed i (lq (ld cur) j))) /\
  (forall j, in_flight cur j -> in_flight l' j -> let e := lq (ld cur) j in let e' := lq (ld l') j in l_rob e' = l_rob e /\ l_robf e' = l_robf e /\ l_brm e' = Z.ldiff (l_brm e) (i_clear i)) /\
  (forall j, ~ in_flight cur j -> (in_flight l' j <-> exists r, In r (i_la i) /\ la_idx r = j /\ i_flush i = false /\ ~ (i_mispred i = true /\ meet (la_brm r) (i_brm i)))) /\
  (forall r, In r (i_la i) -> in_flight l' (la_idx r) -> let e' := lq (ld l') (la_idx r) in l_st e' = LAllocated /\ l_rob e' = la_rob r /\ l_robf e' = la_robf r).
Proof.
  intros R E. cbv zeta. apply reach_inv in R. destruct (cyc cur pend i R E) as (d3 & is & C). set (l' := fst (lsu_cycle cur i)) in *. set (a := answered cur i) in *.
  assert (FRESH : forall j, ~ In j (map la_idx (i_la i)) -> l_st (lq d3 j) = LEmpty -> ~ in_flight l' j).
  { intros j X Y Z. pose proof (cy_e _ _ _ _ _ _ C j Y X) as B. pose proof (cy_f _ _ _ _ _ _ C) as CF. cbv zeta in CF. specialize (CF j). destruct (c70_loads i cur (before_flush cur i) j) as [D1 _]. cbv zeta in D1.
    unfold in_flight in Z. fold l' in CF. assert (J : j < 16). { destruct (le_lt_dec 16 j) as [W|W]; [|exact W]. exfalso. apply Z. exact (LI_hi [] _ j (iv_l _ _ (cy_i _ _ _ _ _ _ C)) W). }
    assert (BB : busy (comb_flush i cur (before_flush cur i)) j) by (split; [exact J|destruct CF as [W|[W _]]; [now rewrite <- W|congruence]]). apply D1 in BB as [[_ BB] _]. now apply BB. }
  assert (NEWL : forall r, In r (i_la i) -> la_idx r < 16 /\ l_st (lq (ld cur) (la_idx r)) = LEmpty) by (intros r X; apply alloc_idx_ok; now apply (ev_la _ _ _ E)).
  pose proof (cy_o _ _ _ _ _ _ C) as (W1 & W2 & W3).
  assert (INF : forall j, In j is -> in_flight cur j). { intros j X Z. destruct (W2 j X) as [D _]. rewrite (cy_1 _ _ _ _ _ _ C j) in D by congruence. destruct D as [[D _]|[D _]]; congruence. }
  assert (NOLA : forall j, in_flight cur j -> ~ In j (map la_idx (i_la i))). { intros j X Y. apply in_map_iff in Y as (r & <- & Y). apply X. now apply NEWL. }
  exists is, (map (fun j => wb_of (lq (ld a) j)) is). split; [apply C|]. split; [exact W1|]. split; [now rewrite map_length|]. split; [|split; [|split; [|split]]].
  - intros n j w N1 N2. rewrite nth_error_map, N1 in N2. change (Some (wb_of (lq (ld a) j)) = Some w) in N2. assert (EW : w = wb_of (lq (ld a) j)) by congruence. rewrite EW. clear N2 EW w. assert (X : In j is) by now apply nth_error_In in N1. pose proof (INF j X) as F. split; [exact F|]. destruct (W2 j X) as [D D']. split.
    2:{ apply FRESH; [now apply NOLA|]. now rewrite D'. }
    destruct (cy_k _ _ _ _ _ _ C j F) as (A1 & A2 & A3 & A4 & A5). unfold reports. cbn [wb_of w_rob w_brm w_preg w_en w_pfs w_sta w_pfl w_res]. fold a in A2, A4. split; [exact A2|]. split; [exact A4|].
    assert (PR : l_preg (lq (ld a) j) = l_preg (lq (ld cur) j)).
    { destruct (cy_m _ _ _ _ _ _ C j) as [Z|[Z|[Z (Z1 & v & Z2 & Z3)]]]; [now rewrite Z| |now rewrite Z3]. destruct (has_answer cur pend i j R E Z) as [r AR]. destruct (answer_taken _ _ _ _ _ _ _ R C AR) as (k & T & _). fold a in T. rewrite T. unfold taken_by. now destruct (dl_rep r). }
    split; [exact PR|]. do 3 (split; [reflexivity|]).
    destruct (cy_m _ _ _ _ _ _ C j) as [Z|[Z|[Z (Z1 & v & Z2 & Z3)]]].
    + rewrite Z in D |- *. destruct D as [[D P]|[D P]]; rewrite P.
      * left. split; [reflexivity|]. left. now split.
      * right. left. split; [reflexivity|]. now split.
    + destruct (has_answer cur pend i j R E Z) as [r AR]. destruct (answer_taken _ _ _ _ _ _ _ R C AR) as (k & T & _). fold a in T. rewrite T in D |- *.
      assert (HH : dl_rep r = RHit) by (destruct D as [[D _]|[D _]]; unfold taken_by in D; destruct (dl_rep r); try reflexivity; discriminate D). unfold taken_by in D |- *. rewrite HH in D |- *. cbn [l_pf l_res set_l_rep set_l_st set_l_res] in *. destruct D as [[_ P]|[D _]]; [|discriminate D]. cbn [l_pf set_l_rep set_l_st set_l_res] in P. rewrite P.
      left. split; [reflexivity|]. right. split; [exact Z|]. exists r. now split.
    + rewrite Z3 in D |- *. destruct D as [[_ P]|[D _]]; [|discriminate D]. cbn [l_pf l_res set_l_st set_l_res] in *. rewrite P. right. right. split; [reflexivity|]. split; [exact Z|]. split; [exact Z2|]. exact (iv_m _ _ R j Z).
  - intros j F N. exact (proj1 (end_of _ _ _ _ _ _ R C F N)).
  - intros j F F'. destruct (in_dec Nat.eq_dec j is) as [X|X]; [|destruct (end_of _ _ _ _ _ _ R C F X) as [_ Y]; destruct (Y F') as (Y1 & Y2 & Y3 & _); now repeat split].
    exfalso. destruct (W2 j X) as [_ D']. apply (FRESH j); [now apply NOLA|now rewrite D'|exact F'].
  - intros j F. assert (E0 : l_st (lq (ld cur) j) = LEmpty) by (unfold in_flight in F; destruct (l_st (lq (ld cur) j)); try reflexivity; exfalso; apply F; discriminate).
    assert (E3 : l_st (lq d3 j) = LEmpty). { rewrite W3; [rewrite (cy_1 _ _ _ _ _ _ C j); congruence|]. intros X. now apply (INF j). }
    pose proof (cy_f _ _ _ _ _ _ C) as CF. cbv zeta in CF. specialize (CF j). fold l' in CF. destruct (c70_loads i cur (before_flush cur i) j) as [D1 _]. cbv zeta in D1. set (lf := comb_flush i cur (before_flush cur i)) in *. split.
    + intros X. destruct (in_dec Nat.eq_dec j (map la_idx (i_la i))) as [Y|Y]; [|exfalso; now apply (FRESH j Y E3)]. apply in_map_iff in Y as (r & Y & Z). exists r. split; [exact Z|]. split; [exact Y|].
      assert (BB : busy lf j) by (split; [rewrite <- Y; now apply NEWL|destruct CF as [W|[W _]]; [rewrite <- W; exact X|congruence]]). apply D1 in BB as (_ & B2 & B3). split; [exact B2|]. rewrite <- Y in B3. rewrite (cy_n _ _ _ _ _ _ C r Z) in B3. exact B3.
    + intros (r & Z & Y & X1 & X2). assert (BB : busy lf j). { apply D1. rewrite <- Y. rewrite (cy_n _ _ _ _ _ _ C r Z). split; [|now split]. split; [now apply NEWL|]. rewrite (cy_n _ _ _ _ _ _ C r Z). discriminate. }
      destruct BB as [_ BB]. unfold in_flight. destruct CF as [-> |[_ ->]]; [exact BB|discriminate].
  - intros r Z X. pose proof (cy_f _ _ _ _ _ _ C) as CF. cbv zeta in CF. specialize (CF (la_idx r)). fold l' in CF. destruct (c70_loads i cur (before_flush cur i) (la_idx r)) as [_ D2]. cbv zeta in D2. set (lf := comb_flush i cur (before_flush cur i)) in *.
    assert (BB : busy lf (la_idx r)) by (split; [now apply NEWL|destruct CF as [W|[W _]]; [rewrite <- W; exact X|congruence]]). destruct (D2 BB) as [S1 _]. unfold same_load in S1. rewrite (cy_n _ _ _ _ _ _ C r Z) in S1.
    assert (SA : l_st (lq (ld lf) (la_idx r)) = LAllocated) by (rewrite S1; reflexivity). destruct CF as [CF|[CF _]]; [|congruence]. rewrite CF, S1. now repeat split.
Qed.

(** C25. The value a load has been given reaches the back end or is kept: in a
    cycle in which it is known the load reports it, or is squashed, or still
    holds it at the end. *)
Theorem c25_value_kept cur pend i j v : lreach cur pend -> lenv cur pend i -> valued cur pend i j v -> let l' := fst (lsu_cycle cur i) in
  (exists w, In w (o_wb (snd (lsu_cycle cur i))) /\ w_rob w = l_rob (lq (ld cur) j) /\ w_res w = v /\ w_pfl w = false /\ ~ in_flight l' j) \/
  ~ in_flight l' j /\ squashed i (lq (ld cur) j) \/
  l_st (lq (ld l') j) = LReadyToWb /\ l_res (lq (ld l') j) = v.
Proof.
  intros R E V. cbv zeta. pose proof (c75_cycle cur pend i R E) as CC. apply reach_inv in R. destruct (cyc cur pend i R E) as (d3 & is & C). set (l' := fst (lsu_cycle cur i)) in *. set (a := answered cur i) in *.
  assert (VA : l_st (lq (ld a) j) = LReadyToWb /\ l_res (lq (ld a) j) = v /\ in_flight cur j).
  { destruct V as [[S V]|[S (r & AR & HH & V)]].
    - assert (X : lq (ld a) j = lq (ld cur) j) by (apply (cy_1 _ _ _ _ _ _ C); congruence). rewrite X. split; [exact S|]. split; [now rewrite V|]. unfold in_flight. congruence.
    - destruct (answer_taken _ _ _ _ _ _ _ R C AR) as (k & T & _). fold a in T. rewrite T. unfold taken_by. rewrite HH. split; [reflexivity|]. split; [cbn; now rewrite V|]. unfold in_flight. congruence. }
  destruct VA as (V1 & V2 & V3). destruct (in_dec Nat.eq_dec j is) as [X|X].
  - left. exists (wb_of (lq (ld a) j)). pose proof (cy_o _ _ _ _ _ _ C) as (W1 & W2 & W3). destruct (W2 j X) as [D D']. assert (P : l_pf (lq (ld a) j) = false) by (destruct D as [[_ P]|[D _]]; [exact P|congruence]).
    split; [rewrite (cy_w _ _ _ _ _ _ C); apply in_or_app; right; apply in_map_iff; now exists j|]. destruct (cy_k _ _ _ _ _ _ C j V3) as (A1 & A2 & _). cbn [wb_of w_rob w_res w_pfl]. rewrite P. split; [exact A2|]. split; [exact V2|]. split; [reflexivity|].
    destruct CC as (js & ws & C1 & C2 & C3 & C4 & C5 & C6 & C7 & C8). cbv zeta in *. intros F'. 
    assert (F3 : l_st (lq d3 j) = LEmpty) by (rewrite D'; reflexivity).
    assert (NL : ~ In j (map la_idx (i_la i))). { intros Y. apply in_map_iff in Y as (r & Y & Z). apply V3. rewrite <- Y. now apply alloc_idx_ok, (ev_la _ _ _ E). }
    pose proof (cy_e _ _ _ _ _ _ C j F3 NL) as B. pose proof (cy_f _ _ _ _ _ _ C) as CF. cbv zeta in CF. specialize (CF j). fold l' in CF. destruct (c70_loads i cur (before_flush cur i) j) as [D1 _]. cbv zeta in D1.
    assert (J : j < 16). { destruct (le_lt_dec 16 j) as [W|W]; [|exact W]. exfalso. apply V3. exact (LI_hi [] _ j (iv_l _ _ R) W). }
    assert (BB : busy (comb_flush i cur (before_flush cur i)) j) by (split; [exact J|destruct CF as [W|[W _]]; [rewrite <- W; exact F'|congruence]]). apply D1 in BB as [[_ BB] _]. now apply BB.
  - right. destruct (end_of _ _ _ _ _ _ R C V3 X) as [EN EK]. fold l' a in EN, EK. destruct (l_st (lq (ld l') j)) eqn:S;
    try (right; assert (F' : in_flight l' j) by (unfold in_flight; congruence); destruct (EK F') as (_ & _ & _ & Y); cbv zeta in Y; rewrite V1 in Y; destruct (Y eq_refl) as (Y1 & _ & [Y2|[Y2 _]]); [split; congruence|discriminate]).
    left. assert (NF : ~ in_flight l' j) by (unfold in_flight; intros Y; now apply Y). split; [exact NF|]. unfold squashed. destruct (i_flush i) eqn:FL; [now left|]. destruct (i_mispred i) eqn:MP; [|exfalso; apply NF, EN; intros [Y|[Y _]]; congruence].
    destruct (hits (l_brm (lq (ld cur) j)) (i_brm i)) eqn:HT; [right; split; [reflexivity|now apply hits_meet]|]. exfalso. apply NF, EN. intros [Y|[_ Y]]; [congruence|]. apply hits_meet in Y. congruence.
Qed.
(** C25. A load that is told to try again has not got a value: it does not report
    in this cycle and asks again. *)
Theorem c25_told_to_retry cur pend i j r : lreach cur pend -> lenv cur pend i -> answer cur pend i j r -> dl_rep r <> RHit -> let l' := fst (lsu_cycle cur i) in
  in_flight l' j -> (l_st (lq (ld l') j) = LReadyToIssue \/ l_st (lq (ld l') j) = LWaitDcacheResp /\ exists q, In q (o_dl (snd (lsu_cycle cur i))) /\ q_addr q = l_pa (lq (ld l') j)) /\ l_pa (lq (ld l') j) = l_pa (lq (ld cur) j).
Proof.
  intros R E AR NH. cbv zeta. intros F'. pose proof R as R0. apply reach_inv in R. destruct (cyc cur pend i R E) as (d3 & is & C). set (l' := fst (lsu_cycle cur i)) in *. set (a := answered cur i) in *.
  destruct (answer_taken _ _ _ _ _ _ _ R C AR) as (k & T & S). fold a in T.
  assert (TA : l_st (lq (ld a) j) = LReadyToIssue /\ l_pa (lq (ld a) j) = l_pa (lq (ld cur) j)) by (rewrite T; unfold taken_by; destruct (dl_rep r); try congruence; now split).
  destruct TA as [TA TP]. assert (F : in_flight cur j) by (unfold in_flight; congruence).
  assert (X : ~ In j is). { intros X. destruct (cy_o _ _ _ _ _ _ C) as (_ & W & _). destruct (W j X) as [[[D _]|[D _]] _]; fold a in D; congruence. }
  destruct (end_of _ _ _ _ _ _ R C F X) as [_ EK]. fold l' a in EK. destruct (EK F') as (_ & _ & _ & Y). cbv zeta in Y. rewrite TA in Y. destruct (Y eq_refl) as (_ & Y2 & Y3). split; [|congruence]. destruct Y3 as [Y3|[_ Y3]]; [now left|]. right. split; [exact Y3|].
  destruct (cy_i _ _ _ _ _ _ C) as [H _ P _]. fold l' in H, P. destruct (LI_where [] (ld l') j H (fun x => x)) as [(Q & k' & V & Z)|Z]; [|unfold okb in Z; rewrite Y3 in Z; discriminate].
  assert (Q = QD) as ->. { destruct (LI_at _ _ _ _ H V) as (_ & _ & _ & OK). rewrite Z in OK. unfold okb in OK. rewrite Y3 in OK. destruct Q; try discriminate. reflexivity. }
  destruct (LI_at [] (ld l') QD k' H V) as (_ & _ & KL & _). cbn [qof] in V, Z. destruct (pi_b _ _ P k' V) as (q & Q1 & Q2); [now rewrite Z|]. destruct (pi_a _ _ P q Q1) as (k2 & L1 & L2 & L3 & L4 & L5 & _). rewrite L2 in Q2. apply rid_inj in Q2; [|exact L1|exact KL]. subst k2. rewrite Z in L5. exists q. now split.
Qed.

(** *** A run *)
Fixpoint nodupb (l : list nat) : bool := match l with [] => true | x :: t => negb (existsb (Nat.eqb x) t) && nodupb t end.
Lemma nodupb_ok l : nodupb l = true -> NoDup l.
Proof.
  induction l as [|x t IH]; intros H; constructor; cbn in H; apply andb_true_iff in H as [A B]; [|now apply IH]. intros X. apply negb_true_iff in A. assert (existsb (Nat.eqb x) t = true); [|congruence]. apply existsb_exists. exists x. split; [exact X|apply Nat.eqb_refl].
Qed.
Fixpoint zlist_eqb (a b : list Z) : bool := match a, b with [], [] => true | x :: a, y :: b => (x =? y)%Z && zlist_eqb a b | _, _ => false end.
Lemma zlist_eqb_ok a : forall b, zlist_eqb a b = true -> a = b.
Proof. induction a as [|x a IH]; intros [|y b] H; try discriminate; [reflexivity|]. cbn in H. apply andb_true_iff in H as [A B]. apply Z.eqb_eq in A. f_equal; auto. Qed.
Definition lenvb (cur : lsu) (pend : list dlreq) (i : lin) : bool :=
  zlist_eqb (map dl_id (i_dl i)) (map q_id pend) &&
  (nodupb (map la_idx (i_la i)) && forallb (fun r => existsb (Nat.eqb (la_idx r)) (ldq_alloc_idx (ld cur))) (i_la i)) &&
  (nodupb (map lr_idx (i_ldr i)) && forallb (fun r => let e := lq (ld cur) (lr_idx r) in (lr_idx r <? 16) && lst_eqb (l_st e) LAllocated && (l_rob e =? lr_rob r) && Bool.eqb (l_robf e) (lr_robf r)) (i_ldr i)) &&
  (nodupb (map mr_wait (i_ml i)) && forallb (fun r => existsb (fun t => (snd (fst t) =? mr_ent r) && (snd t =? mr_wait r)) (o_tl (snd (lsu_cycle cur i)))) (i_ml i)).
Lemma lenvb_ok cur pend i : lenvb cur pend i = true -> lenv cur pend i.
Proof.
  intros H. unfold lenvb in H. apply andb_true_iff in H as [H E4]. apply andb_true_iff in H as [H E3]. apply andb_true_iff in H as [E1 E2]. apply andb_true_iff in E2 as [E2 E2']. apply andb_true_iff in E3 as [E3 E3']. apply andb_true_iff in E4 as [E4 E4'].
  rewrite forallb_forall in E2', E3', E4'. constructor.
  - now apply zlist_eqb_ok.
  - split; [now apply nodupb_ok|]. intros r R. specialize (E2' r R). apply existsb_exists in E2' as (x & X & Y). apply Nat.eqb_eq in Y. now rewrite Y.
  - split; [now apply nodupb_ok|]. intros r R. specialize (E3' r R). cbv zeta in *. apply andb_true_iff in E3' as [A D]. apply andb_true_iff in A as [A C]. apply andb_true_iff in A as [A B]. apply Nat.ltb_lt in A. apply lst_eqb_iff in B. apply Nat.eqb_eq in C. apply Bool.eqb_prop in D. auto.
  - split; [now apply nodupb_ok|]. intros r R. specialize (E4' r R). apply existsb_exists in E4' as ([[va x] y] & X & Y). cbn [fst snd] in Y. apply andb_true_iff in Y as [Y1 Y2]. apply Nat.eqb_eq in Y1, Y2. subst. now exists va.
Qed.
(** The answers are given as (replay, data), in the order of the requests. *)
Definition li (pend : list dlreq) (an : list (replay * Z)) (la : list lalloc) (lr : list ldreq) (ml : list mmuresp) (mis : bool) (brm : Z) : lin :=
  LIn [] false mis brm 0 None true (map (fun p => DL (q_id (fst p)) (fst (snd p)) (snd (snd p))) (combine pend an)) [] None [] [] lr ml [] None la [].
Definition stp := (list (replay * Z) * list lalloc * list ldreq * list mmuresp * bool * Z)%type.
Fixpoint lruns (l : lsu) (pend : list dlreq) (ws : list wb) (is : list stp) : option (lsu * list dlreq * list wb) :=
  match is with
  | [] => Some (l, pend, ws)
  | (an, la, lr, ml, mis, brm) :: t => let i := li pend an la lr ml mis brm in
      if lenvb l pend i then let '(l', o) := lsu_cycle l i in lruns l' (o_dl o) (ws ++ o_wb o) t else None
  end.
Lemma lruns_reach is : forall l pend ws l' pend' ws', lreach l pend -> lruns l pend ws is = Some (l', pend', ws') -> lreach l' pend'.
Proof.
  induction is as [|[[[[[an la] lr] ml] mis] brm] t IH]; intros l pend ws l' pend' ws' R H; cbn [lruns] in H; [injection H as <- <- _; exact R|]. cbv zeta in H. destruct (lenvb _ _ _) eqn:E; [|discriminate].
  apply lenvb_ok in E. pose proof (lreach1 _ _ _ R E) as R'. destruct (lsu_cycle l _) as [l1 o]. cbn [fst snd] in R'. exact (IH _ _ _ _ _ _ R' H).
Qed.
(** Four loads: a word that hits; a signed byte that is told to wait and hits the
    second time; one that page-faults; and one squashed by a misprediction while
    it waits for the cache. *)
Definition ex_run : list stp :=
  [ ([], [LA 0 0 5 false; LA 1 0 6 false], [], [], false, 0%Z);
    ([], [LA 2 0 7 false; LA 3 2 8 false], [LdR 0 5 false 0x1000 2 40 0 false false; LdR 1 6 false 0x1005 0 41 0 false false], [MR (MHit 0x80001000) 0 0; MR (MHit 0x80001005) 1 1], false, 0%Z);
    ([(RHit, 0x11223344%Z); (RConflict, 0%Z)], [], [LdR 2 7 false 0x9000 2 42 0 false false; LdR 3 8 false 0x1008 2 43 0 false false], [MR MFault 2 2; MR (MHit 0x80001008) 3 3], false, 0%Z);
    ([(RConflict, 0%Z); (RMshrFull, 0%Z)], [], [], [], true, 2%Z);
    ([(RHit, 0x8000%Z)], [], [], [], false, 0%Z) ].
Example c75_run_ex : exists l pend ws, lreach l pend /\ lruns lsu0 [] [] ex_run = Some (l, pend, ws) /\ pend = [] /\
  map (fun w => (w_rob w, w_preg w, w_res w, w_pfl w)) ws = [(5, 40, 0x11223344%Z, false); (7, 42, 0x9000%Z, true); (6, 41, 0xFFFFFF80%Z, false)] /\ forallb (fun j => lst_eqb (l_st (lq (ld l) j)) LEmpty) (seq 0 16) = true.
Proof.
  destruct (lruns lsu0 [] [] ex_run) as [[[l pend] ws]|] eqn:E.
  2:{ exfalso. assert (X : (match lruns lsu0 [] [] ex_run with Some _ => true | None => false end) = true) by (vm_compute; reflexivity). rewrite E in X. discriminate. }
  exists l, pend, ws. split; [exact (lruns_reach _ _ _ _ _ _ _ lreach0 E)|]. split; [reflexivity|].
  assert (X : match lruns lsu0 [] [] ex_run with Some (l, pend, ws) => (pend, map (fun w => (w_rob w, w_preg w, w_res w, w_pfl w)) ws, forallb (fun j => lst_eqb (l_st (lq (ld l) j)) LEmpty) (seq 0 16)) = ([], [(5, 40, 0x11223344%Z, false); (7, 42, 0x9000%Z, true); (6, 41, 0xFFFFFF80%Z, false)], true) | None => False end) by (vm_compute; reflexivity).
  rewrite E in X. split; [|split]; congruence.
Qed.

Print Assumptions c75_one_place.
Print Assumptions c75_room.
Print Assumptions c75_cycle.
Print Assumptions c75_run_ex.
Print Assumptions c25_no_stale_answer.
Print Assumptions c25_value_kept.
Print Assumptions c25_told_to_retry.
