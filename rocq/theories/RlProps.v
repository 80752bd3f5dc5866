(** C74: stores are committed by the reorder buffer and taken by the store queue. *)
From Verif Require Import Base BaseLemmas Ring ExecModel RobModel RobSpec RobProofs RobProps MemModel LsuModel LsuStq LsuQ LsuRun LsuSpec LsuHist LsuCycle RlLsu RlModel RlProofs.
Local Open Scope nat_scope.
Ltac Zify.zify_post_hook ::= Z.div_mod_to_equations.

(** The stores in the reorder buffer, oldest first, are the uncommitted entries of the
    store queue, in order: the same indices both ways; and one that the load/store unit has
    reported waits for its commit. *)
Theorem c74_stores_in_step_partial : forall r q l g c, jreach r q l g c ->
  scc (st l) + length (stores q) = sn (st l) /\
  (forall j e, nth_error (stores q) j = Some e ->
     let x := (sh (st l) + (scc (st l) + j)) mod 16 in
     stq_of (q_uop e) = x /\ s_rob (sq (st l) x) = q_idx e /\ (answered e = true -> s_st (sq (st l) x) = SWaitCommit)).
Proof.
  intros r q l g c H. destruct (jreach_JI _ _ _ _ _ H) as [J _]. split; [exact (ji_len _ _ _ _ J)|]. intros j e N. cbv zeta. destruct (ji_e _ _ _ _ J j e N) as (A & B & _ & D). split; [exact A|]. split; [exact B|]. intros X. exact (proj1 (D X)).
Qed.
(** Whatever the reorder buffer commits, the store queue takes: the slots named are those of
    its oldest uncommitted stores, each waits for its commit, and the out-of-order assertion
    does not fire. *)
Theorem c74_committed_stores_taken_partial : forall r q l g c ri li, jreach r q l g c -> jenv r q l g ri li ->
  let n := length (commits r ri) in
  i_commit li = map (fun k => (sh (st l) + (scc (st l) + k)) mod 16) (seq 0 n) /\
  (forall k, k < n -> s_st (ent (st l) (scc (st l) + k)) = SWaitCommit) /\
  sbad (comb_stq_commit (i_commit li) (LsuModel.i_flush li) (st l)) = sbad (st l) /\
  scc (comb_stq_commit (i_commit li) (LsuModel.i_flush li) (st l)) = scc (st l) + n.
Proof.
  intros r q l g c ri li H E. cbv zeta. destruct (jreach_JI _ _ _ _ _ H) as [J _]. destruct (commit_facts r q l g ri li J E) as (_ & _ & NL & CS & W & TK). pose proof (ji_len _ _ _ _ J) as LN.
  pose proof (sreach_GI _ _ (ji_l _ _ _ _ J)) as G. destruct (gi_hist _ _ G) as (acc & HH & _). rewrite (je_commit _ _ _ _ _ _ _ E). remember (length (commits r ri)) as n eqn:EN. rewrite CS.
  split; [reflexivity|]. split; [intros k K; apply W; exact K|]. split.
  - apply (accepted_n (g_b g)); [exact (gi_inv _ _ G)|lia| |]; intros k K; apply W; exact K.
  - destruct (commits_spec (g_b g) (LsuModel.i_flush li) acc (g_pend g) n (st l) (g_hist g) (gi_inv _ _ G) HH) as (_ & _ & _ & _ & S1 & _); [lia|intros k K; apply W; exact K|]. now rewrite S1, TK.
Qed.
(** Hence a joint run is a run of the store queue in the sense of C24, its history has
    exactly the stores the reorder buffer committed, and only a faulting store needs a flush. *)
Theorem c74_run_of_the_store_queue_partial : forall r q l g c, jreach r q l g c -> sreach l g /\ length (g_hist g) = c.
Proof. intros r q l g c H. destruct (jreach_JI _ _ _ _ _ H) as [J C]. split; [exact (ji_l _ _ _ _ J)|exact C]. Qed.
(** A report of the load/store unit that is not a load's names a store in flight. *)
Theorem c74_reports_name_stores_partial : forall r q l g c ri li w, jreach r q l g c -> jenv r q l g ri li -> In w (o_wb (snd (lsu_cycle l li))) ->
  (exists e, In e (stores q) /\ q_idx e = w_rob w /\ ~ In e (firstn (length (committed r ri)) q)) \/
  (w_sta w = false /\ exists x, l_st (lq (ld l) x) <> LEmpty /\ l_rob (lq (ld l) x) = w_rob w).
Proof.
  intros r q l g c ri li w H E IW. destruct (jreach_JI _ _ _ _ _ H) as [J _]. pose proof (senv_of r q l g ri li J E) as SE. destruct (commit_facts r q l g ri li J E) as (A & B & NL & CS & W & TK). pose proof (ji_len _ _ _ _ J) as LN. pose proof (ji_r _ _ _ _ J) as R.
  pose proof (sreach_GI _ _ (ji_l _ _ _ _ J)) as G. pose proof (report_cycle g l li _ G SE (ji_w _ _ _ _ J)) as RC. pose proof (je_ms _ _ _ _ _ _ _ E) as MS.
  destruct (lsu_cycle l li) as [l' o]. cbn [fst snd] in *. destruct (RC MS) as (_ & _ & RP). rewrite TK in RP. destruct (RP w IW) as [(k & K1 & K2 & _)|FL]; [left|right; exact FL].
  assert (KL : k - scc (st l) < length (stores q)) by lia. apply nth_error_Some in KL. destruct (nth_error (stores q) (k - scc (st l))) as [e|] eqn:NK; [|congruence]. exists e.
  destruct (ji_e _ _ _ _ J _ e NK) as (_ & Y & _). replace (scc (st l) + (k - scc (st l))) with k in Y by lia. split; [eapply nth_error_In; exact NK|]. split; [congruence|].
  intros IC. assert (IS : In e (stores (firstn (length (committed r ri)) q))) by (apply filter_In; split; [exact IC|apply nth_error_In in NK; apply (stores_in q e NK)]).
  rewrite A in IS. apply In_nth_error in IS as (j & IS). assert (JL : j < length (commits r ri)). { assert (X : j < length (firstn (length (commits r ri)) (stores q))) by (apply nth_error_Some; congruence). rewrite firstn_length in X. lia. }
  assert (NJ : nth_error (stores q) j = Some e). { rewrite <- (firstn_skipn (length (commits r ri)) (stores q)). rewrite nth_error_app1; [exact IS|]. rewrite firstn_length. lia. }
  assert (j = k - scc (st l)) by (apply (idx_inj (stores q) _ _ e e); [apply stores_NoDup, (c03_indices_unique r q R)|exact NJ|exact NK|reflexivity]). lia.
Qed.

(** *** Interrupts *)
(** Whenever an interrupt is taken while the oldest instruction is a store whose entry does not
    yet wait for its commit, the reorder buffer commits that store and the store queue's
    assertion fires: the simulation ends. *)
Theorem c74_interrupt_on_unfinished_store : forall r q l g c ri e t fl, jreach r q l g c -> q = e :: t -> is_st (q_uop e) = true ->
  i_interrupt_req ri = true -> RobModel.i_mispred ri = None -> s_st (ent (st l) (scc (st l))) <> SWaitCommit ->
  commits r ri = [stq_of (q_uop e)] /\ sbad (comb_stq_commit (commits r ri) fl (st l)) = true.
Proof.
  intros r q l g c ri e t fl H -> ST IR MI NW. destruct (jreach_JI _ _ _ _ _ H) as [J _]. pose proof (ji_r _ _ _ _ J) as R.
  assert (BI : b_interrupt (broadcast r ri) = true) by (apply (c04_interrupt_exact r _ ri R); split; [exact IR|split; [exact MI|discriminate]]).
  pose proof (commits_are r _ ri R) as CE.
  assert (L1 : length (committed r ri) = 1).
  { destruct (committed r ri) as [|p c0] eqn:C0.
    - exfalso. destruct (reach_inv r _ R) as (m & WF & FT). clear - BI WF C0. unfold broadcast, committed in *. pose proof (decide_decided r m ri WF) as D. destruct D as [|M IR FS DH A|k v M IR Fv|k v M IR Fv C G]; cbn [b_interrupt fst] in *; try discriminate.
    - rewrite <- C0. apply (c04_special_commits_alone r _ ri e R); [rewrite C0; left; reflexivity|now left]. }
  rewrite L1 in CE. cbn [firstn] in CE. rewrite stores_cons, ST in CE. cbn [map stores filter] in CE. rewrite CE. split; [reflexivity|].
  unfold comb_stq_commit. cbn [fold_left]. unfold commit_one. assert (N0 : nth_error (stores (e :: t)) 0 = Some e) by (rewrite stores_cons, ST; reflexivity).
  destruct (ji_e _ _ _ _ J 0 e N0) as (X & _). rewrite X, Nat.add_0_r. assert (Y : is_s (st l) ((sh (st l) + scc (st l)) mod 16) SWaitCommit = false).
  { destruct (is_s _ _ _) eqn:Q; [|reflexivity]. apply is_s_eq in Q. contradiction. }
  rewrite Y, andb_false_r. reflexivity.
Qed.

(** *** Runs checked by computation *)
Definition jenvb (gated : bool) (r : rob) (q : list qent) (l : lsu) (g : gs) (ri : rob_in) (li : lin) : bool :=
  let '(_, o) := lsu_cycle l li in let s := st l in let n := length (commits r ri) in let new := stores (arrivals (enq_ptr r) 0 (i_fire ri)) in
  (length (i_fire ri) =? 2) && (negb (is_mis ri) || negb (any_fire (i_fire ri))) &&
  match RobModel.i_mispred ri with
  | None => true
  | Some idx => existsb (Nat.eqb idx) (map fst (contents r)) && forallb (fun k => negb (hits (s_brm (ent s k)) (i_brm li))) (seq 0 (scc s)) &&
      forallb (fun p : nat * qent => Bool.eqb (hits (s_brm (ent s (scc s + fst p))) (i_brm li)) (negb (existsb (fun x => q_idx x =? q_idx (snd p)) (upto idx q)))) (combine (seq 0 (length (stores q))) (stores q))
  end &&
  nats_eqb (i_commit li) (commits r ri) && Bool.eqb (LsuModel.i_flush li) (b_flush (broadcast r ri)) && Bool.eqb (LsuModel.i_mispred li) (is_mis ri) &&
  forallb (fun w => negb (memory_report w) || existsb (fun v => (w_rob v =? w_idx w) && Bool.eqb (w_pfs v) (w_pf_store w) && Bool.eqb (w_sta v) match kind (w_port w) with P_sta => true | _ => false end) (o_wb o)) (i_wb ri) &&
  forallb (fun w => memory_report w || forallb (fun e => negb (w_idx w =? q_idx e) || negb (group (w_port w) =? need (q_uop e))) (stores q)) (i_wb ri) &&
  forallb (fun e => negb (is_sc (q_uop e))) (stores q) && (rob_ready r || negb (any_fire (i_fire ri))) &&
  nats_eqb (map sl_rob (i_sa li)) (map q_idx new) &&
  forallb (fun p : nat * qent => (stq_of (q_uop (snd p)) =? (sh s + sn s + fst p) mod 16) && Z.testbit (u_expect (q_uop (snd p))) (Z.of_nat (need (q_uop (snd p))))) (combine (seq 0 (length new)) new) &&
  (sn s + length (i_sa li) <=? STQ_SIZE) &&
  forallb (fun p => Bool.eqb (sl_flag (snd p)) (Nat.odd ((g_b g + (sn s + fst p)) / STQ_SIZE))) (combine (seq 0 (length (i_sa li))) (i_sa li)) &&
  forallb (fun x => Z.ldiff (sl_brm x) (i_clear li) =? sl_brm x)%Z (i_sa li) &&
  forallb (fun x => existsb (fun k => sd_idx x =? (sh s + k) mod STQ_SIZE) (seq (scc s + n) (sn s - (scc s + n)))) (i_std li) &&
  forallb (fun x => existsb (fun k => (sa_idx x =? (sh s + k) mod STQ_SIZE) && sst_eqb (s_st (ent s k)) SAllocated) (seq 0 (sn s))) (i_sta li) &&
  nodupb (map sa_idx (i_sta li)) &&
  forallb (fun x => existsb (fun t : Z * nat * nat => mr_wait x =? snd t) (o_ts o)) (i_ms li) &&
  (negb gated || negb (b_interrupt (broadcast r ri)) || match q with e :: _ => negb (is_st (q_uop e)) || answered e | [] => true end).
Lemma jenvb_ok gated r q l g ri li : jenvb gated r q l g ri li = true -> jenv_of gated r q l g ri li.
Proof.
  unfold jenvb. destruct (lsu_cycle l li) as [l' o] eqn:LC. cbv zeta. intros H.
  apply andb_true_iff in H as [H B_int]. apply andb_true_iff in H as [H B_ms]. apply andb_true_iff in H as [H B_nd]. apply andb_true_iff in H as [H B_sta]. apply andb_true_iff in H as [H B_std]. apply andb_true_iff in H as [H B_clr]. apply andb_true_iff in H as [H B_fl]. apply andb_true_iff in H as [H B_room]. apply andb_true_iff in H as [H B_idx]. apply andb_true_iff in H as [H B_sa]. apply andb_true_iff in H as [H B_ready]. apply andb_true_iff in H as [H B_sc]. apply andb_true_iff in H as [H B_other]. apply andb_true_iff in H as [H B_wb]. apply andb_true_iff in H as [H B_mis]. apply andb_true_iff in H as [H B_flush]. apply andb_true_iff in H as [H B_commit]. apply andb_true_iff in H as [H B_kill]. apply andb_true_iff in H as [H B_quiet].
  rewrite forallb_forall in B_ms, B_sta, B_std, B_clr, B_fl, B_idx, B_sc, B_other, B_wb.
  constructor; [|intros e x IE SC; specialize (B_sc e IE); rewrite SC in B_sc; discriminate]. constructor; rewrite ?LC; cbn [snd].
  - constructor; [now apply Nat.eqb_eq| |].
    + intros M. rewrite M in B_quiet. cbn [negb orb] in B_quiet. now apply negb_true_iff.
    + intros idx M. rewrite M in B_kill. apply andb_true_iff in B_kill as [X _]. apply andb_true_iff in X as [X _]. apply existsb_exists in X as (x & X1 & X2). apply Nat.eqb_eq in X2. now subst.
  - now apply nats_eqb_ok.
  - now apply Bool.eqb_prop.
  - now apply Bool.eqb_prop.
  - intros w IW MR. specialize (B_wb w IW). rewrite MR in B_wb. cbn [negb orb] in B_wb. apply existsb_exists in B_wb as (v & V1 & V2).
    apply andb_true_iff in V2 as [V2 V3]. apply andb_true_iff in V2 as [V2 V4]. exists v. split; [exact V1|]. split; [now apply Nat.eqb_eq|]. split; now apply Bool.eqb_prop.
  - intros w e IW MR IE WE GE. specialize (B_other w IW). rewrite MR in B_other. cbn [orb] in B_other. rewrite forallb_forall in B_other. specialize (B_other e IE). rewrite WE, GE, !Nat.eqb_refl in B_other. discriminate.
  - intros RR. rewrite RR in B_ready. now apply negb_true_iff.
  - now apply nats_eqb_ok.
  - intros j e N. specialize (B_idx _ (nth_error_combine _ 0 j e N)). cbn [fst snd] in B_idx. apply andb_true_iff in B_idx as [X1 X2]. split; [now apply Nat.eqb_eq|exact X2].
  - now apply Nat.leb_le.
  - intros j x N. specialize (B_fl _ (nth_error_combine _ 0 j x N)). now apply Bool.eqb_prop in B_fl.
  - intros x X. now apply Z.eqb_eq, B_clr.
  - intros idx M. rewrite M in B_kill. apply andb_true_iff in B_kill as [X X3]. apply andb_true_iff in X as [_ X2]. rewrite forallb_forall in X2, X3. split.
    + intros k K. apply negb_true_iff, X2, in_seq. lia.
    + intros j e N. specialize (X3 _ (nth_error_combine _ 0 j e N)). now apply Bool.eqb_prop in X3.
  - intros x X. specialize (B_std x X). apply existsb_exists in B_std as (k & K & Y). apply in_seq in K. apply Nat.eqb_eq in Y. exists k. split; [lia|exact Y].
  - intros x X. specialize (B_sta x X). apply existsb_exists in B_sta as (k & K & Y). apply in_seq in K. apply andb_true_iff in Y as [Y1 Y2]. apply Nat.eqb_eq in Y1. apply sst_eqb_eq in Y2. exists k. split; [lia|]. now split.
  - now apply nodupb_ok.
  - intros x X. specialize (B_ms x X). apply existsb_exists in B_ms as (t & T & Y). apply Nat.eqb_eq in Y. now exists t.
  - intros -> BI e HE ST. rewrite BI in B_int. cbn [negb orb] in B_int. destruct q as [|e0 q0]; [discriminate|]. injection HE as ->. rewrite ST in B_int. exact B_int.
Qed.
Fixpoint jruns (r : rob) (q : list qent) (l : lsu) (g : gs) (c : nat) (is : list (rob_in * lin)) : option (rob * list qent * lsu * gs * nat) :=
  match is with
  | [] => Some (r, q, l, g, c)
  | (ri, li) :: t =>
    if jenvb true r q l g ri li then
      let q0 := squash li (scc (st l) + taken (st l) (length (commits r ri))) (g_ord g ++ map galloc (i_sa li)) in
      let l' := fst (lsu_cycle l li) in
      if sn (st l') <=? length q0 then jruns (rob_step r ri) (q_step q r ri) l' (jstep_g r l g ri li (length q0 - sn (st l'))) (c + length (commits r ri)) t else None
    else None
  end.
Lemma jruns_reach is : forall r q l g c r' q' l' g' c', jreach r q l g c -> jruns r q l g c is = Some (r', q', l', g', c') -> jreach r' q' l' g' c'.
Proof.
  induction is as [|[ri li] t IH]; intros r q l g c r' q' l' g' c' H E; cbn [jruns] in E; [injection E as <- <- <- <- <-; exact H|].
  destruct (jenvb true r q l g ri li) eqn:B; [|discriminate]. cbv zeta in E. destruct (_ <=? _) eqn:LE; [|discriminate]. apply Nat.leb_le in LE. eapply IH; [|exact E]. apply jreach_step; [exact H|now apply jenvb_ok|lia].
Qed.

(** A store is dispatched, gets address, data and translation, is reported and committed; with
    it an addition that commits in the same cycle. *)
Definition ex_store : ruop := RUop T_STORE false false false false false 6 0 0 false false false 0.
Definition ex_add : ruop := RUop T_ADD false false false false false 1 0 0 false false false 0.
Definition ri_of (wb : list wback) (f : list (option ruop)) (irq : bool) : rob_in := RobIn None irq false false wb f.
Definition rep (port idx : nat) : wback := WBack port idx false false false false 0 0 false false false.
Definition li_of cm fl std sta ms sa : lin := LIn cm fl false 0 0 None true [] [] None std sta [] [] ms None [] sa.
Definition ex_run : list (rob_in * lin) :=
  [ (ri_of [] [Some ex_store; Some ex_add] false, li_of [] false [] [] [] [SA 0 0 false 2 false]);
    (ri_of [rep 0 1] [None; None] false, li_of [] false [StD 0 0 false 42] [StA 0 0 false 0x80001000 2 0 false] [MR (MHit 0x80001000) 0 0] []);
    (ri_of [rep 4 0; rep 6 0] [None; None] false, li_of [] false [] [] [] []);
    (ri_of [] [None; None] false, li_of [0] false [] [] [] []) ].
Example c74_taken_ex : exists r q l g c, jreach r q l g c /\ c = 1 /\ q = [] /\ sbad (st l) = false /\ map h_pa (g_hist g) = [0x80001000]%Z /\ map h_data (g_hist g) = [42]%Z.
Proof.
  assert (X : match jruns rob_init [] lsu0 g0 0 ex_run with Some (r, q, l, g, c) => (c =? 1) && (length q =? 0) && negb (sbad (st l)) && (length (g_hist g) =? 1) && forallb (fun h => (h_pa h =? 0x80001000) && (h_data h =? 42))%Z (g_hist g) | None => false end = true) by (vm_cast_no_check (eq_refl true)).
  destruct (jruns rob_init [] lsu0 g0 0 ex_run) as [[[[[r q] l] g] c]|] eqn:E; [|discriminate]. exists r, q, l, g, c. split; [exact (jruns_reach _ _ _ _ _ _ _ _ _ _ _ jreach0 E)|]. clear E.
  repeat match type of X with _ && _ = true => apply andb_true_iff in X as [X ?] end. apply Nat.eqb_eq in X. split; [exact X|]. destruct q; [|discriminate]. split; [reflexivity|]. split; [now apply negb_true_iff|].
  destruct (g_hist g) as [|h [|]]; try discriminate. match goal with Y : forallb _ _ = true |- _ => cbn in Y; rewrite andb_true_r in Y; apply andb_true_iff in Y as [Y1 Y2] end. apply Z.eqb_eq in Y1, Y2. cbn. now rewrite Y1, Y2.
Qed.
(** The abort happens: a store is dispatched and an interrupt arrives in the next cycle. Everything
    but the gating of interrupts holds, the reorder buffer commits the store, and the assertion fires. *)
Theorem c74_interrupt_refuted : exists r q l g c ri li, jreach r q l g c /\ jenv_of false r q l g ri li /\ b_interrupt (broadcast r ri) = true /\ i_commit li = [0] /\
  sbad (st l) = false /\ sbad (st (fst (lsu_cycle l li))) = true.
Proof.
  assert (X : match jruns rob_init [] lsu0 g0 0 (firstn 1 ex_run) with Some (r, q, l, g, c) => let ri := ri_of [] [None; None] true in let li := li_of [0] true [] [] [] [] in jenvb false r q l g ri li && b_interrupt (broadcast r ri) && negb (sbad (st l)) && sbad (st (fst (lsu_cycle l li))) | None => false end = true) by (vm_cast_no_check (eq_refl true)).
  destruct (jruns rob_init [] lsu0 g0 0 (firstn 1 ex_run)) as [[[[[r q] l] g] c]|] eqn:E; [|discriminate]. cbv zeta in X. repeat match type of X with _ && _ = true => apply andb_true_iff in X as [X ?] end.
  exists r, q, l, g, c, (ri_of [] [None; None] true), (li_of [0] true [] [] [] []). split; [exact (jruns_reach _ _ _ _ _ _ _ _ _ _ _ jreach0 E)|]. split; [now apply jenvb_ok|]. split; [assumption|]. split; [reflexivity|]. split; [now apply negb_true_iff|assumption].
Qed.

Print Assumptions c74_stores_in_step_partial.
Print Assumptions c74_committed_stores_taken_partial.
Print Assumptions c74_run_of_the_store_queue_partial.
Print Assumptions c74_reports_name_stores_partial.
Print Assumptions c74_interrupt_on_unfinished_store.
Print Assumptions c74_interrupt_refuted.
