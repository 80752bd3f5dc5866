(** C77: what a committed load read. *)
From Verif Require Import Base BaseLemmas Ring ExecModel RobModel RobSpec RobProofs RobProps MemModel MemSpec MemProofs LsuModel LsuStq LsuQ LsuRun LsuSpec LsuHist LsuSquashProps LsuProps LdqInv LdqPhase LdqPhase2 LdqPhase3 LdqMain LdqProps LsuCycle LvStab LvLoads LvStores LvMem LvMain LvProps RlLsu RlModel RlProofs RlProps LcSc LcModel LcProofs.
Local Open Scope nat_scope.
Ltac Zify.zify_post_hook ::= Z.div_mod_to_equations.

(** A joint run is a run in the sense of C24, C74, C75 and C76: what those runs assume
    about commits, squashes and report indices holds. *)
Theorem c77_runs : forall W r q l g pend pos c acc, kreach W r q l g pend pos c acc -> jreach r q l g c /\ lreach l pend /\ vreach W l g pend pos.
Proof.
  intros W r q l g pend pos c acc H. split; [|split; [exact (ki_l _ _ _ _ _ _ _ _ _ (kreach_KI _ _ _ _ _ _ _ _ _ H))|]].
  - induction H as [acc|r q l g pend pos c acc ri li n H IH E LN]; [constructor|]. apply jreach_step; [exact IH|exact (kjenv _ _ _ _ _ _ _ _ _ _ _ (kreach_KI _ _ _ _ _ _ _ _ _ H) E)|exact LN].
  - induction H as [acc|r q l g pend pos c acc ri li n H IH E LN]; [constructor|]. pose proof (kreach_KI _ _ _ _ _ _ _ _ _ H) as I. apply (vreach1 W l g pend pos li); [exact IH|].
    apply (Vstep _ _ _ _ _ _ _ _ _ _ (length (commits r ri)) (nth_store c q l) n); auto; [exact (senv_of r q l g ri li (ki_j _ _ _ _ _ _ _ _ _ I) (kjenv _ _ _ _ _ _ _ _ _ _ _ I E))|exact (ke_lenv _ _ _ _ _ _ _ _ _ _ E)|exact (koenv _ _ _ _ _ _ _ _ _ _ _ I E)].
Qed.
(** Every entry of the load queue is a load in the reorder buffer that has no value yet, no
    two entries the same one; its position is the number of stores before it in program order. *)
Theorem c77_loads_in_step : forall W r q l g pend pos c acc, kreach W r q l g pend pos c acc ->
  (forall j, l_st (lq (ld l) j) <> LEmpty -> exists e, In e q /\ is_ld (q_uop e) = true /\ q_idx e = l_rob (lq (ld l) j) /\ have e = false) /\
  (forall j j', l_st (lq (ld l) j) <> LEmpty -> l_st (lq (ld l) j') <> LEmpty -> l_rob (lq (ld l) j) = l_rob (lq (ld l) j') -> j = j') /\
  (forall j, LvLoads.live (lq (ld l) j) = true -> pos j = c + before (l_rob (lq (ld l) j)) q).
Proof.
  intros W r q l g pend pos c acc H. apply kreach_KI in H. split; [|split].
  - intros j B. destruct (ki_q _ _ _ _ _ _ _ _ _ H j B) as (e & A & X). apply loads_in in A as [A A']. exists e. auto.
  - intros j j' A B. exact (ki_inj _ _ _ _ _ _ _ _ _ H j j' A B).
  - intros j L. exact (ki_p _ _ _ _ _ _ _ _ _ H j L).
Qed.
(** A load commits only with a value reported by the load/store unit. If it did not fault and
    is cached, the value is that of its bytes in the memory made by exactly the stores before it in
    program order, in that order: those committed before this cycle and those this cycle. *)
Lemma committed_src W r q l g pend pos c acc ri li n e w : KI W r q l g pend pos c acc -> kenv W r q l g pend pos c ri li ->
  n + sn (st (fst (lsu_cycle l li))) = length (squash li (scc (st l) + taken (st l) (length (commits r ri))) (g_ord g ++ map galloc (i_sa li))) ->
  In e (firstn (length (committed r ri)) q) -> is_ld (q_uop e) = true -> b_interrupt (broadcast r ri) = false -> In w (q_reports e) -> group (w_port w) = 0 -> w_pf_load w = false ->
  forall pa f3, acc (q_idx e) = (false, pa, f3) -> let P := c + before (q_idx e) q in let g' := jstep_g r l g ri li n in
  P <= length (g_hist g') /\ src W g' (st (fst (lsu_cycle l li))) P pa f3 (w_result w).
Proof.
  intros I E LN IC LD NI IW G0 PF pa f3 AC. cbv zeta. pose proof (kjenv _ _ _ _ _ _ _ _ _ _ _ I E) as JE. pose proof (ki_j _ _ _ _ _ _ _ _ _ I) as J. pose proof (ki_v _ _ _ _ _ _ _ _ _ I) as VV. pose proof (ji_r _ _ _ _ J) as R.
  pose proof (koenv _ _ _ _ _ _ _ _ _ _ _ I E) as OE. pose proof (senv_of r q l g ri li J JE) as SE. destruct (commit_facts r q l g ri li J JE) as (_ & _ & NL & _ & _ & TK).
  pose proof (step_stores W l g pend pos li _ _ _ n (vi_g _ _ _ _ _ VV) SE OE eq_refl LN) as SS. cbv zeta in SS. fold (jstep_g r l g ri li n) in SS. destruct SS as (_ & CA & HL & _ & GB & BS & _). rewrite TK in HL.
  pose proof (ji_len _ _ _ _ (JI_step r q l g ri li n J JE LN)) as LN'. pose proof (c_at _ _ _ _ _ _ _ _ _ I) as CE. pose proof (before_in r q l g ri li J JE e IC) as BI. assert (IL : In e (loads q)) by (apply loads_in; split; [exact (in_firstn _ _ _ IC)|exact LD]).
  destruct (ki_d _ _ _ _ _ _ _ _ _ I e w IL IW G0) as [_ SR]. specialize (SR PF pa f3 AC). split; [lia|]. apply (src_step W (LsuModel.i_flush li) g (st l)); [exact CA|exact SR|lia|].
  intros F. rewrite (ki_c _ _ _ _ _ _ _ _ _ I). rewrite (je_flush _ _ _ _ _ _ _ JE) in F. pose proof (c04_flush_and_cause r q ri R NI) as FC. destruct (firstn (length (committed r ri)) q) as [|x [|y t]] eqn:FN; [destruct IC| |destruct FC as [FC _]; rewrite FC in F; discriminate].
  destruct IC as [<-|[]]. destruct q as [|z q0]; [rewrite firstn_nil in FN; discriminate|]. destruct (length (committed r ri)); [discriminate|]. cbn [firstn] in FN. injection FN as -> _. cbn [before]. rewrite Nat.eqb_refl. lia.
Qed.
Theorem c77_committed_load : forall W r q l g pend pos c acc ri li n e, kreach W r q l g pend pos c acc -> kenv W r q l g pend pos c ri li ->
  n + sn (st (fst (lsu_cycle l li))) = length (squash li (scc (st l) + taken (st l) (length (commits r ri))) (g_ord g ++ map galloc (i_sa li))) ->
  In e (firstn (length (committed r ri)) q) -> is_ld (q_uop e) = true -> b_interrupt (broadcast r ri) = false ->
  let P := c + before (q_idx e) q in let H := g_hist (jstep_g r l g ri li n) in
  P <= length H /\ (exists w, In w (q_reports e) /\ kind (w_port w) = P_load) /\
  forall w, In w (q_reports e) -> group (w_port w) = 0 -> kind (w_port w) = P_load /\
    (w_pf_load w = false -> forall pa f3, acc (q_idx e) = (false, pa, f3) -> load_f3 f3 -> no_wrap pa f3 -> aligned pa f3 -> (forall h, In h (firstn P H) -> plain h = true -> wf h) ->
     w_result w = isa_load (run_stores (filter plain (firstn P H)) (bytes_of W)) pa f3).
Proof.
  intros W r q l g pend pos c acc ri li n e KR E LN IC LD NI. cbv zeta. pose proof (kreach_KI _ _ _ _ _ _ _ _ _ KR) as I. pose proof (ki_j _ _ _ _ _ _ _ _ _ I) as J. pose proof (kjenv _ _ _ _ _ _ _ _ _ _ _ I E) as JE.
  assert (IL : In e (loads q)) by (apply loads_in; split; [exact (in_firstn _ _ _ IC)|exact LD]). split; [|split].
  - pose proof (kreach_KI _ _ _ _ _ _ _ _ _ (kreach_step _ _ _ _ _ _ _ _ _ _ _ _ KR E LN)) as I'. rewrite (ki_c _ _ _ _ _ _ _ _ _ I'). pose proof (before_in r q l g ri li J JE e IC). lia.
  - destruct (ki_s _ _ _ _ _ _ _ _ _ I e IL) as (_ & _ & X). destruct (c04_committed_is_complete r q ri e (ji_r _ _ _ _ J) IC NI 0 X) as (w & W1 & W2). exists w. split; [exact W1|]. apply (ki_d _ _ _ _ _ _ _ _ _ I e w IL W1 W2).
  - intros w IW G0. split; [apply (ki_d _ _ _ _ _ _ _ _ _ I e w IL IW G0)|]. intros PF pa f3 AC LF NW AL WF. destruct (committed_src W r q l g pend pos c acc ri li n e w I E LN IC LD NI IW G0 PF pa f3 AC) as [LE SR]. exact (src_value _ _ _ _ _ _ _ SR LE LF NW AL WF).
Qed.

(** *** Sequential execution *)
Lemma treach_kreach W r q l g pend pos c acc T : treach W r q l g pend pos c acc T -> kreach W r q l g pend pos c acc.
Proof. induction 1 as [acc|r q l g pend pos c acc T ri li n H IH E LN]; [exact (kreach0 W acc)|now apply (kreach_step W r q l g pend pos c acc ri li n)]. Qed.
Lemma stores_of_app a b : stores_of (a ++ b) = stores_of a ++ stores_of b. Proof. apply flat_map_app. Qed.
Lemma ld_ops_none acc e : stores_of (ld_ops acc e) = [].
Proof. unfold ld_ops. destruct (find _ _) as [w|]; [|reflexivity]. destruct (acc (q_idx e)) as [[[|] pa] f3]; [reflexivity|]. now destruct (w_pf_load w). Qed.
Lemma ops_stores b acc c q H : NoDup (map q_idx q) -> forall a rest, q = a ++ rest -> stores_of (flat_map (ops b acc c q H) a) = map (fun j => nth (c + j) H h0) (seq 0 (length (stores a))).
Proof.
  intros ND a. induction a as [|e a IH] using rev_ind; intros rest Q; [reflexivity|]. rewrite <- app_assoc in Q. cbn [app] in Q. rewrite flat_map_app, stores_of_app, (IH _ Q), stores_app, app_length, stores_cons. change (stores []) with (@nil qent).
  assert (NI : ~ In (q_idx e) (map q_idx a)). { rewrite Q, map_app in ND. cbn [map] in ND. apply NoDup_remove_2 in ND. intros X. apply ND, in_app_iff. now left. }
  assert (BE : before (q_idx e) q = length (stores a)) by (rewrite Q, before_app_r by exact NI; cbn [before]; rewrite Nat.eqb_refl; lia).
  cbn [flat_map]. rewrite app_nil_r. unfold ops at 1. rewrite stores_of_app. assert (X : stores_of (if negb b && is_ld (q_uop e) then ld_ops acc e else []) = []) by (destruct (_ && _); [apply ld_ops_none|reflexivity]). rewrite X. cbn [app].
  destruct (is_st (q_uop e)); cbn [stores_of flat_map app length]; [|rewrite app_nil_r, Nat.add_0_r; reflexivity]. rewrite Nat.add_1_r, seq_S, map_app. cbn [map]. now rewrite BE.
Qed.
Lemma ops_split b acc c q H es T1 pa f3 v T2 : flat_map (ops b acc c q H) es = T1 ++ MLoad pa f3 v :: T2 ->
  exists a e t, es = a ++ e :: t /\ T1 = flat_map (ops b acc c q H) a /\ b = false /\ is_ld (q_uop e) = true /\ exists w, In w (q_reports e) /\ group (w_port w) = 0 /\ w_pf_load w = false /\ acc (q_idx e) = (false, pa, f3) /\ v = w_result w.
Proof.
  revert T1. induction es as [|e es IH]; intros T1 E; [destruct T1; discriminate|]. cbn [flat_map] in E.
  assert (HE : exists L S0, ops b acc c q H e = L ++ S0 /\ (L = [] \/ exists pa f3 v, L = [MLoad pa f3 v] /\ b = false /\ is_ld (q_uop e) = true /\ exists w, In w (q_reports e) /\ group (w_port w) = 0 /\ w_pf_load w = false /\ acc (q_idx e) = (false, pa, f3) /\ v = w_result w) /\ (forall x, In x S0 -> exists h, x = MStore h)).
  { unfold ops. eexists _, _. split; [reflexivity|]. split.
    - destruct (negb b && is_ld (q_uop e)) eqn:B; [|now left]. apply andb_true_iff in B as [B1 B2]. apply negb_true_iff in B1. unfold ld_ops. destruct (find _ _) as [w|] eqn:F; [|now left]. destruct (acc (q_idx e)) as [[[|] pa1] f1] eqn:A; [now left|]. destruct (w_pf_load w) eqn:P; [now left|]. right.
      apply find_some in F as [F1 F2]. apply Nat.eqb_eq in F2. exists pa1, f1, (w_result w). split; [reflexivity|]. split; [exact B1|]. split; [exact B2|]. exists w. auto.
    - intros x X. destruct (is_st (q_uop e)); [|destruct X]. destruct X as [<-|[]]. eauto. }
  destruct HE as (L & S0 & HE & HL & HS). rewrite HE in E.
  assert (DEEP : forall T0, flat_map (ops b acc c q H) es = T0 ++ MLoad pa f3 v :: T2 -> T1 = ops b acc c q H e ++ T0 -> exists a e0 t, e :: es = a ++ e0 :: t /\ T1 = flat_map (ops b acc c q H) a /\ b = false /\ is_ld (q_uop e0) = true /\ exists w, In w (q_reports e0) /\ group (w_port w) = 0 /\ w_pf_load w = false /\ acc (q_idx e0) = (false, pa, f3) /\ v = w_result w).
  { intros T0 E0 ET. destruct (IH T0 E0) as (a & e0 & t & A1 & A2 & A3). exists (e :: a), e0, t. split; [now rewrite A1|]. split; [cbn [flat_map]; now rewrite <- A2|exact A3]. }
  assert (SS : forall S1 T0, S1 ++ flat_map (ops b acc c q H) es = T0 ++ MLoad pa f3 v :: T2 -> (forall x, In x S1 -> exists h, x = MStore h) -> exists T3, T0 = S1 ++ T3 /\ flat_map (ops b acc c q H) es = T3 ++ MLoad pa f3 v :: T2).
  { clear. induction S1 as [|x S1 IH]; intros T0 E HS; [exists T0; auto|]. destruct T0 as [|y T0]; cbn [app] in E.
    - exfalso. destruct (HS x (or_introl eq_refl)) as (h & ->). discriminate.
    - injection E as <- E. destruct (IH T0 E) as (T3 & -> & X); [intros z Z0; apply HS; now right|]. exists T3. auto. }
  destruct HL as [->|(pa1 & f1 & v1 & -> & B1 & B2 & B3)].
  - cbn [app] in *. destruct (SS S0 T1 E HS) as (T3 & X1 & X2). apply (DEEP T3 X2). rewrite HE. exact X1.
  - cbn [app] in E. destruct T1 as [|y T1]; cbn [app] in E.
    + injection E as -> -> -> E. exists [], e, es. split; [reflexivity|]. split; [reflexivity|]. auto.
    + injection E as <- E. destruct (SS S0 T1 E HS) as (T3 & X1 & X2). apply (DEEP T3 X2). rewrite HE, X1. reflexivity.
Qed.
Lemma hist_prefix (H0 H : list hst) h2 c m : H = H0 ++ h2 -> length H0 = c -> c + m <= length H -> H0 ++ map (fun j => nth (c + j) H h0) (seq 0 m) = firstn (c + m) H.
Proof.
  intros E L LE. rewrite (firstn_seq h0) by exact LE. rewrite seq_app, map_app. f_equal.
  - rewrite <- (firstn_all H0) at 1. rewrite (firstn_seq h0) by lia. rewrite L. apply map_ext_in. intros p P. apply in_seq in P. rewrite E, app_nth1 by lia. reflexivity.
  - cbn [Nat.add]. clear LE. assert (X : forall a, map (fun j => nth (c + j) H h0) (seq a m) = map (fun p => nth p H h0) (seq (c + a) m)); [|rewrite (X 0), Nat.add_0_r; reflexivity]. induction m as [|m IH]; intros a; [reflexivity|]. cbn [seq map]. f_equal. rewrite IH. now rewrite Nat.add_succ_r.
Qed.
Lemma prefix_app {A} (T U : list A) T1 x T2 : T ++ U = T1 ++ x :: T2 -> (exists T3, T = T1 ++ x :: T3) \/ exists T3, T1 = T ++ T3 /\ U = T3 ++ x :: T2.
Proof.
  revert T1. induction T as [|a T IH]; intros T1 E; [right; exists T1; auto|]. destruct T1 as [|b T1]; cbn [app] in E; injection E as -> E; [left; now exists T|]. destruct (IH T1 E) as [(T3 & ->)|(T3 & -> & X)]; [left; now exists T3|right; exists T3; auto].
Qed.
(** The whole run is a sequential execution: the stores of the trace are the history of the
    store queue, and every load of the trace has the value of its bytes in the memory made by the
    stores before it in the trace. *)
Theorem c77_sequential : forall W r q l g pend pos c acc T, treach W r q l g pend pos c acc T -> stores_of T = g_hist g /\
  forall T1 pa f3 v T2, T = T1 ++ MLoad pa f3 v :: T2 -> load_f3 f3 -> no_wrap pa f3 -> aligned pa f3 -> (forall h, In h (stores_of T1) -> plain h = true -> wf h) ->
    v = isa_load (run_stores (filter plain (stores_of T1)) (bytes_of W)) pa f3.
Proof.
  intros W r q l g pend pos c acc T H. induction H as [acc|r q l g pend pos c acc T ri li n H IH E LN]; [split; [reflexivity|]; intros T1 pa f3 v T2 X; destruct T1; discriminate|].
  destruct IH as [IS IV]. pose proof (treach_kreach _ _ _ _ _ _ _ _ _ _ H) as KR. pose proof (kreach_KI _ _ _ _ _ _ _ _ _ KR) as I. pose proof (kreach_KI _ _ _ _ _ _ _ _ _ (kreach_step _ _ _ _ _ _ _ _ _ _ _ _ KR E LN)) as I'.
  pose proof (ki_c _ _ _ _ _ _ _ _ _ I) as CL. pose proof (ki_c _ _ _ _ _ _ _ _ _ I') as CL'. pose proof (k_nodup _ _ _ _ _ _ _ _ _ I) as ND. pose proof (ki_j _ _ _ _ _ _ _ _ _ I) as J. pose proof (kjenv _ _ _ _ _ _ _ _ _ _ _ I E) as JE.
  set (k := length (committed r ri)) in *. set (H' := g_hist (jstep_g r l g ri li n)) in *. assert (HE : H' = g_hist g ++ newly (st l) li (length (commits r ri))) by reflexivity. set (b := b_interrupt (broadcast r ri)) in *.
  assert (NL : length (stores (firstn k q)) = length (commits r ri)) by exact (n_len r q l g ri li J JE).
  split.
  - rewrite stores_of_app, IS, (ops_stores b acc c q H' ND (firstn k q) (skipn k q)) by (symmetry; apply firstn_skipn). rewrite (hist_prefix _ _ _ c (length (stores (firstn k q))) HE CL) by lia. rewrite NL, <- CL'. apply firstn_all.
  - intros T1 pa f3 v T2 X LF NW AL WF. apply prefix_app in X as [(T3 & X)|(T3 & -> & X)]; [exact (IV T1 pa f3 v T3 X LF NW AL WF)|].
    apply ops_split in X as (a & e & t & FQ & -> & NB & LD & w & W1 & W2 & W3 & W4 & ->). assert (Q : q = a ++ e :: t ++ skipn k q) by (rewrite <- (firstn_skipn k q) at 1; rewrite FQ, <- app_assoc; reflexivity).
    assert (IC : In e (firstn k q)) by (rewrite FQ; apply in_app_iff; right; now left).
    assert (NIn : ~ In (q_idx e) (map q_idx a)). { rewrite Q, map_app in ND. cbn [map] in ND. apply NoDup_remove_2 in ND. intros Y. apply ND, in_app_iff. now left. }
    assert (BE : before (q_idx e) q = length (stores a)) by (rewrite Q at 1; rewrite before_app_r by exact NIn; cbn [before]; rewrite Nat.eqb_refl; lia).
    destruct (c77_committed_load W r q l g pend pos c acc ri li n e KR E LN IC LD NB) as (PL & _ & CV). fold H' in PL, CV. rewrite BE in PL, CV.
    assert (SO : stores_of (T ++ flat_map (ops b acc c q H') a) = firstn (c + length (stores a)) H') by (rewrite stores_of_app, IS, (ops_stores b acc c q H' ND a _ Q); exact (hist_prefix _ _ _ c _ HE CL PL)).
    rewrite SO in *. exact (proj2 (CV w W1 W2) W3 pa f3 W4 LF NW AL WF).
Qed.
(** With the store queue drained the data cache holds what the committed stores made. *)
Theorem c77_final_memory : forall W r q l g pend pos c acc T, treach W r q l g pend pos c acc T -> scc (st l) = 0 -> (forall h, In h (stores_of T) -> plain h = true -> h_wf h) ->
  forall x, bytes_of (fold_left perform (g_log g) W) x = run_stores (filter plain (stores_of T)) (bytes_of W) x.
Proof.
  intros W r q l g pend pos c acc T H D WF x. destruct (c77_sequential _ _ _ _ _ _ _ _ _ _ H) as [SE _]. rewrite SE in *. destruct (c77_runs _ _ _ _ _ _ _ _ _ (treach_kreach _ _ _ _ _ _ _ _ _ _ H)) as (JR & _). destruct (c74_run_of_the_store_queue_partial r q l g c JR) as (SR & _). exact (c24_drained_memory l g SR WF D W x).
Qed.

(** *** Runs checked by computation *)
Definition kenvb (W : Z -> Z) (r : rob) (q : list qent) (l : lsu) (g : gs) (pend : list dlreq) (pos : nat -> nat) (c : nat) (ri : rob_in) (li : lin) : bool :=
  let o := snd (lsu_cycle l li) in let new := arrivals (enq_ptr r) 0 (i_fire ri) in let l7 := checkpt l li in
  jenvb true r q l g ri li && lenvb l pend li && (nodupb (map sd_idx (i_std li)) && forallb (fun x => negb (s_dv (sq (st l) (sd_idx x)))) (i_std li)) &&
  nats_eqb (map la_rob (i_la li)) (map q_idx (loads new)) &&
  forallb (fun e => let p := g_b g + sn (st l) + before (q_idx e) new in (stq_of (q_uop e) =? p mod 16) && Bool.eqb (flag_of (q_uop e)) (Nat.odd (p / 16)) && Z.testbit (u_expect (q_uop e)) 0) (loads new) &&
  forallb (fun x => forallb (fun e => negb (q_idx e =? lr_rob x) || (lr_si x =? stq_of (q_uop e)) && Bool.eqb (lr_sf x) (flag_of (q_uop e))) (loads q)) (i_ldr li) &&
  forallb (fun x => negb (sa_sc x)) (i_sta li) && match RobModel.i_mispred ri with None => true | _ => false end &&
  forallb (fun w => match kind (w_port w) with P_load => existsb (fun o => (w_rob o =? w_idx w) && negb (w_sta o) && Bool.eqb (w_pfl o) (w_pf_load w) && (w_res o =? w_result w)%Z) (o_wb o) | _ => true end) (i_wb ri) &&
  forallb (fun w => memory_report w || forallb (fun e => negb (w_idx w =? q_idx e) || negb (group (w_port w) =? 0)) (loads q)) (i_wb ri) &&
  forallb (fun p => match dl_rep (fst p) with RHit => (dl_data (fst p) =? fold_left perform (g_log g) W (q_addr (snd p) / 4))%Z | _ => true end) (combine (i_dl li) pend) &&
  forallb (fun j => let e := lq (ld l7) j in let P := pos1 li (nth_store c q l) pos j in negb (chk e) || (P <=? g_b g + 16) &&
     forallb (fun k => let x := ent (st l7) k in (P <=? g_b g + k) || negb (known x) || negb (match check_stlf (l_pa e) (l_f3 e) (s_pa x) (s_f3 x) with Overlap => true | _ => false end) ||
       negb (s_lrsc x) && negb (s_mmio x) && negb (s_sup x)) (seq 0 16)) (seq 0 LDQ_SIZE).
Lemma kenvb_ok W r q l g pend pos c ri li : kenvb W r q l g pend pos c ri li = true -> kenv W r q l g pend pos c ri li.
Proof.
  unfold kenvb. cbv zeta. intros H. do 11 (let B := fresh "B" in apply andb_true_iff in H as [H B]).
  rewrite forallb_forall in B, B0, B1, B2, B4, B5, B6. apply andb_true_iff in B8 as [B8 B8']. rewrite forallb_forall in B8'. constructor.
  - exact (je_base _ _ _ _ _ _ _ (jenvb_ok _ _ _ _ _ _ _ H)).
  - now apply lenvb_ok.
  - split; [now apply nodupb_ok|]. intros x X. now apply negb_true_iff, B8'.
  - now apply nats_eqb_ok.
  - intros e X. specialize (B6 e X). cbv zeta in *. apply andb_true_iff in B6 as [B6 Y]. apply andb_true_iff in B6 as [Y1 Y2]. split; [now apply Nat.eqb_eq|]. split; [now apply Bool.eqb_prop|exact Y].
  - intros x e X IE EQ. specialize (B5 x X). rewrite forallb_forall in B5. specialize (B5 e IE). rewrite EQ, Nat.eqb_refl in B5. cbn [negb orb] in B5. apply andb_true_iff in B5 as [Y1 Y2]. split; [now apply Nat.eqb_eq|now apply Bool.eqb_prop].
  - intros x e X SC. specialize (B4 x X). rewrite SC in B4. discriminate.
  - intros idx j M. rewrite M in B3. discriminate.
  - intros w X K. specialize (B2 w X). rewrite K in B2. apply existsb_exists in B2 as (y & Y & B2). apply andb_true_iff in B2 as [B2 Y4]. apply andb_true_iff in B2 as [B2 Y3]. apply andb_true_iff in B2 as [Y1 Y2]. exists y. split; [exact Y|]. split; [now apply Nat.eqb_eq|]. split; [now apply negb_true_iff|]. split; [now apply Bool.eqb_prop|now apply Z.eqb_eq].
  - intros w e X MR IE EQ. specialize (B1 w X). rewrite MR in B1. cbn [orb] in B1. rewrite forallb_forall in B1. specialize (B1 e IE). rewrite EQ, Nat.eqb_refl in B1. cbn [negb orb] in B1. apply negb_true_iff, Nat.eqb_neq in B1. exact B1.
  - intros m x y X Y HT. specialize (B0 _ (in_combine_nth _ _ _ _ _ X Y)). cbn [fst snd] in B0. rewrite HT in B0. apply Z.eqb_eq in B0. exists []. split; [intros z []|]. now rewrite app_nil_r.
  - intros j k e x J C Kk Kn OV. specialize (B j ltac:(apply in_seq; lia)). fold x in B. rewrite C in B. cbn [negb orb] in B. apply andb_true_iff in B as [A B]. apply Nat.leb_le in A. rewrite forallb_forall in B. specialize (B k ltac:(apply in_seq; lia)). fold e in B. rewrite Kn, OV in B. cbn [negb] in B. rewrite !orb_false_r in B.
    apply orb_true_iff in B as [B|B]; [apply Nat.leb_le in B; lia|]. apply andb_true_iff in B as [B X3]. apply andb_true_iff in B as [X1 X2]. apply negb_true_iff in X1, X2, X3. auto.
Qed.
(** One cycle of a run: what is dispatched, sent to the load/store unit and answered to it. The
    commits, and the reports of loads and store addresses, follow. *)
Record kp := Kp { k_fire : list (option ruop); k_irq : bool; k_wb : list wback; k_dl : list (replay * Z); k_ds : list dsresp; k_std : list stadata; k_sta : list staddr; k_ldr : list ldreq; k_ml : list mmuresp; k_ms : list mmuresp; k_la : list lalloc; k_sa : list salloc }.
Definition k_li (r : rob) (pend : list dlreq) (p : kp) : lin := let ri := RobIn None (k_irq p) false false [] (k_fire p) in
  LIn (commits r ri) (b_flush (broadcast r ri)) false 0 0 None true (map (fun q => DL (q_id (fst q)) (fst (snd q)) (snd (snd q))) (combine pend (k_dl p))) (k_ds p) None (k_std p) (k_sta p) (k_ldr p) (k_ml p) (k_ms p) None (k_la p) (k_sa p).
Definition k_ri (o : lout) (p : kp) : rob_in :=
  RobIn None (k_irq p) false false (k_wb p ++ map (fun w => WBack (if w_sta w then 4 else 2) (w_rob w) false (w_pfl w) (w_pfs w) false 0 (w_res w) false false false) (o_wb o)) (k_fire p).
Fixpoint kruns (W : Z -> Z) (r : rob) (q : list qent) (l : lsu) (g : gs) (pend : list dlreq) (pos : nat -> nat) (c : nat) (acc : nat -> bool * Z * Z) (T : list mop) (ps : list kp) : option (rob * list qent * lsu * gs * list dlreq * (nat -> nat) * nat * (nat -> bool * Z * Z) * list mop) :=
  match ps with
  | [] => Some (r, q, l, g, pend, pos, c, acc, T)
  | p :: t => let li := k_li r pend p in let '(l', o) := lsu_cycle l li in let ri := k_ri o p in let q0 := squash li (scc (st l) + taken (st l) (length (commits r ri))) (g_ord g ++ map galloc (i_sa li)) in
      if kenvb W r q l g pend pos c ri li && (sn (st l') <=? length q0) then let g' := jstep_g r l g ri li (length q0 - sn (st l')) in
        kruns W (rob_step r ri) (q_step q r ri) l' g' (o_dl o) (pos1 li (nth_store c q l) pos) (c + length (commits r ri)) (accs l acc)
          (T ++ flat_map (ops (b_interrupt (broadcast r ri)) acc c q (g_hist g')) (firstn (length (committed r ri)) q)) t
      else None
  end.
Lemma kruns_reach W ps : forall r q l g pend pos c acc T r' q' l' g' pend' pos' c' acc' T', treach W r q l g pend pos c acc T -> kruns W r q l g pend pos c acc T ps = Some (r', q', l', g', pend', pos', c', acc', T') -> treach W r' q' l' g' pend' pos' c' acc' T'.
Proof.
  induction ps as [|p t IH]; intros r q l g pend pos c acc T r' q' l' g' pend' pos' c' acc' T' R E; cbn [kruns] in E; [injection E as <- <- <- <- <- <- <- <- <-; exact R|]. cbv zeta in E. destruct (lsu_cycle l (k_li r pend p)) as [l1 o] eqn:LC. destruct (_ && _) eqn:B; [|discriminate]. apply andb_true_iff in B as [B1 B2]. apply Nat.leb_le in B2.
  set (n := length (squash _ _ _) - sn (st l1)) in E. refine (IH _ _ _ _ _ _ _ _ _ _ _ _ _ _ _ _ _ _ _ E). apply kenvb_ok in B1. pose proof (treach_step W r q l g pend pos c acc T (k_ri o p) (k_li r pend p) n R B1) as X. rewrite LC in X. cbn [fst snd] in X. apply X. unfold n. lia.
Qed.
(** SW, LW of the same word (forwarded), LBU of another word (from the cache) and SB, in two groups
    of two: all commit, and the trace is the program with what the loads read. *)
Definition ex_k_uop (t : inst_type) (expect : Z) (rest : nat) : ruop := RUop t false false false false false expect 0 0 false false false rest.
Definition ex_kp : list kp := let no := [None; None] in let idle := Kp no false [] [] [] [] [] [] [] [] [] [] in
  [ Kp [Some (ex_k_uop T_STORE 6 0); Some (ex_k_uop T_LOAD 1 1)] false [] [] [] [] [] [] [] [] [LA 0 0 1 false] [SA 0 0 false 2 false];
    Kp [Some (ex_k_uop T_LOAD 1 1); Some (ex_k_uop T_STORE 6 1)] false [] [] [] [StD 0 0 false 0x11223344] [StA 0 0 false 0x1000 2 0 false] [] [] [MR (MHit 0x80001000) 0 0] [LA 1 0 2 false] [SA 0 3 false 0 false];
    Kp no false [rep 6 0] [] [] [StD 1 3 false 0xAA] [StA 1 3 false 0x1001 0 0 false] [LdR 0 1 false 0x1000 2 40 1 false false; LdR 1 2 false 0x1004 4 41 1 false false] [MR (MHit 0x80001000) 0 0; MR (MHit 0x80001004) 1 1] [MR (MHit 0x80001001) 1 1] [] [];
    Kp no false [rep 6 3] [(RHit, 0x55%Z)] [] [] [] [] [] [] [] []; idle; idle; idle; idle ].
Definition ex_k_W : Z -> Z := fun a => if (a =? 0x80001004 / 4)%Z then 0x55%Z else 0%Z.
Definition kview (x : option (rob * list qent * lsu * gs * list dlreq * (nat -> nat) * nat * (nat -> bool * Z * Z) * list mop)) := match x with Some (r, q, l, g, pend, pos, c, acc, T) => Some (length q, c, T) | None => None end.
Example c77_run_ex : exists r q l g pend pos c acc T, treach ex_k_W r q l g pend pos c acc T /\ q = [] /\ c = 2 /\
  T = [MStore (HS 0x80001000 2 0x11223344 false false); MLoad 0x80001000 2 0x11223344; MLoad 0x80001004 4 0x55; MStore (HS 0x80001001 0 0xAA false false)].
Proof.
  assert (X : kview (kruns ex_k_W rob_init [] lsu0 g0 [] (fun _ => 0) 0 (fun _ => (true, 0%Z, 0%Z)) [] ex_kp) = Some (0, 2, [MStore (HS 0x80001000 2 0x11223344 false false); MLoad 0x80001000 2 0x11223344; MLoad 0x80001004 4 0x55; MStore (HS 0x80001001 0 0xAA false false)])) by (vm_compute; reflexivity).
  destruct (kruns ex_k_W rob_init [] lsu0 g0 [] (fun _ => 0) 0 (fun _ => (true, 0%Z, 0%Z)) [] ex_kp) as [[[[[[[[[r q] l] g] pend] pos] c] acc] T]|] eqn:E; [|discriminate]. cbn [kview] in X. injection X as XQ XC XT. exists r, q, l, g, pend, pos, c, acc, T.
  split; [exact (kruns_reach _ _ _ _ _ _ _ _ _ _ _ _ _ _ _ _ _ _ _ _ (treach0 _ _) E)|]. split; [destruct q; [reflexivity|discriminate]|]. split; [exact XC|exact XT].
Qed.

Print Assumptions c77_runs.
Print Assumptions c77_loads_in_step.
Print Assumptions c77_committed_load.
Print Assumptions c77_sequential.
Print Assumptions c77_final_memory.
