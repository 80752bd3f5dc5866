(** C79: after every flush and mispredict, fetch resumes at the address the
    architecture prescribes. *)
From Verif Require Import Base BaseLemmas RobModel RobSpec RobProofs RobProps CsrModel CsrSpec CsrProofs CsrProps ResModel.

(** *** Specification *)
Definition exc_of (c : cause) : option exc :=
  match c with
  | C_ecall => Some E_ecall | C_store_fault => Some E_store | C_load_fault => Some E_load
  | C_fetch_fault => Some E_inst | C_illegal => Some E_illegal | _ => None end.
(** The interrupt request the reorder buffer sees is the CSR unit's (Csr::comb_interrupt);
    branch redirects come with the mispredict broadcast. *)
Definition joined (i : rob_in) (st : csr) (br : option Z) : Prop :=
  i_interrupt_req i = interrupt_req st /\ (br = None <-> i_mispred i = None).
Definition tvec_of (st : csr) (pv : Z) : Z := if pv =? 1 then rf st stvec else rf st mtvec.

(** *** Proofs *)
Lemma reach_flush_head r q i : RobSpec.reach r q -> b_flush (broadcast r i) = true ->
  exists e q' k u, q = e :: q' /\ committed r i = [(k, u)] /\ tracks e (make_rob_idx (deq_ptr r) k, u) /\ pc_req r = Some u /\ i_mispred i = None.
Proof.
  intros H B. destruct (reach_inv r q H) as (n & W & F).
  unfold broadcast in B. pose proof (decide_decided r n i W) as D.
  destruct (decide r i) as [d fire] eqn:E.
  assert (X : forall k u, is_mis i = false -> first_valid (lines r (deq_ptr r)) = Some (k, u) -> d = D_single k ->
    exists e q' k u, q = e :: q' /\ committed r i = [(k, u)] /\ tracks e (make_rob_idx (deq_ptr r) k, u) /\ pc_req r = Some u /\ i_mispred i = None).
  { intros k u M Fv Ed. rewrite Ed in E. destruct (committed_single_head r q i n k u fire W F Fv E) as (e & q' & Q & T & C & _).
    exists e, q', k, u. split; [exact Q|]. split; [exact C|]. split; [exact T|]. split.
    - unfold pc_req. rewrite Fv. assert (is_empty r = false) as ->; [|reflexivity].
      rewrite (wf_empty _ _ W). destruct n; [|reflexivity]. rewrite (head_empty _ W) in Fv. discriminate.
    - unfold is_mis in M. destruct (i_mispred i); [discriminate|reflexivity]. }
  inversion D as [A|M IR FS DH A Q|k u M IR Fv Q|k u M IR Fv C G Q]; subst; try discriminate; eapply X; eauto.
Qed.

(** The address that goes with a flush is the committing instruction's own. *)
Theorem c79_pc_is_own r q i pc_of old : RobSpec.reach r q -> b_flush (broadcast r i) = true ->
  exists e q' k u, q = e :: q' /\ committed r i = [(k, u)] /\ tracks e (make_rob_idx (deq_ptr r) k, u) /\ bcast_pc r i pc_of old = pc_of u.
Proof.
  intros H B. destruct (reach_flush_head r q i H B) as (e & q' & k & u & Q & C & T & P & _). exists e, q', k, u. split; [exact Q|]. split; [exact C|]. split; [exact T|].
  unfold bcast_pc. now rewrite B, P.
Qed.

Lemma traps_reported st x e : legal_priv st -> interrupt_req st = false -> reports x e -> m_trap st x || s_trap st x = true.
Proof.
  intros L Q (R1 & R2 & R3 & R4 & R5 & R6 & R7 & R8 & R9). unfold m_trap, s_trap. rewrite R5, R6, R7, R8, R9.
  destruct e; cbn [andb orb]; rewrite ?andb_false_l, ?andb_true_l, ?orb_false_r, ?orb_false_l.
  - destruct L as [->|[->| ->]]; cbn [Z.eqb Pos.eqb andb orb]; rewrite ?andb_true_l, ?andb_true_r, ?andb_false_r, ?orb_true_r;
      try destruct (dlg (rf st medeleg) 8); try destruct (dlg (rf st medeleg) 9); cbn; rewrite ?orb_true_r; reflexivity.
  - destruct (dlg (rf st medeleg) 12); cbn; rewrite ?orb_true_r; reflexivity.
  - destruct (dlg (rf st medeleg) 13); cbn; rewrite ?orb_true_r; reflexivity.
  - destruct (dlg (rf st medeleg) 15); cbn; rewrite ?orb_true_r; reflexivity.
  - destruct (dlg (rf st medeleg) 2); cbn; rewrite ?orb_true_r; reflexivity.
Qed.
Lemma traps_intr st x : interrupt_req st = true -> x_intr x = true -> m_trap st x || s_trap st x = true.
Proof.
  intros Q I. unfold interrupt_req in Q. apply orb_true_iff in Q. unfold m_trap, s_trap. rewrite I, !andb_true_r.
  destruct Q as [-> | ->]; cbn [orb]; [reflexivity|]. apply orb_true_r.
Qed.
Lemma redirect_trap st x : m_trap st x || s_trap st x = true -> exists p, redirect st x = FTrap p.
Proof.
  intros T. unfold redirect, exception. destruct (m_trap st x); [eexists; reflexivity|]. cbn in T. rewrite T. eexists. reflexivity.
Qed.
Lemma no_traps st x : x_intr x = false -> x_ecall x = false -> x_pfi x = false -> x_pfl x = false -> x_pfs x = false -> x_ill x = false ->
  m_trap st x = false /\ s_trap st x = false.
Proof. intros A B C D E F. unfold m_trap, s_trap. rewrite A, B, C, D, E, F. rewrite !andb_false_r. auto. Qed.

(** What the reorder buffer reports about the one instruction that flushes. *)
Lemma flush_cases r q i : RobSpec.reach r q -> b_flush (broadcast r i) = true -> b_interrupt (broadcast r i) = false ->
  exists e q', q = e :: q' /\ b_exception (broadcast r i) = faulty e /\ signals (cause_of e) (broadcast r i).
Proof.
  intros H B I. destruct (reach_flush_head r q i H B) as (e & q' & k & u & -> & C & _).
  pose proof (c04_flush_and_cause r (e :: q') i H I) as X. rewrite C in X. cbn in X. exists e, q'. tauto.
Qed.
Lemma reported_or P Q e : reported (fun w => P w || Q w) e = reported P e || reported Q e.
Proof. unfold reported. induction (q_reports e) as [|w l IH]; [reflexivity|]. cbn. rewrite IH. destruct (P w), (Q w), (existsb P l), (existsb Q l); reflexivity. Qed.

Lemma faulty_none e : exc_of (cause_of e) = None -> cause_of e <> C_mret -> cause_of e <> C_sret -> faulty e = false.
Proof.
  intros X M S. unfold faulty.
  assert (R : reported (fun w => memory_report w && (w_pf_inst w || w_pf_load w || w_pf_store w)) e =
    reported (fun w => memory_report w && w_pf_store w) e || reported (fun w => memory_report w && w_pf_load w) e || reported (fun w => memory_report w && w_pf_inst w) e).
  { rewrite <- !reported_or. unfold reported. induction (q_reports e) as [|w l IH]; [reflexivity|]. cbn [existsb]. rewrite IH. f_equal.
    destruct (memory_report w), (w_pf_inst w), (w_pf_load w), (w_pf_store w); reflexivity. }
  rewrite R. unfold cause_of in *.
  destruct (u_type (q_uop e)); try (discriminate X); try congruence;
  destruct (reported (fun w => memory_report w && w_pf_store w) e); try (discriminate X); try (cbn in X; discriminate X);
  destruct (reported (fun w => memory_report w && w_pf_load w) e); try (discriminate X);
  destruct (u_pf_inst (q_uop e)), (reported (fun w => memory_report w && w_pf_inst w) e); try (discriminate X);
  destruct (u_illegal (q_uop e)); try (discriminate X); reflexivity.
Qed.
Lemma quiet_flush r q i : RobSpec.reach r q -> i_mispred i <> None -> b_flush (broadcast r i) = false.
Proof. intros H M. destruct (i_mispred i) as [k|] eqn:E; [|congruence]. destruct (c04_mispredict_holds_commit r q i k H E) as [_ ->]. reflexivity. Qed.
Lemma no_intr_req r q i : RobSpec.reach r q -> b_flush (broadcast r i) = true -> b_interrupt (broadcast r i) = false -> i_interrupt_req i = false.
Proof.
  intros H B I. destruct (reach_flush_head r q i H B) as (e & q' & k & u & -> & _ & _ & _ & M).
  destruct (i_interrupt_req i) eqn:R; [|reflexivity]. exfalso.
  assert (b_interrupt (broadcast r i) = true) by (apply (c04_interrupt_exact r (e :: q') i H); repeat split; auto; discriminate). congruence.
Qed.

(** C79, mispredict: without a flush fetch is redirected exactly for a
    mispredicted branch, to the branch's target; and a flush never displaces a
    branch redirect, because the two do not coincide. *)
Theorem c79_branch r q i st x pc_of tv olds br : RobSpec.reach r q -> joined i st br ->
  (forall t, br = Some t -> redirect_pc r i st x pc_of tv olds br = Some t) /\
  (br = None -> b_flush (broadcast r i) = false -> redirect_pc r i st x pc_of tv olds br = None).
Proof.
  intros H [_ J]. split.
  - intros t ->. unfold redirect_pc, resume. rewrite (quiet_flush r q i H); [reflexivity|]. intros N. apply J in N. discriminate.
  - intros -> F. unfold redirect_pc, resume. now rewrite F.
Qed.
(** C79, exceptions: the handler of the level the delegation selects.
    [_partial]: direct-mode vectors and the delegations of C18. *)
Theorem c79_exception_partial r q i st x pc_of tv olds br e q' ex : RobSpec.reach r q -> joined i st br -> views (rf st) -> legal_priv st ->
  b_flush (broadcast r i) = true -> b_interrupt (broadcast r i) = false -> q = e :: q' -> exc_of (cause_of e) = Some ex ->
  m_mode_ok st ex -> no_inject x -> (forall pv, is_w 32 (tvec_of st pv) /\ tvec_of st pv mod 4 = 0) ->
  exists k u st', committed r i = [(k, u)] /\
    csr_step st (csr_view (broadcast r i) (pc_of u) tv x) = Some st' /\
    (if target st ex =? 1 then entered_s st st' (pc_of u) (code (priv st) ex) (match ex with E_ecall => 0 | _ => tv end)
     else entered_m st st' (pc_of u) (code (priv st) ex) (match ex with E_ecall => 0 | _ => tv end)) /\
    redirect_pc r i st x pc_of tv olds br = Some (spec_vector (tvec_of st (target st ex)) false (code (priv st) ex)).
Proof.
  intros H [J _] V L B I Q X O N T. 
  destruct (c79_pc_is_own r q i pc_of (fst (fst olds)) H B) as (e1 & q1 & k & u & Q1 & C & _ & P). rewrite Q in Q1. injection Q1 as <- <-.
  destruct (flush_cases r q i H B I) as (e2 & q2 & Q2 & Ex & Sg). rewrite Q in Q2. injection Q2 as <- <-.
  pose proof (no_intr_req r q i H B I) as NR. rewrite J in NR.
  set (b := broadcast r i) in *. set (cx := csr_view b (pc_of u) tv x).
  destruct Sg as (S1 & S2 & S3 & S4 & S5 & S6 & S7 & S8 & S9 & S10 & S11 & S12).
  assert (R : reports cx ex).
  { unfold reports, cx, csr_view; cbn [x_intr x_commit x_mret x_sret x_ecall x_pfi x_pfl x_pfs x_ill].
    rewrite I, S1, S2, S3, S4, S5, S6, S7, S10. destruct (cause_of e); try discriminate X; injection X as <-; repeat split. }
  assert (Fe : faulty e = true).
  { unfold faulty. unfold cause_of in X. destruct (ExecModel.it_eqb (u_type (q_uop e)) ExecModel.T_ECALL) eqn:TE; [reflexivity|]. cbn [orb].
    assert (R' : reported (fun w => memory_report w && (w_pf_inst w || w_pf_load w || w_pf_store w)) e =
      reported (fun w => memory_report w && w_pf_store w) e || reported (fun w => memory_report w && w_pf_load w) e || reported (fun w => memory_report w && w_pf_inst w) e).
    { rewrite <- !reported_or. unfold reported. induction (q_reports e) as [|w l IH]; [reflexivity|]. cbn [existsb]. rewrite IH. f_equal.
      destruct (memory_report w), (w_pf_inst w), (w_pf_load w), (w_pf_store w); reflexivity. }
    rewrite R'. destruct (u_type (q_uop e)); try discriminate TE; try discriminate X;
    destruct (reported (fun w => memory_report w && w_pf_store w) e); try (cbn; rewrite ?orb_true_r; reflexivity);
    destruct (reported (fun w => memory_report w && w_pf_load w) e); try (cbn; rewrite ?orb_true_r; reflexivity);
    destruct (u_pf_inst (q_uop e)), (reported (fun w => memory_report w && w_pf_inst w) e); try (cbn; rewrite ?orb_true_r; reflexivity);
    destruct (u_illegal (q_uop e)); try reflexivity; cbn in X; try discriminate X; destruct (u_flush_pipe (q_uop e) || reported w_flush_pipe e); discriminate X. }
  assert (Ncm : x_commit cx = false) by apply R.
  assert (Nst : exists st', csr_step st cx = Some st').
  { unfold csr_step. rewrite Ncm. cbn [andb]. destruct (exception st cx) as [[? ?] ?]. eexists. reflexivity. }
  destruct Nst as [st' Sst].
  assert (Nj : no_inject cx) by exact N.
  pose proof (c18_trap_entry_partial st cx ex st' V L NR O R Nj Sst) as En.
  assert (Tv : exc_tval cx ex = match ex with E_ecall => 0 | _ => tv end) by (destruct ex; reflexivity). rewrite Tv in En.
  exists k, u, st'. split; [exact C|]. split; [exact Sst|]. split; [exact En|].
  unfold redirect_pc. fold b. rewrite P. fold cx. unfold resume. rewrite B, S2, S3.
  assert (MR : (match cause_of e with C_mret => true | _ => false end) || (match cause_of e with C_sret => true | _ => false end) = false)
    by (destruct (cause_of e); try discriminate X; reflexivity).
  rewrite MR, Ex, Fe. f_equal.
  pose proof (traps_reported st cx ex L NR R) as Tr.
  destruct (exception st cx) as [[rr pv] f] eqn:Xc. destruct (nothing_injected _ _ _ _ _ _ Ncm (proj1 Nj) (proj2 Nj) Xc Sst) as [Rr Pv].
  assert (Rd : redirect st cx = f) by (unfold redirect; now rewrite Xc). rewrite Rd. unfold exception in Xc.
  destruct (m_trap st cx) eqn:Mt.
  - injection Xc as Erf Epv Ef. rewrite <- Ef. cbn [trap_pc].
    assert (Tg : target st ex =? 1 = false).
    { destruct (target st ex =? 1) eqn:Tg; [|reflexivity]. exfalso. destruct En as [En _]. congruence. }
    rewrite Tg in En. destruct En as (_ & _ & Ec & _). rewrite Rr, <- Erf in Ec. unfold cset in Ec. cbn [cname_beq] in Ec. rewrite Ec.
    unfold tvec_of. rewrite Tg. specialize (T 3). unfold tvec_of in T. cbn [Z.eqb Pos.eqb] in T. now apply c19_exception_vector_partial.
  - cbn [orb] in Tr. rewrite Tr in Xc. injection Xc as Erf Epv Ef. rewrite <- Ef. cbn [trap_pc].
    assert (Tg : target st ex =? 1 = true).
    { destruct (target st ex =? 1) eqn:Tg; [reflexivity|]. exfalso. destruct En as [En _]. congruence. }
    rewrite Tg in En. destruct En as (_ & _ & Ec & _). rewrite Rr, <- Erf in Ec. unfold cset in Ec. cbn [cname_beq] in Ec. rewrite Ec.
    unfold tvec_of. rewrite Tg. specialize (T 1). unfold tvec_of in T. cbn [Z.eqb Pos.eqb] in T. now apply c19_exception_vector_partial.
Qed.
(** C79, interrupts: the handler of the interrupt the architecture selects;
    the interrupted instruction's own address is saved, so it is the one that
    returns.  [_partial]: as C19. *)
Theorem c79_interrupt_partial r q i st x pc_of tv olds br n pv : RobSpec.reach r q -> joined i st br -> views (rf st) -> legal_priv st -> usual_delegation st ->
  b_interrupt (broadcast r i) = true -> tvec_legal (rf st mtvec) -> tvec_legal (rf st stvec) ->
  ~ (to_m st 11 = true /\ (to_m st 3 = true \/ to_m st 7 = true)) -> ~ (to_s st 1 = true /\ to_s st 5 = true /\ to_s st 9 = false) ->
  spec_choice st = Some (n, pv) -> no_inject x ->
  exists k u st', committed r i = [(k, u)] /\ csr_step st (csr_view (broadcast r i) (pc_of u) tv x) = Some st' /\
    (pv = 3 -> entered_m st st' (pc_of u) (2 ^ 31 + n) 0) /\ (pv = 1 -> entered_s st st' (pc_of u) (2 ^ 31 + n) 0) /\
    (pv = 3 \/ pv = 1) /\ redirect_pc r i st x pc_of tv olds br = Some (spec_vector (tvec_of st pv) true n).
Proof.
  intros H [J _] V L D I Tm Ts X1 X2 Ch N.
  assert (Bq : let b := broadcast r i in b_flush b = true /\ b_exception b = true /\ b_ecall b = false /\ b_mret b = false /\ b_sret b = false /\
    b_pf_store b = false /\ b_pf_load b = false /\ b_pf_inst b = false /\ b_illegal b = false /\ b_csr_commit b = false).
  { cbv zeta. destruct (reach_inv r q H) as (m & W & F). unfold broadcast in *. pose proof (decide_decided r m i W) as Dd.
    destruct (decide r i) as [d fire] eqn:E. inversion Dd as [A|? ? ? ? ? Q|k u ? ? Fv Q|k u ? ? Fv ? ? Q]; subst; try discriminate.
    - rewrite !orb_true_r. cbn. repeat split.
    - exfalso. revert I. repeat match goal with |- context [if ?c then _ else _] => destruct c end; discriminate. }
  cbv zeta in Bq. destruct Bq as (B & Ex & S1 & S2 & S3 & S4 & S5 & S6 & S7 & S10).
  destruct (c79_pc_is_own r q i pc_of (fst (fst olds)) H B) as (e1 & q1 & k & u & Q1 & C & _ & P).
  set (b := broadcast r i) in *. set (cx := csr_view b (pc_of u) tv x).
  assert (R : reports_intr cx) by (unfold reports_intr, cx, csr_view; cbn; repeat split; assumption).
  assert (Ncm : x_commit cx = false) by apply R.
  assert (Nst : exists st', csr_step st cx = Some st').
  { unfold csr_step. rewrite Ncm. cbn [andb]. destruct (exception st cx) as [[? ?] ?]. eexists. reflexivity. }
  destruct Nst as [st' Sst].
  destruct (c19_taken_partial st cx st' n pv V L D Tm Ts X1 X2 Ch R N Sst) as [K3 K1].
  assert (Pv : pv = 3 \/ pv = 1).
  { unfold spec_choice in Ch. destruct (find (to_m st) LINES); [injection Ch as _ <-; now left|]. destruct (find (to_s st) LINES); [injection Ch as _ <-; now right|discriminate]. }
  exists k, u, st'. split; [exact C|]. split; [exact Sst|]. split; [intros E; apply K3; exact E|]. split; [intros E; apply K1; exact E|]. split; [exact Pv|].
  unfold redirect_pc. fold b. rewrite P. fold cx. unfold resume. rewrite B, S2, S3, Ex. cbn [orb]. f_equal.
  destruct Pv as [E|E]; [destruct (K3 E) as [_ ->]|destruct (K1 E) as [_ ->]]; rewrite E; reflexivity.
Qed.
(** C79, returns: mret resumes at mepc, sret at sepc. *)
Theorem c79_return r q i st x pc_of tv olds br e q' : RobSpec.reach r q -> joined i st br ->
  b_flush (broadcast r i) = true -> b_interrupt (broadcast r i) = false -> q = e :: q' ->
  (cause_of e = C_mret -> redirect_pc r i st x pc_of tv olds br = Some (rf st mepc)) /\
  (cause_of e = C_sret -> redirect_pc r i st x pc_of tv olds br = Some (rf st sepc)).
Proof.
  intros H [J _] B I Q. destruct (flush_cases r q i H B I) as (e2 & q2 & Q2 & Ex & Sg). rewrite Q in Q2. injection Q2 as <- <-.
  destruct Sg as (S1 & S2 & S3 & S4 & S5 & S6 & S7 & S8 & S9 & S10 & S11 & S12).
  split; intros E; rewrite E in *; unfold redirect_pc; set (b := broadcast r i) in *; set (cx := csr_view _ _ _ _); unfold resume; rewrite B, S2, S3; cbn [orb]; f_equal;
    (destruct (no_traps st cx) as [M1 M2]; [assumption..|]); unfold redirect, exception; rewrite M1, M2;
    change (x_mret cx) with (b_mret b); change (x_sret cx) with (b_sret b); rewrite S2; try rewrite S3; reflexivity.
Qed.
(** C79, the rest (CSR instructions, fences, refetch after a device access): the
    next instruction in program order. *)
Theorem c79_next r q i st x pc_of tv olds br e q' : RobSpec.reach r q -> joined i st br ->
  b_flush (broadcast r i) = true -> b_interrupt (broadcast r i) = false -> q = e :: q' ->
  exc_of (cause_of e) = None -> cause_of e <> C_mret -> cause_of e <> C_sret ->
  exists k u, committed r i = [(k, u)] /\ redirect_pc r i st x pc_of tv olds br = Some ((pc_of u + 4) mod 2 ^ 32).
Proof.
  intros H [J _] B I Q X M S. destruct (c79_pc_is_own r q i pc_of (fst (fst olds)) H B) as (e1 & q1 & k & u & Q1 & C & _ & P).
  destruct (flush_cases r q i H B I) as (e2 & q2 & Q2 & Ex & Sg). rewrite Q in Q2. injection Q2 as <- <-.
  exists k, u. split; [exact C|]. destruct Sg as (S1 & S2 & S3 & _). unfold redirect_pc, resume. rewrite B, Ex, (faulty_none e X M S), S2, S3, P.
  destruct (cause_of e); try congruence; reflexivity.
Qed.
(** Whatever the three connections held before, the result is the same: trap_pc,
    epc and pc are driven in every cycle in which they are used. *)
Theorem c79_no_leftovers r q i st x pc_of tv olds olds' br : RobSpec.reach r q -> joined i st br -> legal_priv st ->
  redirect_pc r i st x pc_of tv olds br = redirect_pc r i st x pc_of tv olds' br.
Proof.
  intros H [J _] L. unfold redirect_pc. destruct (b_flush (broadcast r i)) eqn:B; [|unfold resume; now rewrite B].
  destruct (c79_pc_is_own r q i pc_of (fst (fst olds)) H B) as (e1 & q1 & k & u & Q1 & C & _ & P). rewrite P.
  destruct (c79_pc_is_own r q i pc_of (fst (fst olds')) H B) as (e3 & q3 & k3 & u3 & Q3 & C3 & _ & P3). rewrite P3.
  rewrite C in C3. injection C3 as <- <-. set (b := broadcast r i) in *. set (cx := csr_view b (pc_of u) tv x). unfold resume. rewrite B. f_equal.
  destruct (b_interrupt b) eqn:I.
  - assert (R : i_interrupt_req i = true) by (apply (c18_rob_one_event r i); exact I). rewrite J in R.
    destruct (redirect_trap st cx (traps_intr st cx R I)) as [p ->].
    assert (Z0 : b_mret b = false /\ b_sret b = false).
    { pose proof (proj1 (c18_rob_one_event r i)) as O. fold b in O. rewrite I in O. destruct (b_mret b), (b_sret b), (b_ecall b), (b_pf_store b), (b_pf_load b), (b_pf_inst b), (b_illegal b), (b_csr_commit b); cbn in O; lia || auto. }
    destruct Z0 as [-> ->]. reflexivity.
  - destruct (flush_cases r q i H B I) as (e2 & q2 & Q2 & Ex & Sg). fold b in Ex, Sg. pose proof (no_intr_req r q i H B I) as NR. rewrite J in NR.
    destruct Sg as (S1 & S2 & S3 & S4 & S5 & S6 & S7 & S8 & S9 & S10 & S11 & S12).
    destruct (exc_of (cause_of e2)) as [ex|] eqn:X.
    + assert (R : reports cx ex).
      { unfold reports, cx, csr_view; cbn [x_intr x_commit x_mret x_sret x_ecall x_pfi x_pfl x_pfs x_ill].
        rewrite I, S1, S2, S3, S4, S5, S6, S7, S10. destruct (cause_of e2); try discriminate X; injection X as <-; repeat split. }
      destruct (redirect_trap st cx (traps_reported st cx ex L NR R)) as [p ->]. cbn [trap_pc epc].
      rewrite S2, S3. destruct (cause_of e2); try discriminate X; reflexivity.
    + destruct (b_mret b) eqn:Mr.
      { destruct (no_traps st cx) as [M1 M2]; try (unfold cx, csr_view; cbn; rewrite ?S1, ?S4, ?S5, ?S6, ?S7; destruct (cause_of e2); try discriminate S2; auto; fail).
        unfold redirect, exception. rewrite M1, M2. change (x_mret cx) with (b_mret b). rewrite Mr. reflexivity. }
      destruct (b_sret b) eqn:Sr.
      { destruct (no_traps st cx) as [M1 M2]; try (unfold cx, csr_view; cbn; rewrite ?S1, ?S4, ?S5, ?S6, ?S7; destruct (cause_of e2); try discriminate S3; auto; fail).
        unfold redirect, exception. rewrite M1, M2. change (x_mret cx) with (b_mret b). change (x_sret cx) with (b_sret b). rewrite Mr, Sr. reflexivity. }
      cbn [orb]. rewrite Ex, (faulty_none e2 X); [reflexivity| |]; intros E; rewrite E in *; congruence.
Qed.

(** Examples: the faulting AMO of RobProps goes to the handler, its address is
    saved; an interrupt on two additions; an mret; a CSR instruction. *)
Definition st79 : csr := Csr (cset (cset (cset (cset (fun _ => 0) mtvec 0x80000100) stvec 0x80002000) mepc 0x4000) sepc 0x8000) 1 false 0 0 0.
Definition st79i : csr := Csr (cset (cset (cset (cset (cset (fun _ => 0) mtvec 0x80000101) stvec 0x80002000) mip 0x80) mie 0x80) mideleg 0x222) 1 false 0 0 0.
Definition x79 : csr_in := CsrIn false false 0 0 0 false false false false false false false false false 0 0 None None.
Definition run79 (l : list rob_in) : rob := fst (run rob_init [] l).
Definition one79 (t : ExecModel.inst_type) : list rob_in := [in_pair (Some (op t 1)) None; in_done [done 0 0]].
Example c79_examples :
  redirect_pc (run79 amo_fault) idle st79 x79 (fun _ => 0x1000) 64 (7, 7, 7) None = Some 0x80000100 /\
  redirect_pc (run79 [in_pair (Some (op ExecModel.T_ADD 1)) (Some (op ExecModel.T_ADD 2))]) (RobIn None true false false [] [None; None])
    st79i x79 (fun _ => 0x1000) 0 (7, 7, 7) None = Some 0x8000011c /\
  redirect_pc (run79 (one79 ExecModel.T_MRET)) idle st79 x79 (fun _ => 0x1000) 0 (7, 7, 7) None = Some 0x4000 /\
  redirect_pc (run79 (one79 ExecModel.T_SRET)) idle st79 x79 (fun _ => 0x1000) 0 (7, 7, 7) None = Some 0x8000 /\
  redirect_pc (run79 (one79 ExecModel.T_CSR)) idle st79 x79 (fun _ => 0x1000) 0 (7, 7, 7) None = Some 0x1004 /\
  redirect_pc (run79 (one79 ExecModel.T_ADD)) idle st79 x79 (fun _ => 0x1000) 0 (7, 7, 7) None = None.
Proof. vm_compute. repeat split. Qed.
(** The hypotheses of [c79_exception_partial] and [c79_interrupt_partial] hold for the first two. *)
Example c79_hypotheses : joined idle st79 None /\ legal_priv st79 /\ views (rf st79) /\ m_mode_ok st79 E_store /\
  (forall pv, is_w 32 (tvec_of st79 pv) /\ tvec_of st79 pv mod 4 = 0) /\
  joined (RobIn None true false false [] [None; None]) st79i None /\ usual_delegation st79i /\ spec_choice st79i = Some (7, 3) /\
  tvec_legal (rf st79i mtvec) /\ tvec_legal (rf st79i stvec).
Proof.
  assert (L0 : forall k, Z.testbit 0 k = false) by apply Z.bits_0.
  split; [split; [reflexivity|split; reflexivity]|]. split; [right; left; reflexivity|].
  split; [repeat split; intros k K; cbn -[Z.testbit mem]; rewrite L0, andb_false_r; reflexivity|].
  split; [intros E; discriminate E|].
  split; [intros pv; unfold tvec_of; destruct (pv =? 1); split; try reflexivity; split; cbn; lia|].
  split; [split; [reflexivity|split; reflexivity]|]. split; [repeat split|]. split; [reflexivity|].
  split; (split; [split; cbn; lia|]); [right|left]; reflexivity.
Qed.

Print Assumptions c79_pc_is_own.
Print Assumptions c79_branch.
Print Assumptions c79_exception_partial.
Print Assumptions c79_interrupt_partial.
Print Assumptions c79_return.
Print Assumptions c79_next.
Print Assumptions c79_no_leftovers.
