From Verif Require Import Base BaseLemmas CsrModel CsrSpec CsrProofs.
Ltac Zify.zify_post_hook ::= Z.div_mod_to_equations.

(** *** C17 *)
Theorem c17_views s0 s : views (rf s0) -> reach s0 s -> views (rf s).
Proof. intros V. induction 1 as [|s i s' _ IH E]; [exact V|]. exact (step_views _ _ _ IH E). Qed.
Theorem c17_views_reset : views (rf csr_init).
Proof. repeat split; intros k K; cbn; rewrite ?Z.testbit_0_l, ?andb_false_r; reflexivity. Qed.

(** A CSR instruction executes in cycle [i1] and commits in cycle [i2]. *)
Definition executes (i : csr_in) (f3 rs1 src1 : Z) (rd0 : bool) (idx : Z) : Prop :=
  i = let '(we, re, cmd, w) := to_csr f3 rs1 src1 rd0 in
      CsrIn we re idx cmd w false false false false false false false false false 0 0 None None.
Definition commit_in : csr_in := CsrIn false false 0 0 0 true false false false false false false false false 0 0 None None.
Lemma quiet_exc st i : x_intr i = false -> x_ecall i = false -> x_pfi i = false -> x_pfl i = false -> x_pfs i = false ->
  x_ill i = false -> x_mret i = false -> x_sret i = false -> exception st i = (rf st, priv st, FNone).
Proof. intros A B C D E F G H. unfold exception, m_trap, s_trap. rewrite A, B, C, D, E, F, G, H, !andb_false_r. reflexivity. Qed.
(** The register read is the old value and the register ends with the value
    the instruction set prescribes, with the views kept; everything else is
    unchanged. *)
Theorem c17_csr_instruction st f3 rs1 src1 rd0 idx c i1 st1 st2 : views (rf st) -> p_we st = false ->
  In f3 [1; 2; 3; 5; 6; 7] -> cvt idx = Some c -> executes i1 f3 rs1 src1 rd0 idx ->
  csr_step st i1 = Some st1 -> csr_step st1 commit_in = Some st2 ->
  (rd0 = false -> csr_read st i1 = Some (rf st c)) /\ priv st2 = priv st /\ p_we st2 = false /\
  (forall d k, 0 <= k -> Z.testbit (rf st2 d) k =
     if isa_writes f3 rs1 then written c (rf st) (isa_new f3 (isa_operand f3 rs1 src1) (rf st c)) d k else Z.testbit (rf st d) k).
Proof.
  intros V P F C X E1 E2. unfold executes in X. unfold to_csr in X. cbv beta iota zeta in X. subst i1.
  unfold csr_step in E1. rewrite quiet_exc in E1 by reflexivity. cbn -[Z.land cvt nz] in E1. rewrite P in E1.
  injection E1 as <-. unfold csr_step in E2. rewrite quiet_exc in E2 by reflexivity. cbn -[Z.land cvt nz apply_write rmw Z.testbit] in E2.
  split; [intros ->; unfold csr_read; cbn -[cvt]; rewrite orb_true_r, C; reflexivity|].
  assert (W : (f3 =? 1) || (f3 =? 5) || negb (rs1 =? 0) = isa_writes f3 rs1).
  { unfold isa_writes. cbn in F. repeat match goal with H : _ \/ _ |- _ => destruct H end; try contradiction; subst f3; reflexivity. }
  rewrite orb_false_r in E2. rewrite W in E2. destruct (isa_writes f3 rs1) eqn:Wr.
  - rewrite C in E2. cbn -[Z.land cvt nz apply_write rmw Z.testbit] in E2. injection E2 as <-. cbn [rf priv p_we]. split; [reflexivity|split; [reflexivity|]].
    intros d k K. rewrite apply_written by assumption.
    assert (O : (if nz (Z.land f3 4) then rs1 else src1) = isa_operand f3 rs1 src1).
    { unfold isa_operand. cbn in F. repeat match goal with H : _ \/ _ |- _ => destruct H end; try contradiction; subst f3; reflexivity. }
    rewrite O. unfold written, base_bit. rewrite rmw_bits by exact F. reflexivity.
  - cbn in E2. injection E2 as <-. cbn. auto.
Qed.

(** *** The reorder buffer's reports (RobModel): at most one event a cycle. *)
From Verif Require RobModel.
Theorem c18_rob_one_event r i : let b := RobModel.broadcast r i in
  let evs := [RobModel.b_interrupt b; RobModel.b_ecall b; RobModel.b_mret b; RobModel.b_sret b; RobModel.b_pf_store b;
              RobModel.b_pf_load b; RobModel.b_pf_inst b; RobModel.b_illegal b; RobModel.b_csr_commit b] in
  (length (filter (fun x => x) evs) <= 1)%nat /\
  (RobModel.b_interrupt b = true -> RobModel.i_interrupt_req i = true) /\
  (existsb (fun x => x) (tl evs) = true -> RobModel.i_interrupt_req i = false).
Proof.
  cbv zeta. unfold RobModel.broadcast. destruct (RobModel.decide r i) as [d fire] eqn:D.
  assert (Fi : fire = true -> RobModel.i_interrupt_req i = true).
  { intros ->. unfold RobModel.decide in D. destruct (RobModel.is_mis i); [discriminate|]. unfold RobModel.single_part in D.
    destruct (RobModel.first_valid _) as [[k u]|]; [|destruct (RobModel.group_ok r i); discriminate].
    destruct (RobModel.i_interrupt_req i); [reflexivity|]. exfalso. rewrite !andb_false_r in D.
    repeat match type of D with context [if ?x then _ else _] => destruct x end; discriminate. }
  assert (Fs : forall k, d = RobModel.D_single k -> fire = RobModel.i_interrupt_req i).
  { intros k ->. destruct fire; [symmetry; auto|]. unfold RobModel.decide in D. destruct (RobModel.is_mis i); [destruct (RobModel.group_ok r i); discriminate|].
    unfold RobModel.single_part in D. destruct (RobModel.i_interrupt_req i); [|reflexivity]. exfalso.
    destruct (RobModel.lines r (RobModel.deq_ptr r)) as [|e l]; [cbn in D; destruct (RobModel.group_ok r i); discriminate|].
    destruct (RobModel.first_valid (e :: l)) as [[k' u]|]; [|destruct (RobModel.group_ok r i); discriminate].
    cbn [existsb] in D. rewrite orb_true_r in D. cbn [negb andb orb] in D. rewrite !andb_false_r in D. destruct (RobModel.group_ok r i); discriminate. }
  destruct d as [|k|].
  - cbn. split; [destruct fire; cbn; lia|]. split; [exact Fi|discriminate].
  - specialize (Fs k eq_refl). rewrite <- Fs. clear Fi Fs D. destruct fire; cbn [negb orb].
    + rewrite !orb_true_r. cbn. split; [lia|]. split; [reflexivity|discriminate].
    + repeat match goal with |- context [if ?x then _ else _] => destruct x end; cbn; (split; [lia|]); split; auto; discriminate.
  - cbn. split; [destruct fire; cbn; lia|]. split; [exact Fi|discriminate].
Qed.

(** *** C18 *)
Lemma m_status_bit pv ms k : 0 <= k -> 0 <= pv ->
  let ms0 := Z.lor (Z.ldiff ms MSTATUS_MPP) (Z.shiftl (Z.land pv 3) 11) in
  Z.testbit (Z.ldiff (put (on ms0 MSTATUS_MIE) MSTATUS_MPIE ms0) MSTATUS_MIE) k =
  if mem k [3] then false else if mem k [7] then Z.testbit ms 3 else if mem k [11] then Z.testbit pv 0 else if mem k [12] then Z.testbit pv 1 else Z.testbit ms k.
Proof.
  intros K P ms0.
  assert (B : forall j, 0 <= j -> Z.testbit ms0 j = if mem j [11] then Z.testbit pv 0 else if mem j [12] then Z.testbit pv 1 else Z.testbit ms j).
  { intros j J. unfold ms0. mbits J. rewrite Z.shiftl_spec by lia. rewrite Z.land_spec. unfold mem, existsb.
    destruct (Z.eqb_spec j 11) as [->|N1]; [cbn; rewrite ?andb_true_r, ?andb_false_r, ?orb_false_r; reflexivity|]. destruct (Z.eqb_spec j 12) as [->|N2]; [cbn; rewrite ?andb_true_r, ?andb_false_r, ?orb_false_r; reflexivity|]. cbn [orb].
    assert (Z.testbit 3 (j - 11) = false) as ->. { destruct (Z.ltb_spec (j - 11) 0); [apply Z.testbit_neg_r; lia|]. apply (is_w_testbit 2); unfold is_w; lia. }
    now rewrite andb_false_r, orb_false_r, andb_true_r. }
  on_bits. mbits K. rewrite (B 3) by lia. rewrite (B k K). cbn [mem existsb]. cbn -[Z.testbit Z.eqb].
  destruct (Z.eqb_spec k 3) as [->|]; [cbn; now rewrite andb_false_r|]. destruct (Z.eqb_spec k 7) as [->|]; cbn -[Z.testbit Z.eqb]; rewrite ?andb_true_r; reflexivity.
Qed.

Lemma s_status_bit c1 ss ms k : 0 <= k -> is_view SSTATUS_BITS ss ms ->
  let ss0 := put c1 MSTATUS_SPP ss in
  let ss2 := Z.ldiff (put (on ss0 MSTATUS_SIE) MSTATUS_SPIE ss0) MSTATUS_SIE in
  Z.testbit (Z.lor (Z.ldiff ms SSTATUS_MASK) (Z.land ss2 SSTATUS_MASK)) k =
  if mem k [1] then false else if mem k [5] then Z.testbit ms 1 else if mem k [8] then c1 else Z.testbit ms k.
Proof.
  intros K V ss0 ss2.
  assert (B : forall j, 0 <= j -> Z.testbit ss0 j = if mem j [8] then c1 else mem j SSTATUS_BITS && Z.testbit ms j).
  { intros j J. unfold ss0. mbits J. now rewrite (V j J). }
  mbits K. unfold ss2. on_bits. mbits K. rewrite (B 1) by lia. rewrite (B k K).
  change (mem 1 [8]) with false. change (mem 1 SSTATUS_BITS) with true. cbv beta iota.
  assert (M1 : forall a, mem k [a] = (k =? a)) by (intros; cbn; apply orb_false_r). rewrite !M1.
  destruct (mem k SSTATUS_BITS) eqn:M.
  - destruct (k =? 1), (k =? 5), (k =? 8), (Z.testbit ms k), (Z.testbit ms 1), c1; reflexivity.
  - rewrite !(mem_not k SSTATUS_BITS) by (exact M || (cbn; tauto)). destruct (Z.testbit ms k); reflexivity.
Qed.

Lemma nothing_injected st i st' r pv f : x_commit i = false -> x_ext i = None -> x_timer i = None ->
  exception st i = (r, pv, f) -> csr_step st i = Some st' -> rf st' = r /\ priv st' = pv.
Proof. intros C E T X S. unfold csr_step in S. rewrite X, C, E, T in S. cbn in S. injection S as <-. auto. Qed.
Definition no_inject (i : csr_in) : Prop := x_ext i = None /\ x_timer i = None.
Definition legal_priv (st : csr) : Prop := priv st = 0 \/ priv st = 1 \/ priv st = 3.

Lemma trap_m st i st' : legal_priv st -> m_trap st i = true -> x_commit i = false -> no_inject i -> csr_step st i = Some st' ->
  entered_m st st' (x_pc i) (m_cause st i) (tval_of i) /\ redirect st i = FTrap (vector (rf st mtvec) (m_cause st i)).
Proof.
  intros L T C [N1 N2] S. destruct (exception st i) as [[r pv] f] eqn:X. destruct (nothing_injected _ _ _ _ _ _ C N1 N2 X S) as [R P].
  unfold redirect. rewrite X. unfold exception in X. rewrite T in X. injection X as <- <- <-.
  assert (P0 : 0 <= priv st) by (destruct L as [->|[->| ->]]; lia).
  split; [|reflexivity]. unfold entered_m. rewrite R, P. repeat match goal with |- _ /\ _ => split end; try reflexivity.
  1-4: cbn [cset cname_beq]; unfold cset; cbn [cname_beq]; rewrite (m_status_bit (priv st) (rf st mstatus)) by lia; reflexivity.
  intros k K M. unfold cset; cbn [cname_beq]. rewrite (m_status_bit (priv st) (rf st mstatus)) by lia. cbn in M |- *.
  destruct (k =? 3), (k =? 7), (k =? 11), (k =? 12); try discriminate. reflexivity.
Qed.
Lemma trap_s st i st' : views (rf st) -> priv st = 0 \/ priv st = 1 -> m_trap st i = false -> s_trap st i = true -> x_commit i = false -> no_inject i -> csr_step st i = Some st' ->
  entered_s st st' (x_pc i) (s_cause st i) (tval_of i) /\ redirect st i = FTrap (vector (rf st stvec) (s_cause st i)).
Proof.
  intros (V & _) L Tm T C [N1 N2] S. destruct (exception st i) as [[r pv] f] eqn:X. destruct (nothing_injected _ _ _ _ _ _ C N1 N2 X S) as [R P].
  unfold redirect. rewrite X. unfold exception in X. rewrite Tm, T in X. injection X as <- <- <-.
  split; [|reflexivity]. unfold entered_s. rewrite R, P. repeat match goal with |- _ /\ _ => split end; try reflexivity.
  1-3: unfold cset; cbn [cname_beq]; rewrite (s_status_bit (priv st =? 1) (rf st sstatus) (rf st mstatus)) by (lia || exact V); try reflexivity.
  - destruct L as [->| ->]; reflexivity.
  - intros k K M. unfold cset; cbn [cname_beq]. rewrite (s_status_bit (priv st =? 1) (rf st sstatus) (rf st mstatus)) by (lia || exact V). cbn in M |- *.
    destruct (k =? 1), (k =? 5), (k =? 8); try discriminate. reflexivity.
Qed.

(** C18, entry: for every exception and CSR state the trap goes to the
    handler privilege given by delegation, with cause, pc and value saved.
    [_partial]: two cases are excluded because they are wrong: exceptions taken
    in M-mode whose delegation bit is set, and M-mode ecall with medeleg[8]. *)
Definition m_mode_ok (st : csr) (e : exc) : Prop :=
  priv st = 3 -> Z.testbit (rf st medeleg) (match e with E_ecall => 8 | _ => code 3 e end) = false.
Lemma irq_none st : interrupt_req st = false -> any_m (irq_of st) = false /\ any_s (irq_of st) = false.
Proof. apply orb_false_elim. Qed.
Theorem c18_trap_entry_partial st i e st' : views (rf st) -> legal_priv st -> interrupt_req st = false -> m_mode_ok st e ->
  reports i e -> no_inject i -> csr_step st i = Some st' ->
  if target st e =? 1 then entered_s st st' (x_pc i) (code (priv st) e) (exc_tval i e)
  else entered_m st st' (x_pc i) (code (priv st) e) (exc_tval i e).
Proof.
  intros V L Q O R N S. destruct (irq_none st Q) as [Qm Qs]. destruct R as (R1 & R2 & R3 & R4 & R5 & R6 & R7 & R8 & R9).
  assert (Tv : tval_of i = exc_tval i e) by (unfold tval_of; rewrite R6, R7, R8, R9; destruct e; reflexivity). rewrite <- Tv.
  assert (Qm' := Qm). unfold any_m in Qm'. apply orb_false_elim in Qm'. destruct Qm' as [Qm' Q3]. apply orb_false_elim in Qm'. destruct Qm' as [Q1 Q2].
  assert (Qs' := Qs). unfold any_s in Qs'. apply orb_false_elim in Qs'. destruct Qs' as [Qs' Q6]. apply orb_false_elim in Qs'. destruct Qs' as [Q4 Q5].
  assert (Tm : m_trap st i = negb (target st e =? 1) /\ s_trap st i = (target st e =? 1) /\
    (target st e <> 1 -> m_cause st i = code (priv st) e) /\ (target st e = 1 -> s_cause st i = code (priv st) e)).
  { unfold m_trap, s_trap, m_cause, s_cause, target. rewrite Qm, Qs, Q1, Q2, Q3, Q4, Q5, Q6, R1, R5, R6, R7, R8, R9. rewrite !dlg_bit by lia.
    unfold m_mode_ok in O. destruct L as [L|[L|L]]; rewrite L in O |- *; cbn [Z.leb Z.compare andb Z.eqb Z.add code] in *.
    1,2: destruct e; cbn [code Z.add Pos.add Pos.succ andb orb]; rewrite ?andb_false_r; cbn -[Z.testbit];
      match goal with |- context [Z.testbit ?m ?k] => destruct (Z.testbit m k) end; cbn; auto; repeat split; intros; congruence.
    specialize (O eq_refl). destruct e; cbn [code Z.add Pos.add Pos.succ] in O |- *; rewrite O; cbn -[Z.testbit]; repeat split; auto; intros; lia. }
  destruct Tm as (Tm & Ts & Cm & Cs). destruct (Z.eqb_spec (target st e) 1) as [T|T]; cbn [negb] in Tm.
  - rewrite <- (Cs T). apply trap_s; auto. unfold target in T. destruct (Z.leb_spec (priv st) 1); [|discriminate]. destruct L as [L|[L|L]]; lia.
  - rewrite <- (Cm T). now apply trap_m.
Qed.
(** Refuted outside: an illegal instruction in M-mode with medeleg[2] enters
    S-mode; an M-mode ecall with medeleg[8] records cause 0. *)
Definition st_m (dl : Z) : csr := Csr (cset (fun _ => 0) medeleg dl) 3 false 0 0 0.
Theorem c18_trap_never_lowers_privilege_refuted : exists st i st', reports i E_illegal /\ interrupt_req st = false /\ views (rf st) /\
  priv st = 3 /\ csr_step st i = Some st' /\ priv st' = 1.
Proof.
  exists (st_m 4), (CsrIn false false 0 0 0 false false false false false false true false false 0x1000 0 None None).
  eexists. split; [repeat split|]. split; [reflexivity|]. split; [repeat split; intros k K; cbn; rewrite ?Z.testbit_0_l, ?andb_false_r; reflexivity|].
  split; [reflexivity|]. split; reflexivity.
Qed.
Theorem c18_ecall_cause_refuted : exists st i st', reports i E_ecall /\ interrupt_req st = false /\ views (rf st) /\
  priv st = 3 /\ csr_step st i = Some st' /\ rf st' mcause = 0 /\ code 3 E_ecall = 11.
Proof.
  exists (st_m 256), (CsrIn false false 0 0 0 false false true false false false false false false 0x1000 0 None None).
  eexists. split; [repeat split|]. split; [reflexivity|]. split; [repeat split; intros k K; cbn; rewrite ?Z.testbit_0_l, ?andb_false_r; reflexivity|].
  split; [reflexivity|]. split; [reflexivity|]. split; reflexivity.
Qed.

(** C18, return: mret after a trap to M (with the saved registers unchanged)
    resumes at the saved pc with the saved privilege and interrupt enable;
    likewise sret after a trap to S. *)
Theorem c18_mret_inverse st st1 st2 i st3 pc cause tval : legal_priv st -> entered_m st st1 pc cause tval ->
  rf st2 mstatus = rf st1 mstatus -> rf st2 mepc = rf st1 mepc ->
  reports_ret i true -> no_inject i -> csr_step st2 i = Some st3 ->
  redirect st2 i = FRet pc /\ priv st3 = priv st /\ Z.testbit (rf st3 mstatus) 3 = Z.testbit (rf st mstatus) 3.
Proof.
  intros L (_ & Pc & _ & _ & _ & Bp & P0 & P1 & _) Es Ee (R1 & R2 & R3 & R4 & R5 & R6 & R7 & R8 & R9) [N1 N2] S.
  destruct (exception st2 i) as [[r pv] f] eqn:X. destruct (nothing_injected _ _ _ _ _ _ R2 N1 N2 X S) as [R P].
  unfold redirect. rewrite X. unfold exception, m_trap, s_trap in X. rewrite R1, R3, R4, R5, R6, R7, R8, !andb_false_r in X. cbn [orb andb negb] in X.
  injection X as <- <- <-. cbn [snd]. split; [now rewrite Ee, Pc|].
  rewrite P, R. clear P R S. split.
  - change 3 with (Z.ones 2). rewrite Z.land_ones by lia.
    apply (word_ext 2); [lia|apply Z.mod_pos_bound; lia|destruct L as [->|[->| ->]]; unfold is_w; lia|].
    intros k [K1 K2]. rewrite Z.mod_pow2_bits_low by lia. rewrite Z.shiftr_spec by lia.
    assert (k = 0 \/ k = 1) as [->| ->] by lia; rewrite put_bit; cbn [Z.add Pos.add]; rewrite Es.
    + change (Z.testbit MSTATUS_MIE 11) with false. cbn. exact P0.
    + change (Z.testbit MSTATUS_MIE (1 + 11)) with false. cbn. exact P1.
  - unfold cset; cbn [cname_beq]. assert (K : 0 <= 3) by lia. mbits K. cbn -[Z.testbit]. on_bits. rewrite Es, Bp. destruct (Z.testbit (rf st mstatus) 3); reflexivity.
Qed.
Theorem c18_sret_inverse st st1 st2 i st3 pc cause tval : views (rf st2) -> priv st = 0 \/ priv st = 1 -> entered_s st st1 pc cause tval ->
  rf st2 mstatus = rf st1 mstatus -> rf st2 sepc = rf st1 sepc ->
  reports_ret i false -> no_inject i -> csr_step st2 i = Some st3 ->
  redirect st2 i = FRet pc /\ priv st3 = priv st /\ Z.testbit (rf st3 mstatus) 1 = Z.testbit (rf st mstatus) 1.
Proof.
  intros (V & _) L (_ & Pc & _ & _ & _ & Bp & P0 & _) Es Ee (R1 & R2 & R3 & R4 & R5 & R6 & R7 & R8 & R9) [N1 N2] S.
  destruct (exception st2 i) as [[r pv] f] eqn:X. destruct (nothing_injected _ _ _ _ _ _ R2 N1 N2 X S) as [R P].
  unfold redirect. rewrite X. unfold exception, m_trap, s_trap in X. rewrite R1, R3, R4, R5, R6, R7, R8, R9, !andb_false_r in X. cbn [orb andb negb] in X.
  injection X as <- <- <-. cbn [snd]. split; [now rewrite Ee, Pc|].
  rewrite P, R. clear P R S. split.
  - change 1 with (Z.ones 1). rewrite Z.land_ones by lia.
    apply (word_ext 1); [lia|apply Z.mod_pos_bound; lia|destruct L as [->| ->]; unfold is_w; lia|].
    intros k [K1 K2]. rewrite Z.mod_pow2_bits_low by lia. rewrite Z.shiftr_spec by lia.
    assert (k = 0) as -> by lia; rewrite put_bit. change (Z.testbit MSTATUS_SIE (0 + 8)) with false. cbv beta iota. rewrite (V (0 + 8)) by lia. rewrite Es. exact P0.
  - unfold cset; cbn [cname_beq]. assert (K : 0 <= 1) by lia. mbits K. cbn -[Z.testbit put SSTATUS_BITS MSTATUS_SIE]. on_bits. rewrite ?put_bit. cbn -[Z.testbit SSTATUS_BITS]. rewrite (V 5) by lia. rewrite Es, Bp. cbn -[Z.testbit]. rewrite andb_false_r. destruct (Z.testbit (rf st mstatus) 1); reflexivity.
Qed.
(** *** C19 *)
Lemma eval_spec st : legal_priv st -> usual_delegation st ->
  irq_of st = Irq (to_m st 3) (to_m st 7) (to_m st 11) (to_s st 1) (to_s st 5) (to_s st 9).
Proof.
  intros L (D1 & D5 & D9 & D3 & D7 & D11). unfold irq_of, eval_interrupts, to_m, to_s, ready. on_bits.
  rewrite D1, D5, D9, D3, D7, D11. cbn [negb]. rewrite !andb_true_r, !andb_false_r. cbn [orb].
  assert (E : (priv st <? 2) && ((priv st <? 1) || (priv st =? 1) && Z.testbit (rf st mstatus) 1) =
              ((priv st <? 1) || (priv st =? 1) && Z.testbit (rf st mstatus) 1)) by (destruct L as [->|[->| ->]]; reflexivity).
  rewrite E. reflexivity.
Qed.
Lemma to_m_s st n : Z.testbit (rf st mideleg) n = false -> to_s st n = false.
Proof. intros H. unfold to_s. now rewrite H, andb_false_r. Qed.
Lemma to_s_m st n : Z.testbit (rf st mideleg) n = true -> to_m st n = false.
Proof. intros H. unfold to_m. now rewrite H, andb_false_r. Qed.
(** Requests are exact when supervisor interrupts are delegated and machine
    ones are not.  [_partial]: other delegations are wrong (next theorem). *)
Theorem c19_request_partial st : legal_priv st -> usual_delegation st -> (interrupt_req st = true <-> spec_request st).
Proof.
  intros L D. unfold interrupt_req. rewrite (eval_spec st L D). unfold any_m, any_s, spec_request, LINES. cbn [m_soft m_timer m_ext s_soft s_timer s_ext].
  destruct D as (D1 & D5 & D9 & D3 & D7 & D11). rewrite !orb_true_iff. split.
  - cbn [In]. intros [[[H|H]|H]|[[H|H]|H]]; eauto 12.
  - intros (n & I & H). cbn in I. repeat match goal with H : _ \/ _ |- _ => destruct H end; try contradiction; subst n; auto;
      try (rewrite to_m_s in H by assumption; discriminate); try (rewrite to_s_m in H by assumption; discriminate).
Qed.
(** Machine-level requests are exact under every delegation: a machine line
    interrupts into M-mode iff it is pending, enabled and not delegated and the
    hart is below M or has MIE set. *)
Theorem c19_machine_lines_exact st : legal_priv st ->
  m_soft (irq_of st) = to_m st 3 /\ m_timer (irq_of st) = to_m st 7 /\ m_ext (irq_of st) = to_m st 11.
Proof.
  intros L. unfold irq_of, eval_interrupts, to_m, ready. on_bits. cbn [m_soft m_timer m_ext]. repeat split.
Qed.
Example c19_machine_lines_ex :
  m_timer (irq_of (Csr (cset (cset (cset (fun _ => 0) mip 0x80) mie 0x80) mideleg 0x80) 0 false 0 0 0)) = false /\
  m_timer (irq_of (Csr (cset (cset (fun _ => 0) mip 0x80) mie 0x80) 0 false 0 0 0)) = true.
Proof. split; reflexivity. Qed.
(** A pending, enabled, undelegated supervisor software interrupt is not
    requested in M-mode. *)
Theorem c19_request_refuted : exists st, legal_priv st /\ views (rf st) /\ spec_request st /\ interrupt_req st = false.
Proof.
  exists (Csr (cset (cset (cset (cset (cset (fun _ => 0) mip 2) mie 2) sip 2) sie 2) mstatus 8) 3 false 0 0 0).
  split; [right; right; reflexivity|]. split.
  { repeat split; intros k K; cbn -[Z.testbit SSTATUS_BITS SINT_BITS].
    - rewrite Z.testbit_0_l. destruct (mem k SSTATUS_BITS) eqn:M; [|reflexivity]. symmetry. change 8 with (2 ^ 3). rewrite Z.pow2_bits_eqb by lia.
      apply Z.eqb_neq. intros <-. discriminate.
    - change 2 with (2 ^ 1). rewrite Z.pow2_bits_eqb by lia. destruct (Z.eqb_spec 1 k) as [<-|]; [reflexivity|now rewrite andb_false_r].
    - change 2 with (2 ^ 1). rewrite Z.pow2_bits_eqb by lia. destruct (Z.eqb_spec 1 k) as [<-|]; [reflexivity|now rewrite andb_false_r]. }
  split; [exists 1; split; [cbn; tauto|left; reflexivity]|reflexivity].
Qed.

Lemma land_fc t : is_w 32 t -> Z.land t 0xfffffffc = 4 * (t / 4).
Proof.
  intros W. replace (4 * (t / 4)) with (Z.shiftl (Z.shiftr t 2) 2) by (rewrite Z.shiftl_mul_pow2, Z.shiftr_div_pow2 by lia; change (2 ^ 2) with 4; lia).
  apply Z.bits_inj'. intros k K. rewrite Z.land_spec, Z.shiftl_spec by lia. destruct (Z.ltb_spec k 2) as [H|H].
  - rewrite (Z.testbit_neg_r _ (k - 2)) by lia. assert (k = 0 \/ k = 1) as [->| ->] by lia; apply andb_false_r.
  - rewrite Z.shiftr_spec by lia. replace (k - 2 + 2) with k by lia. destruct (Z.ltb_spec k 32).
    + assert (E : Z.testbit 0xfffffffc k = true); [|now rewrite E, andb_true_r]. change 0xfffffffc with (Z.shiftl (Z.ones 30) 2). rewrite Z.shiftl_spec, Z.ones_spec_low by lia. reflexivity.
    + rewrite (is_w_testbit 32 t k) by (auto; lia). reflexivity.
Qed.
Definition tvec_legal (t : Z) : Prop := is_w 32 t /\ (t mod 4 = 0 \/ t mod 4 = 1).
Lemma mode_bit t : tvec_legal t -> on t 1 = (t mod 4 =? 1).
Proof. intros [W [M|M]]; change 1 with (2 ^ 0) at 1; rewrite on_bit by lia; rewrite Z.bit0_odd, Zodd_mod; rewrite M; [assert (t mod 2 = 0) as -> by lia|assert (t mod 2 = 1) as -> by lia]; reflexivity. Qed.
Lemma vector_intr t n : tvec_legal t -> In n LINES -> vector t (2 ^ 31 + n) = spec_vector t true n.
Proof.
  intros T I. unfold vector, spec_vector. rewrite (mode_bit t T).
  assert (O : on (2 ^ 31 + n) (2 ^ 31) = true /\ Z.land (2 ^ 31 + n) 0x7fffffff = n).
  { cbn in I. repeat match goal with H : _ \/ _ |- _ => destruct H end; try contradiction; subst n; split; reflexivity. }
  destruct O as [-> ->]. rewrite !andb_true_r. rewrite (land_fc t) by apply T. destruct T as [W [M|M]]; rewrite M; cbn [Z.eqb Pos.eqb]; [lia|reflexivity].
Qed.

(** The interrupt taken: level, number, saved state and handler address are
    the prescribed ones.  [_partial]: with the usual delegation, and unless the
    external machine interrupt competes with the software or timer one, or the
    supervisor software interrupt with the timer (no external): there the
    order is wrong (next theorem). *)
Theorem c19_taken_partial st i st' n pv : views (rf st) -> legal_priv st -> usual_delegation st ->
  tvec_legal (rf st mtvec) -> tvec_legal (rf st stvec) ->
  ~ (to_m st 11 = true /\ (to_m st 3 = true \/ to_m st 7 = true)) -> ~ (to_s st 1 = true /\ to_s st 5 = true /\ to_s st 9 = false) ->
  spec_choice st = Some (n, pv) -> reports_intr i -> no_inject i -> csr_step st i = Some st' ->
  (pv = 3 -> entered_m st st' (x_pc i) (2 ^ 31 + n) 0 /\ redirect st i = FTrap (spec_vector (rf st mtvec) true n)) /\
  (pv = 1 -> entered_s st st' (x_pc i) (2 ^ 31 + n) 0 /\ redirect st i = FTrap (spec_vector (rf st stvec) true n)).
Proof.
  intros V L D Tm Ts X1 X2 C (R1 & R2 & R3 & R4 & R5 & R6 & R7 & R8 & R9) N S.
  pose proof (eval_spec st L D) as Ev. destruct D as (D1 & D5 & D9 & D3 & D7 & D11).
  assert (Tv : tval_of i = 0) by (unfold tval_of; rewrite R4, R5, R6, R7; reflexivity).
  assert (Q : m_trap st i = (pv =? 3) /\ s_trap st i = any_s (irq_of st) /\ (pv = 3 -> m_cause st i = 2 ^ 31 + n) /\ (pv = 1 -> s_cause st i = 2 ^ 31 + n /\ s_trap st i = true /\ (priv st = 0 \/ priv st = 1)) /\ (pv = 3 \/ pv = 1) /\ In n LINES).
  { unfold m_trap, s_trap, m_cause, s_cause. rewrite R1, R3, R4, R5, R6, R7, Ev, !andb_false_l, !andb_true_r. cbn [andb orb any_m any_s m_soft m_timer m_ext s_soft s_timer s_ext]. unfold any_m, any_s. cbn [m_soft m_timer m_ext s_soft s_timer s_ext].
    unfold spec_choice, LINES, find in C. rewrite !(to_s_m st 9), !(to_s_m st 1), !(to_s_m st 5), !(to_m_s st 11), !(to_m_s st 3), !(to_m_s st 7) in C by assumption.
    rewrite !orb_false_r.
    assert (Ps : forall m, to_s st m = true -> priv st = 0 \/ priv st = 1).
    { intros m. unfold to_s. destruct L as [-> |[-> | ->]]; auto. cbn. rewrite andb_false_r. discriminate. }
    destruct (to_m st 11) eqn:M11.
    { assert (to_m st 3 = false) as -> by (destruct (to_m st 3); [exfalso; apply X1; auto|reflexivity]). assert (to_m st 7 = false) as -> by (destruct (to_m st 7); [exfalso; apply X1; auto|reflexivity]).
      injection C as <- <-. cbn. repeat split; auto; try lia. }
    destruct (to_m st 3); [injection C as <- <-; cbn; repeat split; auto; lia|].
    destruct (to_m st 7); [injection C as <- <-; cbn; repeat split; auto; lia|].
    destruct (to_s st 9) eqn:S9; [injection C as <- <-; cbn; rewrite ?orb_true_r; repeat split; eauto; lia|].
    destruct (to_s st 1) eqn:S1.
    { assert (to_s st 5 = false) as -> by (destruct (to_s st 5); [exfalso; apply X2; auto|reflexivity]). injection C as <- <-. cbn. repeat split; eauto; lia. }
    destruct (to_s st 5) eqn:S5; [|discriminate]. injection C as <- <-. cbn. repeat split; eauto; lia. }
  destruct Q as (Q1 & Q2 & Q3 & Q4 & Q5 & Q6). split; intros ->.
  - destruct (trap_m st i st' L Q1 R2 N S) as [A B]. rewrite (Q3 eq_refl), Tv in A. rewrite (Q3 eq_refl) in B. rewrite vector_intr in B by assumption. auto.
  - destruct (Q4 eq_refl) as (Q7 & Q8 & Q9). destruct (trap_s st i st' V Q9 Q1 Q8 R2 N S) as [A B]. rewrite Q7, Tv in A. rewrite Q7 in B. rewrite vector_intr in B by assumption. auto.
Qed.
(** Wrong order: external and software machine interrupts together are
    reported as the software one. *)
Definition st_prio (pend : Z) : csr := Csr (cset (cset (cset (cset (fun _ => 0) mip pend) mie pend) mideleg 0x222) mstatus 8) 3 false 0 0 0.
Definition intr_in : csr_in := CsrIn false false 0 0 0 false true false false false false false false false 0x1000 0 None None.
Theorem c19_priority_refuted : exists st st', legal_priv st /\ usual_delegation st /\ spec_choice st = Some (11, 3) /\
  csr_step st intr_in = Some st' /\ rf st' mcause = 2 ^ 31 + 3.
Proof. exists (st_prio 0x808). eexists. split; [right; right; reflexivity|]. split; [repeat split|]. split; [reflexivity|]. split; reflexivity. Qed.
Definition st_prio_s (pend : Z) : csr := Csr (cset (cset (cset (fun _ => 0) mip pend) mie pend) mideleg 0x222) 0 false 0 0 0.
Theorem c19_priority_s_refuted : exists st st', legal_priv st /\ usual_delegation st /\ spec_choice st = Some (1, 1) /\
  csr_step st intr_in = Some st' /\ rf st' scause = 2 ^ 31 + 5.
Proof. exists (st_prio_s 0x22). eexists. split; [left; reflexivity|]. split; [repeat split|]. split; [reflexivity|]. split; reflexivity. Qed.
(** Exceptions: the handler address is right in direct mode and wrong (the
    mode bit is left in the address) in vectored mode. *)
Theorem c19_exception_vector_partial t e pv : is_w 32 t -> t mod 4 = 0 -> vector t (code pv e) = spec_vector t false (code pv e).
Proof.
  intros W M. unfold vector, spec_vector. rewrite (mode_bit t) by (split; auto). rewrite M. cbn [Z.eqb andb]. lia.
Qed.
Theorem c19_exception_vector_refuted : exists st i st', reports i E_illegal /\ tvec_legal (rf st mtvec) /\ csr_step st i = Some st' /\
  redirect st i = FTrap 0x1001 /\ spec_vector (rf st mtvec) false 2 = 0x1000.
Proof.
  exists (Csr (cset (fun _ => 0) mtvec 0x1001) 0 false 0 0 0), (CsrIn false false 0 0 0 false false false false false false true false false 0x2000 0 None None).
  eexists. split; [repeat split|]. split; [split; [split; cbn; lia|right; reflexivity]|]. split; [reflexivity|]. split; reflexivity.
Qed.

(** *** C20 *)
(** Cycles, latest first.  A CSR instruction executes when it drives a read or
    a write request; it is alone in the machine (Dispatch), so the instruction
    that commits is the last one that executed. *)
Inductive runs (s0 : csr) : list csr_in -> csr -> Prop :=
| runs_nil : runs s0 [] s0
| runs_cons is s i s' : runs s0 is s -> csr_step s i = Some s' -> runs s0 (i :: is) s'.
Definition executes_csr (i : csr_in) : bool := x_we i || x_re i.
Fixpoint own (is : list csr_in) : option (Z * Z * Z) :=
  match is with
  | [] => None
  | i :: is' => if executes_csr i then (if x_we i then Some (x_idx i, x_cmd i, x_wdata i) else None) else own is'
  end.
(** A write request not followed by a commit: its instruction was squashed. *)
Fixpoint squashed_write (is : list csr_in) : bool :=
  match is with [] => false | i :: is' => negb (x_commit i) && (x_we i || squashed_write is') end.
(** ... before the last CSR instruction executed. *)
Fixpoint earlier_squashed (is : list csr_in) : bool :=
  match is with
  | [] => false
  | i :: is' => if executes_csr i then squashed_write is' else if x_commit i then false else earlier_squashed is'
  end.
Definition disjoint_events (i : csr_in) : Prop := x_commit i = true -> executes_csr i = false.
Lemma pending_is s0 is s : p_we s0 = false -> Forall disjoint_events is -> runs s0 is s -> p_we s = squashed_write is /\
  (p_we s = true -> forall w, own is = Some w -> w = (p_idx s, p_cmd s, p_wdata s)) /\
  (p_we s = true -> own is = None -> earlier_squashed is = true).
Proof.
  intros P0 F R. induction R as [|is s i s' R IH E]; [cbn; rewrite P0; repeat split; discriminate|].
  inversion F as [|? ? Fi Fs]; subst. destruct (IH Fs) as (A & B & C). clear IH F Fs R.
  unfold csr_step in E. destruct (exception s i) as [[r1 pv] f]. unfold disjoint_events, executes_csr in Fi. cbn [squashed_write own earlier_squashed].
  unfold executes_csr. destruct (x_commit i) eqn:Cm; cbn [andb negb] in *.
  - specialize (Fi eq_refl). apply orb_false_elim in Fi. destruct Fi as [Fw Fr]. rewrite Fw, Fr in *. cbn [orb] in *.
    destruct (p_we s) eqn:Pw; [destruct (cvt (p_idx s)); [|discriminate]|]; injection E as <-; cbn; repeat split; discriminate.
  - injection E as <-. cbn [p_we p_idx p_cmd p_wdata]. rewrite A. split; [reflexivity|]. rewrite <- A. destruct (x_we i) eqn:Xw; cbn [orb].
    + split; [intros _ w W; congruence|intros _ W; discriminate].
    + destruct (x_re i) eqn:Xr; [split; [discriminate|intros H _; congruence]|]. split; [exact B|exact C].
Qed.
(** C20: a commit performs exactly the committing instruction's own write, or
    nothing if it has none.  [_partial]: a read-only CSR instruction must not
    follow a squashed writing one. *)
Theorem c20_commit_own_write_partial s0 is s s' : p_we s0 = false -> views (rf s) -> Forall disjoint_events is -> runs s0 is s ->
  csr_step s commit_in = Some s' -> own is <> None \/ earlier_squashed is = false ->
  (own is <> None -> squashed_write is = true) ->
  match own is with
  | Some (idx, cmd, w) => forall c, cvt idx = Some c -> In cmd [1; 2; 3] -> forall d k, 0 <= k -> Z.testbit (rf s' d) k = written c (rf s) (isa_new cmd w (rf s c)) d k
  | None => forall d, rf s' d = rf s d
  end.
Proof.
  intros P0 V F R E H Q. destruct (pending_is s0 is s P0 F R) as (A & B & C). unfold csr_step in E. rewrite quiet_exc in E by reflexivity. cbn -[cvt apply_write rmw] in E.
  destruct (own is) as [[[idx cmd] w]|] eqn:O.
  - rewrite (Q ltac:(discriminate)) in A. rewrite A in E. specialize (B A _ eq_refl). injection B as -> -> ->. intros c Hc Hm d k K. rewrite Hc in E. injection E as <-. cbn [rf].
    rewrite apply_written by assumption. unfold written, base_bit. rewrite <- (rmw_bits (p_cmd s)) by (cbn in *; tauto).
    assert (Z.land (p_cmd s) 3 = p_cmd s) as -> by (cbn in Hm; repeat match goal with H : _ \/ _ |- _ => destruct H end; try contradiction; subst; match goal with H : _ = p_cmd s |- _ => rewrite <- H end; reflexivity). reflexivity.
  - destruct (p_we s) eqn:Pw; [|injection E as <-; reflexivity]. exfalso. destruct H as [H|H]; [congruence|]. rewrite (C eq_refl eq_refl) in H. discriminate.
Qed.
(** Refuted: csrrw mscratch executes, a timer interrupt is taken before it
    commits, and the handler's csrr mcause then performs the squashed write. *)
Definition st20 : csr := Csr (cset (cset (cset (fun _ => 0) mie 128) mstatus 8) mtvec 0x100) 3 false 0 0 0.
Definition x20_write : csr_in := CsrIn true true 0x340 1 0xdead false false false false false false false false false 0 0 None (Some true).
Definition x20_read : csr_in := CsrIn false true 0x342 2 0 false false false false false false false false false 0 0 None None.
Theorem c20_squashed_write_refuted : exists s1 s2 s3 s4, csr_step st20 x20_write = Some s1 /\
  interrupt_req s1 = true /\ csr_step s1 intr_in = Some s2 /\ csr_step s2 x20_read = Some s3 /\ csr_step s3 commit_in = Some s4 /\
  own [x20_read; intr_in; x20_write] = None /\ rf s3 mscratch = 0 /\ rf s4 mscratch = 0xdead.
Proof. repeat eexists; reflexivity. Qed.

(** *** C45 *)
(** Privilege changes only at a reported trap or return. *)
Theorem c45_privilege_change_events st i st' : csr_step st i = Some st' -> priv st' <> priv st ->
  x_intr i = true \/ x_ecall i = true \/ x_pfi i = true \/ x_pfl i = true \/ x_pfs i = true \/ x_ill i = true \/ x_mret i = true \/ x_sret i = true.
Proof.
  intros E N. destruct (x_intr i) eqn:A; auto. destruct (x_ecall i) eqn:B; auto. destruct (x_pfi i) eqn:C; auto. destruct (x_pfl i) eqn:D; auto.
  destruct (x_pfs i) eqn:F; auto 10. destruct (x_ill i) eqn:G; auto 10. destruct (x_mret i) eqn:H; auto 10. destruct (x_sret i) eqn:I; auto 10.
  exfalso. apply N. unfold csr_step in E. rewrite quiet_exc in E by assumption. destruct (x_commit i && p_we st); [destruct (cvt (p_idx st)); [|discriminate]|]; injection E as <-; reflexivity.
Qed.
(** Refuted: user code can raise its privilege by mret, after writing
    mstatus with a CSR instruction. *)
Definition st45 : csr := Csr (fun _ => 0) 0 false 0 0 0.
Definition x45 : csr_in := CsrIn true false 0x300 1 0x1800 false false false false false false false false false 0 0 None None.
Definition mret_in : csr_in := CsrIn false false 0 0 0 false false false false false false false true false 0 0 None None.
Theorem c45_user_escalation_refuted : exists s1 s2 s3, priv st45 = 0 /\ csr_step st45 x45 = Some s1 /\ priv s1 = 0 /\
  csr_step s1 commit_in = Some s2 /\ priv s2 = 0 /\ reports_ret mret_in true /\ csr_step s2 mret_in = Some s3 /\ priv s3 = 3.
Proof. repeat eexists; reflexivity. Qed.

(** Concrete cases. *)
Definition exc_in (e : exc) : csr_in := CsrIn false false 0 0 0 false false
  (match e with E_ecall => true | _ => false end) (match e with E_inst => true | _ => false end) (match e with E_load => true | _ => false end)
  (match e with E_store => true | _ => false end) (match e with E_illegal => true | _ => false end) false false 0x1000 0x55 None None.
Definition st_u : csr := Csr (cset (cset (cset (cset (fun _ => 0) medeleg 0x2000) stvec 0x201) mstatus 0xa) sstatus 2) 0 false 0 0 0.
Example c18_example : reports (exc_in E_load) E_load /\ m_mode_ok st_u E_load /\ interrupt_req st_u = false /\ target st_u E_load = 1 /\
  exists st', csr_step st_u (exc_in E_load) = Some st' /\ priv st' = 1 /\ rf st' sepc = 0x1000 /\ rf st' mstatus = 0x28.
Proof. repeat split; try discriminate. eexists. repeat split; reflexivity. Qed.
Example c19_example : legal_priv (st_prio 0x80) /\ usual_delegation (st_prio 0x80) /\ tvec_legal (rf (st_prio 0x80) mtvec) /\
  spec_choice (st_prio 0x80) = Some (7, 3) /\ reports_intr intr_in.
Proof. repeat split; try (right; right; reflexivity); try (left; reflexivity); cbn; lia. Qed.
Example c20_example : exists s1, csr_step st45 x45 = Some s1 /\ runs st45 [x45] s1 /\ own [x45] = Some (0x300, 1, 0x1800) /\ squashed_write [x45] = true.
Proof. eexists. split; [reflexivity|]. split; [|split; reflexivity]. econstructor; [constructor|reflexivity]. Qed.

(** C17: each register is reached at its architectural address and at no other. *)
Theorem c17_csr_address_map : forall n c, cvt n = Some c <-> n = isa_number c.
Proof.
  intros n c. split.
  - unfold cvt. repeat (match goal with |- context [if ?x =? ?k then _ else _] => destruct (Z.eqb_spec x k); [intros [= <-]; assumption|] end). discriminate.
  - intros ->. destruct c; reflexivity.
Qed.
Example c17_csr_address_map_ex : cvt 0x141 = Some sepc /\ cvt 0x341 = Some mepc /\ cvt 0xc01 = None.
Proof. repeat split. Qed.

Print Assumptions c17_views.
Print Assumptions c17_views_reset.
Print Assumptions c17_csr_instruction.
Print Assumptions c18_rob_one_event.
Print Assumptions c18_trap_entry_partial.
Print Assumptions c18_trap_never_lowers_privilege_refuted.
Print Assumptions c18_ecall_cause_refuted.
Print Assumptions c18_mret_inverse.
Print Assumptions c18_sret_inverse.
Print Assumptions c19_request_partial.
Print Assumptions c19_machine_lines_exact.
Print Assumptions c19_request_refuted.
Print Assumptions c19_taken_partial.
Print Assumptions c19_priority_refuted.
Print Assumptions c19_priority_s_refuted.
Print Assumptions c19_exception_vector_partial.
Print Assumptions c19_exception_vector_refuted.
Print Assumptions c20_commit_own_write_partial.
Print Assumptions c20_squashed_write_refuted.
Print Assumptions c45_privilege_change_events.
Print Assumptions c45_user_escalation_refuted.
Print Assumptions c17_csr_address_map.
