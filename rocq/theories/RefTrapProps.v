(** C60: traps and returns in the reference CPU and in the core. *)
From Verif Require Import Base BaseLemmas CsrModel CsrSpec CsrProofs CsrProps ExecModel RefModel RefExecProofs RefStepProofs RefExecProps RefCsrProps.
Ltac Zify.zify_post_hook ::= Z.div_mod_to_equations.
#[local] Opaque Z.pow Z.land Z.lor Z.lxor Z.shiftl Z.shiftr Z.ldiff.

(** The base of the trap vector is aligned; vectored mode only where it matters. *)
Definition tvec_ok (intr : bool) (t : Z) : Prop := is_w 32 t /\ (t mod 4 = 0 \/ (intr = true /\ t mod 4 = 1)).
Lemma land_fc t : is_w 32 t -> Z.land t 0xfffffffc = t - t mod 4.
Proof.
  unfold is_w. change (2 ^ 32) with 4294967296. intros W. rewrite <- (Z.mod_small t 4294967296) at 1 by exact W. change 4294967296 with (2 ^ 32).
  rewrite <- Z.land_ones by lia. rewrite <- Z.land_assoc. change (Z.land (Z.ones 32) 0xfffffffc) with 0xfffffffc.
  assert (X : t - t mod 4 = Z.shiftl (Z.shiftr t 2) 2) by (rewrite Z.shiftl_mul_pow2, Z.shiftr_div_pow2 by lia; change (2 ^ 2) with 4; lia). rewrite X.
  apply Z.bits_inj'. intros n Hn. rewrite Z.land_spec, Z.shiftl_spec by lia.
  destruct (Z.ltb_spec n 2) as [L|L].
  - rewrite (Z.testbit_neg_r _ (n - 2)) by lia. assert (E : n = 0 \/ n = 1) by lia. destruct E as [-> | ->]; apply andb_false_r.
  - rewrite Z.shiftr_spec by lia. replace (n - 2 + 2) with n by lia. destruct (Z.ltb_spec n 32) as [L2|L2].
    + change 0xfffffffc with (Z.shiftl (Z.ones 30) 2). rewrite Z.shiftl_spec, Z.ones_spec_low by lia. apply andb_true_r.
    + assert (T : Z.testbit t n = false). { destruct (Z.eq_dec t 0) as [->|]; [apply Z.testbit_0_l|]. apply Z.bits_above_log2; [lia|]. assert (Z.log2 t < 32) by (apply Z.log2_lt_pow2; [lia|change (2 ^ 32) with 4294967296; lia]). lia. }
      rewrite T. reflexivity.
Qed.
Lemma odd_land t : nz (Z.land t 1) = (t mod 2 =? 1).
Proof. change 1 with (Z.ones 1) at 1. rewrite Z.land_ones by lia. change (2 ^ 1) with 2. unfold nz. destruct (Z.eqb_spec (t mod 2) 0), (Z.eqb_spec (t mod 2) 1); try reflexivity; lia. Qed.
Lemma vector_same b t c : tvec_ok b t -> nz (Z.land c (2 ^ 31)) = b -> ref_vector t c = vector t c.
Proof.
  intros (W & A) B. unfold ref_vector, vector, on. rewrite odd_land, B. destruct A as [A|(-> & A)].
  - replace (t mod 2 =? 1) with false by (symmetry; apply Z.eqb_neq; lia). cbn [andb]. rewrite land_fc by exact W. lia.
  - replace (t mod 2 =? 1) with true by (symmetry; apply Z.eqb_eq; lia). reflexivity.
Qed.

(** What the reorder buffer reports is what the reference sees: ecall, faults, and the
    interrupt exactly when a line is up. *)
Record matches (s : ref) (st : csr) (i : csr_in) (tv : Z) : Prop := {
  k_same : same s st;
  k_irq : r_irq s = irq_of st;
  k_intr : x_intr i = interrupt_req st;
  k_pc : x_pc i = r_pc s;
  k_tval : tval_of i = tv;
  k_ecall : x_ecall i = (r_inst s =? INST_ECALL);
  k_pfi : x_pfi i = f_pfi (r_flags s);
  k_pfl : x_pfl i = f_pfl (r_flags s);
  k_pfs : x_pfs i = f_pfs (r_flags s);
  k_ill : x_ill i = f_ill (r_flags s);
  k_ill_m : x_ill i = true -> dlg (rf st medeleg) 2 = false;
  k_ret : m_trap st i || s_trap st i = false -> x_mret i = (r_inst s =? INST_MRET) /\ x_sret i = (r_inst s =? INST_SRET) }.
(** Registers, privilege and next program counter. *)
Definition agrees (s : ref) (s' : ref) (x : regs * Z * front) : Prop :=
  let '(r, pv, f) := x in
  (forall d, r_csr s' d = r d) /\ r_priv s' = pv /\ r_gpr s' = r_gpr s /\ r_mem s' = r_mem s /\ r_dev s' = r_dev s /\
  r_pc s' = match f with FNone => w32 (r_pc s + 4) | FTrap p | FRet p => p end.
Lemma add_lor (b : bool) k : In k [0; 1; 2; 3; 5; 7; 8; 9; 11; 12; 13; 15] ->
  Z.lor (if b then 2 ^ 31 else 0) k = (if b then 2 ^ 31 else 0) + k /\ nz (Z.land ((if b then 2 ^ 31 else 0) + k) (2 ^ 31)) = b.
Proof. cbn [In]. intros H. repeat destruct H as [<-|H]; try contradiction; destruct b; vm_compute; split; reflexivity. Qed.
Ltac pick := repeat match goal with |- In (if ?b then _ else _) _ => destruct b end; cbn [In]; lia.

Theorem c60_same_trap s st i tv : matches s st i tv ->
  (m_trap st i = true -> tvec_ok (any_m (irq_of st)) (rf st mtvec)) -> (s_trap st i = true -> tvec_ok (any_s (irq_of st)) (rf st stvec)) ->
  agrees s (ref_exception tv s) (exception st i).
Proof.
  intros [(C & P) Q I PC TV EC PI PL PS IL DM RT] TM TS. unfold ref_exception. cbv zeta. rewrite !C, P, Q.
  assert (AM : any_m (irq_of st) && x_intr i = m_soft (irq_of st) || m_timer (irq_of st) || m_ext (irq_of st)).
  { rewrite I. unfold interrupt_req. unfold any_m at 1 2. destruct (m_soft (irq_of st)), (m_timer (irq_of st)), (m_ext (irq_of st)); reflexivity. }
  assert (AS : any_s (irq_of st) && x_intr i = s_soft (irq_of st) || s_timer (irq_of st) || s_ext (irq_of st)).
  { rewrite I. unfold interrupt_req. unfold any_s at 1 2. destruct (s_soft (irq_of st)), (s_timer (irq_of st)), (s_ext (irq_of st)); rewrite ?orb_true_r; reflexivity. }
  assert (ILM : x_ill i && negb (dlg (rf st medeleg) 2) = x_ill i /\ x_ill i && dlg (rf st medeleg) 2 = false).
  { destruct (x_ill i); [rewrite DM by reflexivity|]; split; reflexivity. }
  destruct ILM as (I1 & I2).
  rewrite <- EC, <- PI, <- PL, <- PS, <- IL.
  set (mt := _ || x_ill i). assert (MT : mt = m_trap st i).
  { unfold mt, m_trap. cbv zeta. rewrite AM, I1.
    assert (W : (priv st =? 0) && negb (dlg (rf st medeleg) 8) && x_ecall i = x_ecall i && (priv st =? 0) && negb (dlg (rf st medeleg) 8)) by (destruct (priv st =? 0), (dlg (rf st medeleg) 8), (x_ecall i); reflexivity).
    rewrite W. reflexivity. }
  set (strp := (_ || (x_pfs i && dlg (rf st medeleg) 15))). assert (SM : strp = s_trap st i).
  { unfold strp, s_trap. cbv zeta. rewrite AS, I2, orb_false_r. reflexivity. }
  rewrite MT, SM. clearbody mt strp.
  unfold exception. cbv zeta. destruct (m_trap st i) eqn:EM; [|destruct (s_trap st i) eqn:ES].
  - clear RT. specialize (TM eq_refl). set (code := if m_soft (irq_of st) then 3 else _).
    assert (HC : In code [0; 1; 2; 3; 5; 7; 8; 9; 11; 12; 13; 15]) by (unfold code; pick).
    destruct (add_lor (any_m (irq_of st)) code HC) as (L & B). assert (MC : Z.lor (if m_soft (irq_of st) || m_timer (irq_of st) || m_ext (irq_of st) then 2 ^ 31 else 0) code = m_cause st i) by exact L.
    change ((if any_m (irq_of st) then 2 ^ 31 else 0) + code) with (m_cause st i) in B.
    rewrite MC. rewrite (vector_same _ _ _ TM B). unfold agrees. cbn [wc set_csr set_priv set_pc r_csr r_priv r_gpr r_mem r_dev r_pc].
    split; [|repeat split; reflexivity]. intros d. unfold put, on, SSTATUS_MASK. unfold cset. rewrite PC, TV. destruct d; cbn [cname_beq]; try reflexivity; apply C.
  - clear RT. specialize (TS eq_refl). set (code := if s_ext (irq_of st) || _ then 9 else _).
    assert (HC : In code [0; 1; 2; 3; 5; 7; 8; 9; 11; 12; 13; 15]) by (unfold code; pick).
    assert (CC : code = (if s_ext (irq_of st) || (x_ecall i && (priv st =? 1) && dlg (rf st medeleg) 9) then 9 else if s_timer (irq_of st) then 5
        else if x_ecall i && (priv st =? 0) && dlg (rf st medeleg) 8 then 8 else if s_soft (irq_of st) then 1
        else if x_pfi i && dlg (rf st medeleg) 12 then 12 else if x_pfl i && dlg (rf st medeleg) 13 then 13 else if x_pfs i && dlg (rf st medeleg) 15 then 15
        else if x_ill i && dlg (rf st medeleg) 2 then 2 else 0)) by (rewrite I2; reflexivity).
    destruct (add_lor (any_s (irq_of st)) code HC) as (L & B).
    assert (MC : (if any_s (irq_of st) then 2 ^ 31 else 0) + code = s_cause st i) by (unfold s_cause; cbv zeta; rewrite CC; reflexivity).
    rewrite MC in L, B. change (if s_soft (irq_of st) || s_timer (irq_of st) || s_ext (irq_of st) then 2 ^ 31 else 0) with (if any_s (irq_of st) then 2 ^ 31 else 0).
    rewrite L. rewrite (vector_same _ _ _ TS B). unfold agrees. cbn [wc set_csr set_priv set_pc r_csr r_priv r_gpr r_mem r_dev r_pc].
    split; [|repeat split; reflexivity]. intros d. unfold put, on, SSTATUS_MASK. unfold cset. rewrite PC, TV. destruct d; cbn [cname_beq]; try reflexivity; try apply C. now rewrite C.
  - destruct (RT eq_refl) as (R1 & R2). rewrite <- R1, <- R2. destruct (x_mret i); [|destruct (x_sret i)].
    + unfold agrees. cbn [wc set_csr set_priv set_pc r_csr r_priv r_gpr r_mem r_dev r_pc]. unfold put, on, SSTATUS_MASK, cset, shr. cbn [cname_beq].
      split; [intros d; destruct d; cbn [cname_beq]; try reflexivity; apply C|]. repeat split; try reflexivity. apply C.
    + unfold agrees. cbn [wc set_csr set_priv set_pc r_csr r_priv r_gpr r_mem r_dev r_pc]. unfold put, on, SSTATUS_MASK, cset, shr. cbn [cname_beq]. rewrite ?C.
      split; [intros d; destruct d; cbn [cname_beq]; try reflexivity; apply C|]. repeat split; reflexivity.
    + unfold agrees. cbn [set_pc r_csr r_priv r_gpr r_mem r_dev r_pc]. split; [exact C|]. split; [exact P|]. repeat split; reflexivity.
Qed.

(** *** The calls of exec that trap *)
Lemma riscv_trap e s : r_flags s = clear ->
  any_m (lines e s) || any_s (lines e s) || (r_inst s =? INST_ECALL) || (r_inst s =? INST_MRET) || (r_inst s =? INST_SRET) = true ->
  riscv e s = zero_x0 (Done (ref_exception 0 (ready e s (lines e s)))).
Proof.
  intros F A. unfold riscv. cbv zeta. fold (lines e s). fold (ready e s (lines e s)).
  destruct (sync_fields e s) as (_ & _ & _ & _ & _ & SI & SF & _). rewrite SI.
  assert (QF : r_flags (ready e s (lines e s)) = clear) by (unfold ready; cbn [set_irq r_flags]; now rewrite SF). rewrite QF.
  unfold clear. cbn [f_pfi f_pfl f_pfs f_ill]. rewrite !andb_false_l, !orb_false_r.
  set (asy := _ || (r_inst s =? INST_SRET)).
  assert (T : asy || (r_inst s =? INST_ECALL) = true).
  { unfold asy. destruct (any_m (lines e s)), (any_s (lines e s)), (r_inst s =? INST_ECALL), (r_inst s =? INST_MRET), (r_inst s =? INST_SRET); try discriminate A; rewrite ?orb_true_r; reflexivity. }
  assert (NW : (r_inst s =? INST_WFI) && negb asy = false).
  { destruct (Z.eqb_spec (r_inst s) INST_WFI) as [K|]; [|reflexivity]. cbn [andb]. rewrite K in T. change (INST_WFI =? INST_ECALL) with false in T. rewrite orb_false_r in T. now rewrite T. }
  rewrite NW, T. reflexivity.
Qed.
(** [agrees] and register zero: exec clears it last. *)
Definition traps (e : renv) (s : ref) (x : regs * Z * front) : Prop :=
  exists s', exec e s = Done s' /\ agrees s (set_gpr s' (r_gpr s)) x /\ forall r, r <> 0 -> r_gpr s' r = r_gpr s r.
Lemma traps_of e s w x : fetches e s w -> any_m (lines e s) || any_s (lines e s) || (w =? INST_ECALL) || (w =? INST_MRET) || (w =? INST_SRET) = true ->
  agrees s (ref_exception 0 (ready e (begin s w) (lines e s))) x -> traps e s x.
Proof.
  intros FE A G. unfold traps. rewrite (exec_begin _ _ _ FE), (riscv_trap e (begin s w) eq_refl A). cbn [zero_x0]. eexists. split; [reflexivity|].
  rewrite lines_begin. set (t := ref_exception 0 (ready e (begin s w) (lines e s))) in *. clearbody t. destruct x as ((r & pv) & f). destruct G as (GC & GP & GG & GM & GD & GQ).
  split; [repeat split; assumption|]. intros k N. cbn [wr set_gpr r_gpr]. unfold RefModel.upd. destruct (Z.eqb_spec k 0); [contradiction|]. now rewrite GG.
Qed.
Lemma no_trap_bits st i : x_ecall i = false -> x_pfi i = false -> x_pfl i = false -> x_pfs i = false -> x_ill i = false ->
  m_trap st i = any_m (irq_of st) && x_intr i /\ s_trap st i = any_s (irq_of st) && x_intr i.
Proof. intros A B C D E. unfold m_trap, s_trap. cbv zeta. rewrite A, B, C, D, E, !andb_false_l, !orb_false_r. split; reflexivity. Qed.

(** An interrupt at any instruction but ecall and ebreak. *)
Theorem c60_interrupt_same_trap e s w st i : fetches e s w -> w <> INST_ECALL -> same (sync_timer e s) st -> interrupt_req st = true ->
  reports_intr i -> x_pc i = r_pc s -> tvec_ok true (rf st mtvec) -> tvec_ok true (rf st stvec) -> traps e s (exception st i).
Proof.
  intros FE NE SA IR (RI & _ & RE & R1 & R2 & R3 & R4 & RM & RS) PC TM TS. pose proof (lines_same _ _ _ SA) as LS.
  apply (traps_of e s w); [exact FE|rewrite LS; unfold interrupt_req in IR; now rewrite IR|].
  destruct (no_trap_bits st i RE R1 R2 R3 R4) as (EM & ES). rewrite RI, andb_true_r in EM, ES.
  assert (G : agrees (ready e (begin s w) (lines e s)) (ref_exception 0 (ready e (begin s w) (lines e s))) (exception st i)).
  { apply c60_same_trap.
    - constructor; try assumption; try (rewrite ?R1, ?R2, ?R3, ?R4; reflexivity).
      + now rewrite RI, IR.
      + unfold tval_of. now rewrite R1, R2, R3, R4.
      + rewrite RE. symmetry. now apply Z.eqb_neq.
      + rewrite R4. discriminate.
      + rewrite EM, ES. unfold interrupt_req in IR. rewrite IR. discriminate.
    - intros E. rewrite EM in E. rewrite E. exact TM.
    - intros E. rewrite ES in E. rewrite E. exact TS. }
  exact G.
Qed.
(** ecall, no interrupt pending. *)
Theorem c60_ecall_same_trap e s st i : fetches e s INST_ECALL -> same (sync_timer e s) st -> interrupt_req st = false ->
  reports i E_ecall -> x_pc i = r_pc s -> tvec_ok false (rf st mtvec) -> tvec_ok false (rf st stvec) -> traps e s (exception st i).
Proof.
  intros FE SA IR (RI & _ & RM & RS & RE & R1 & R2 & R3 & R4) PC TM TS. pose proof (lines_same _ _ _ SA) as LS.
  assert (NM : any_m (irq_of st) = false /\ any_s (irq_of st) = false) by (unfold interrupt_req in IR; apply orb_false_iff in IR; exact IR). destruct NM as (NM & NS).
  apply (traps_of e s INST_ECALL); [exact FE|rewrite LS, NM, NS; reflexivity|].
  assert (G : agrees (ready e (begin s INST_ECALL) (lines e s)) (ref_exception 0 (ready e (begin s INST_ECALL) (lines e s))) (exception st i)).
  { apply c60_same_trap.
    - constructor; try assumption; try (rewrite ?RE, ?R1, ?R2, ?R3, ?R4; reflexivity).
      + now rewrite RI, IR.
      + unfold tval_of. now rewrite R1, R2, R3, R4.
      + rewrite R4. discriminate.
      + rewrite RM, RS. intros _. split; reflexivity.
    - rewrite NM. intros _. exact TM.
    - rewrite NS. intros _. exact TS. }
  exact G.
Qed.
(** mret and sret, no interrupt pending. *)
Theorem c60_return_same e s st i (m : bool) : fetches e s (if m then INST_MRET else INST_SRET) -> same (sync_timer e s) st -> interrupt_req st = false ->
  reports_ret i m -> x_pc i = r_pc s -> traps e s (exception st i).
Proof.
  intros FE SA IR (RI & _ & RE & R1 & R2 & R3 & R4 & RM & RS) PC. pose proof (lines_same _ _ _ SA) as LS. set (w := if m then INST_MRET else INST_SRET) in *.
  assert (NM : any_m (irq_of st) = false /\ any_s (irq_of st) = false) by (unfold interrupt_req in IR; apply orb_false_iff in IR; exact IR). destruct NM as (NM & NS).
  assert (W : (w =? INST_ECALL) = false /\ (w =? INST_MRET) = m /\ (w =? INST_SRET) = negb m) by (unfold w; destruct m; repeat split; reflexivity). destruct W as (W1 & W2 & W3).
  apply (traps_of e s w); [exact FE|rewrite LS, NM, NS, W1, W2, W3; destruct m; reflexivity|].
  destruct (no_trap_bits st i RE R1 R2 R3 R4) as (EM & ES). rewrite NM in EM. rewrite NS in ES.
  assert (G : agrees (ready e (begin s w) (lines e s)) (ref_exception 0 (ready e (begin s w) (lines e s))) (exception st i)).
  { apply c60_same_trap.
    - constructor; try assumption; try (rewrite ?RE, ?R1, ?R2, ?R3, ?R4; reflexivity).
      + now rewrite RI, IR.
      + unfold tval_of. now rewrite R1, R2, R3, R4.
      + rewrite RE. symmetry. exact W1.
      + rewrite R4. discriminate.
      + rewrite RM, RS. intros _. split; symmetry; [exact W2|exact W3].
    - rewrite EM. discriminate.
    - rewrite ES. discriminate. }
  exact G.
Qed.
(** A fetch that faults.  The instruction and the interrupt lines of the previous call are
    still there: they must not be an ecall or a pending interrupt. *)
Theorem c60_fetch_fault_same_trap_partial e s st i : nz (Z.land (r_csr s satp) 0x80000000) && negb (r_priv s =? 3) = true -> va2pa_fix e s (r_pc s) 0 = Some None ->
  r_inst s <> INST_ECALL -> r_irq s = no_irq -> same s st -> interrupt_req st = false ->
  reports i E_inst -> x_pc i = r_pc s -> x_tval i = r_pc s -> tvec_ok false (rf st mtvec) -> tvec_ok false (rf st stvec) ->
  exists s', exec e s = Done s' /\ agrees s s' (exception st i).
Proof.
  intros TR V NE Q SA IR (RI & _ & RM & RS & RE & R1 & R2 & R3 & R4) PC XV TM TS.
  assert (NM : any_m (irq_of st) = false /\ any_s (irq_of st) = false) by (unfold interrupt_req in IR; apply orb_false_iff in IR; exact IR). destruct NM as (NM & NS).
  assert (IQ : no_irq = irq_of st).
  { unfold any_m, any_s in NM, NS. destruct (irq_of st) as [a b c d f g]. cbn [m_soft m_timer m_ext s_soft s_timer s_ext] in *. destruct a, b, c, d, f, g; try discriminate NM; try discriminate NS. reflexivity. }
  unfold exec. cbv zeta. cbn [set_st set_flags r_csr r_priv r_pc r_saddr r_sdata r_sstrb]. rewrite TR. unfold va2pa_fix in *. rewrite (va2pa_csr s) by reflexivity. rewrite V.
  eexists. split; [reflexivity|]. set (t := set_flags _ _).
  assert (G : agrees t (ref_exception (r_pc s) t) (exception st i)).
  { apply c60_same_trap.
    - constructor; try assumption; try (rewrite ?RE, ?R1, ?R2, ?R3, ?R4; reflexivity).
      + unfold t. cbn [set_flags set_st r_irq]. now rewrite Q.
      + now rewrite RI, IR.
      + unfold tval_of. rewrite R1, R2, R3, R4. exact XV.
      + rewrite RE. symmetry. now apply Z.eqb_neq.
      + rewrite R4. discriminate.
      + unfold m_trap, s_trap. cbv zeta. rewrite R1, RI, RE, R2, R3, R4, !andb_false_r. cbn [andb orb]. destruct (dlg (rf st medeleg) 12); discriminate.
    - rewrite NM. intros _. exact TM.
    - rewrite NS. intros _. exact TS. }
  exact G.
Qed.
(** Loads and stores that fault. *)
Lemma riscv_im e s : r_flags s = clear -> any_m (lines e s) || any_s (lines e s) = false -> bits (r_inst s) 6 0 = 3 \/ bits (r_inst s) 6 0 = 35 ->
  riscv e s = zero_x0 (rv32im e (ready e s (lines e s))).
Proof.
  intros F Q O. unfold riscv. cbv zeta. fold (lines e s). fold (ready e s (lines e s)).
  destruct (sync_fields e s) as (_ & _ & _ & _ & _ & SI & SF & _). rewrite SI.
  assert (QF : r_flags (ready e s (lines e s)) = clear) by (unfold ready; cbn [set_irq r_flags]; now rewrite SF). rewrite QF.
  assert (N : forall k, bits k 6 0 = 115 -> (r_inst s =? k) = false).
  { intros k K. destruct (Z.eqb_spec (r_inst s) k) as [<-|]; [|reflexivity]. rewrite K in O. lia. }
  rewrite !N by reflexivity. unfold clear. cbn [f_pfi f_pfl f_pfs f_ill]. rewrite !andb_false_r, !orb_false_r. cbn [andb orb].
  destruct (any_m (lines e s)), (any_s (lines e s)); try discriminate Q. cbn [orb andb]. destruct O as [O|O]; rewrite O; eqbs; reflexivity.
Qed.
Lemma fix_ready e s w q va k : va2pa_fix e (ready e (begin s w) q) va k = va2pa_fix e s va k.
Proof. reflexivity. Qed.
Theorem c60_access_fault_same_trap e s w st i (load : bool) : fetches e s w -> bits w 6 0 = (if load then 3 else 35) ->
  let va := w32 (r_gpr s (bits w 19 15) + (if load then immI w else immS w)) in
  translated s = true -> va2pa_fix e s va (if load then 1 else 2) = Some None -> same (sync_timer e s) st -> interrupt_req st = false ->
  reports i (if load then E_load else E_store) -> x_pc i = r_pc s -> x_tval i = va -> tvec_ok false (rf st mtvec) -> tvec_ok false (rf st stvec) ->
  traps e s (exception st i).
Proof.
  intros FE O va TR V SA IR RP PC XV TM TS. pose proof (lines_same _ _ _ SA) as LS.
  assert (NM : any_m (irq_of st) = false /\ any_s (irq_of st) = false) by (unfold interrupt_req in IR; apply orb_false_iff in IR; exact IR). destruct NM as (NM & NS).
  unfold traps. rewrite (exec_begin _ _ _ FE). rewrite (riscv_im e (begin s w) eq_refl) by (first [rewrite lines_begin, LS, NM, NS; reflexivity | change (r_inst (begin s w)) with w; destruct load; tauto]).
  rewrite lines_begin. set (t := ready e (begin s w) (lines e s)).
  assert (TT : translated t = true) by exact TR.
  assert (X : rv32im e t = Done (ref_exception va (set_pf t load (negb load)))).
  { unfold rv32im. cbv zeta. change (r_inst t) with w. change (r_gpr t) with (r_gpr s). rewrite TT. destruct load; rewrite O; eqbs; fold va; unfold t; rewrite fix_ready, V; reflexivity. }
  rewrite X. cbn [zero_x0]. eexists. split; [reflexivity|].
  assert (RX : x_intr i = false /\ x_mret i = false /\ x_sret i = false /\ x_ecall i = false /\ x_pfi i = false /\ x_pfl i = load /\ x_pfs i = negb load /\ x_ill i = false).
  { destruct load; destruct RP as (? & _ & ? & ? & ? & ? & ? & ? & ?); repeat split; assumption. }
  destruct RX as (RI & RM & RS & RE & R1 & R2 & R3 & R4).
  assert (NE : (w =? INST_ECALL) = false). { destruct (Z.eqb_spec w INST_ECALL) as [K|]; [|reflexivity]. rewrite K in O. destruct load; discriminate O. }
  assert (G : agrees t (ref_exception va (set_pf t load (negb load))) (exception st i)).
  { change (agrees (set_pf t load (negb load)) (ref_exception va (set_pf t load (negb load))) (exception st i)). apply c60_same_trap.
    - constructor; try assumption.
      + now rewrite RI, IR.
      + unfold tval_of. rewrite R1, R2, R3, R4. destruct load; exact XV.
      + rewrite RE. symmetry. exact NE.
      + rewrite R4. discriminate.
      + unfold m_trap, s_trap. cbv zeta. rewrite R1, RI, RE, R2, R3, R4, !andb_false_r. cbn [andb orb]. destruct load; cbn [negb andb]; [destruct (dlg (rf st medeleg) 13)|destruct (dlg (rf st medeleg) 15)]; discriminate.
    - rewrite NM. intros _. exact TM.
    - rewrite NS. intros _. exact TS. }
  clear X. destruct (exception st i) as ((r & pv) & f). destruct G as (GC & GP & GG & GM & GD & GQ).
  split; [repeat split; assumption|]. intros k N. cbn [wr set_gpr r_gpr]. unfold RefModel.upd. destruct (Z.eqb_spec k 0); [contradiction|]. now rewrite GG.
Qed.
(** Reading time or timeh: illegal; not delegated. *)
Theorem c60_illegal_same_trap e s w st i : fetches e s w -> bits w 6 0 = 115 -> In (bits w 14 12) [1; 2; 3; 5; 6; 7] -> In (bits w 31 20) [0xc01; 0xc81] ->
  same (sync_timer e s) st -> interrupt_req st = false -> reports i E_illegal -> x_pc i = r_pc s -> x_tval i = w -> dlg (rf st medeleg) 2 = false ->
  tvec_ok false (rf st mtvec) -> tvec_ok false (rf st stvec) -> traps e s (exception st i).
Proof.
  intros FE O F3 C SA IR (RI & _ & RM & RS & RE & R1 & R2 & R3 & R4) PC XV DL TM TS. pose proof (lines_same _ _ _ SA) as LS.
  assert (NM : any_m (irq_of st) = false /\ any_s (irq_of st) = false) by (unfold interrupt_req in IR; apply orb_false_iff in IR; exact IR). destruct NM as (NM & NS).
  assert (FN : bits w 14 12 <> 0) by (intros N; rewrite N in F3; cbn [In] in F3; lia).
  unfold traps. rewrite (exec_begin _ _ _ FE). rewrite (riscv_csr e (begin s w) eq_refl) by (first [rewrite lines_begin, LS, NM, NS; reflexivity | assumption]).
  rewrite lines_begin. set (t := ready e (begin s w) (lines e s)). cbn [zero_x0]. eexists. split; [reflexivity|].
  set (t' := set_flags t (mkfl false false false true)).
  assert (X : rv32csr e t = ref_exception w t').
  { unfold rv32csr. cbv zeta. change (r_inst t) with w. replace ((bits w 31 20 =? 0xc01) || (bits w 31 20 =? 0xc81)) with true; [reflexivity|]. cbn [In] in C. destruct C as [<-|[<-|[]]]; reflexivity. }
  rewrite X. assert (NE : (w =? INST_ECALL) = false). { destruct (Z.eqb_spec w INST_ECALL) as [K|]; [|reflexivity]. exfalso. apply FN. now rewrite K. }
  assert (G : agrees t (ref_exception w t') (exception st i)).
  { change (agrees t' (ref_exception w t') (exception st i)). apply c60_same_trap.
    - constructor; try assumption.
      + now rewrite RI, IR.
      + unfold tval_of. rewrite R1, R2, R3, R4. exact XV.
      + rewrite RE. symmetry. exact NE.
      + intros _. exact DL.
      + unfold m_trap, s_trap. cbv zeta. rewrite R1, RI, RE, R2, R3, R4, DL, !andb_false_r. discriminate.
    - rewrite NM. intros _. exact TM.
    - rewrite NS. intros _. exact TS. }
  clear X. destruct (exception st i) as ((r & pv) & f). destruct G as (GC & GP & GG & GM & GD & GQ).
  split; [repeat split; assumption|]. intros k N. cbn [wr set_gpr r_gpr]. unfold RefModel.upd. destruct (Z.eqb_spec k 0); [contradiction|]. now rewrite GG.
Qed.

(** *** Where the two differ *)
Definition intr_in (pc : Z) : csr_in := CsrIn false false 0 0 0 false true false false false false false false false pc 0 None None.
Definition exc_in (e : exc) (pc tv : Z) : csr_in :=
  CsrIn false false 0 0 0 false false (match e with E_ecall => true | _ => false end) (match e with E_inst => true | _ => false end) (match e with E_load => true | _ => false end)
    (match e with E_store => true | _ => false end) (match e with E_illegal => true | _ => false end) false false pc tv None None.
Definition core_trap (st : csr) (i : csr_in) (c : cname) : Z * Z * front := let '(r, pv, f) := exception st i in (r c, pv, f).
Definition ref_trap (r : res) (c : cname) : option (Z * Z * Z) := match r with Done s => Some (r_csr s c, r_priv s, r_pc s) | _ => None end.
Definition csrs (l : list (cname * Z)) : regs := fold_left (fun r p => cset r (fst p) (snd p)) l cz.
Theorem c60_traps_refuted :
  (* supervisor software interrupt pending at a user ecall that is not delegated: the core takes the interrupt (supervisor mode, cause 2^31+1),
     the reference the call (machine mode, cause 8) *)
  (let c := csrs [(mideleg, 2); (mie, 2); (mip, 2); (sie, 2); (sip, 2); (stvec, 0x1000); (mtvec, 0x2000)] in
     core_trap (Csr c 0 false 0 0 0) (intr_in 0x80000000) scause = (2 ^ 31 + 1, 1, FTrap 0x1000) /\
     ref_trap (exec e0 (rc c 0 INST_ECALL (fun _ => 0))) mcause = Some (8, 3, 0x2000)) /\
  (* the same with the call delegated: the reference reports a cause that does not exist, 2^31+8 *)
  (let c := csrs [(medeleg, 256); (mideleg, 2); (mie, 2); (mip, 2); (sie, 2); (sip, 2); (stvec, 0x1000)] in
     core_trap (Csr c 0 false 0 0 0) (intr_in 0x80000000) scause = (2 ^ 31 + 1, 1, FTrap 0x1000) /\
     ref_trap (exec e0 (rc c 0 INST_ECALL (fun _ => 0))) scause = Some (2 ^ 31 + 8, 1, 0x1000)) /\
  (* delegated illegal instruction: supervisor mode in the core, machine mode in the reference *)
  (let c := csrs [(medeleg, 4); (stvec, 0x1000); (mtvec, 0x2000)] in let w := enc_csr 0xc01 0 2 5 in
     core_trap (Csr c 0 false 0 0 0) (exc_in E_illegal 0x80000000 w) scause = (2, 1, FTrap 0x1000) /\
     ref_trap (exec e0 (rc c 0 w (fun _ => 0))) mcause = Some (2, 3, 0x2000)) /\
  (* vectored mode, exception: the core jumps to the odd address in mtvec *)
  (let c := csrs [(mtvec, 0x2001)] in
     core_trap (Csr c 3 false 0 0 0) (exc_in E_ecall 0x80000000 0) mcause = (11, 3, FTrap 0x2001) /\
     ref_trap (exec e0 (rc c 3 INST_ECALL (fun _ => 0))) mcause = Some (11, 3, 0x2000)) /\
  (* the first fetch after an ecall faults: the reference reports the ecall again *)
  (let c := csrs [(satp, 0x80000000); (stvec, 0x1000); (medeleg, 0x1200)] in
     let s := mkr (fun _ => 0) c 0x1000 1 (fun _ => 0) false 0 0 0 false 0 INST_ECALL no_irq clear 0 (2 ^ 64 - 1) false [] in
     core_trap (Csr c 1 false 0 0 0) (exc_in E_inst 0x1000 0x1000) scause = (12, 1, FTrap 0x1000) /\
     ref_trap (exec e0 s) scause = Some (9, 1, 0x1000)).
Proof. vm_compute. repeat split; reflexivity. Qed.
(** The hypotheses of the agreement theorems can be met: a timer interrupt in user mode, an ecall, a faulting load. *)
Example c60_ex :
  (let c := csrs [(mie, 128); (mip, 128); (mtvec, 0x2001)] in let s := mkr (fun _ => 0) c 0x80000000 0 (fun _ => 19) false 0 0 0 false 0 0 no_irq clear 0 0 false [] in
     ref_trap (exec e0 s) mcause = Some (2 ^ 31 + 7, 3, 0x201c) /\ core_trap (Csr c 0 false 0 0 0) (intr_in 0x80000000) mcause = (2 ^ 31 + 7, 3, FTrap 0x201c) /\
     interrupt_req (Csr c 0 false 0 0 0) = true) /\
  (let c := csrs [(medeleg, 256); (stvec, 0x1000)] in ref_trap (exec e0 (rc c 0 INST_ECALL (fun _ => 0))) scause = Some (8, 1, 0x1000) /\
     core_trap (Csr c 0 false 0 0 0) (exc_in E_ecall 0x80000000 0) scause = (8, 1, FTrap 0x1000)) /\
  (let c := csrs [(satp, 0x80000000); (mstatus, 0x20000); (medeleg, 0x2000); (stvec, 0x1000); (mtvec, 0x2000)] in let w := 0x00012083 in
     let s := mkr (fun _ => 0x1000) c 0x80000000 3 (fun a => if a =? 0x20000000 then w else 0) false 0 0 0 false 0 0 no_irq clear 0 (2 ^ 64 - 1) false [] in
     translated s = true /\ ref_trap (exec e0 s) scause = Some (13, 1, 0x1000) /\ core_trap (Csr c 3 false 0 0 0) (exc_in E_load 0x80000000 0x1000) scause = (13, 1, FTrap 0x1000)).
Proof. vm_compute. repeat split; reflexivity. Qed.

Print Assumptions c60_same_trap.
Print Assumptions c60_interrupt_same_trap.
Print Assumptions c60_ecall_same_trap.
Print Assumptions c60_return_same.
Print Assumptions c60_fetch_fault_same_trap_partial.
Print Assumptions c60_access_fault_same_trap.
Print Assumptions c60_illegal_same_trap.
Print Assumptions c60_traps_refuted.
