(** C36: CSR instructions in the reference CPU and in the core. *)
From Verif Require Import Base BaseLemmas CsrModel CsrSpec CsrProofs CsrProps ExecModel IsaSpec ExecProofs RefModel RefSpec RefExecProofs RefStepProofs RefExecProps.
Ltac Zify.zify_post_hook ::= Z.div_mod_to_equations.
#[local] Opaque Z.pow Z.land Z.lor Z.lxor Z.shiftl Z.shiftr Z.ldiff.

(** Same control and status registers, same privilege. *)
Definition same (s : ref) (st : csr) : Prop := (forall d, r_csr s d = rf st d) /\ r_priv s = priv st.

(** The state in which [exec] hands the word [w] to RISCV(). *)
Definition clear : flags := mkfl false false false false.
Definition begin (s : ref) (w : Z) : ref := set_inst (set_st (set_flags s clear) false (r_saddr s) (r_sdata s) (r_sstrb s)) w.
Definition fetches (e : renv) (s : ref) (w : Z) : Prop :=
  w <> INST_EBREAK /\
  if nz (Z.land (r_csr s satp) 0x80000000) && negb (r_priv s =? 3)
  then exists pa, va2pa_fix e s (r_pc s) 0 = Some (Some pa) /\ load_word s pa = w
  else load_word s (r_pc s) = w.
Lemma va2pa_csr s t a k : r_csr t = r_csr s -> r_priv t = r_priv s -> r_mem t = r_mem s -> va2pa t a k = va2pa s a k.
Proof. intros C P M. unfold va2pa, load_word. rewrite C, P, M. reflexivity. Qed.
Lemma exec_begin e s w : fetches e s w -> exec e s = riscv e (begin s w).
Proof.
  intros (N & F). unfold exec. cbv zeta. cbn [set_st set_flags r_csr r_priv r_pc r_saddr r_sdata r_sstrb].
  destruct (nz (Z.land (r_csr s satp) 0x80000000) && negb (r_priv s =? 3)).
  - destruct F as (pa & V & L). unfold va2pa_fix in *. rewrite (va2pa_csr s) by reflexivity. rewrite V.
    unfold load_word in *. cbn [set_inst set_st set_flags r_mem r_inst]. rewrite L. destruct (Z.eqb_spec w INST_EBREAK); [contradiction|]. reflexivity.
  - unfold load_word in *. cbn [set_inst set_st set_flags r_mem r_inst r_pc] in *. rewrite F. destruct (Z.eqb_spec w INST_EBREAK); [contradiction|]. reflexivity.
Qed.

(** The interrupt lines are those of the core. *)
Lemma irq_same ms ie ip dl pv : ref_irq ms ie ip dl pv = eval_interrupts ms ie ip dl pv.
Proof. reflexivity. Qed.
Lemma eff_idem e s v : eff_mip e s (eff_mip e s v) = eff_mip e s v.
Proof.
  unfold eff_mip. destruct (r_cmp s <=? timer_now e s).
  - now rewrite <- Z.lor_assoc, Z.lor_diag.
  - apply Z.bits_inj'. intros n Hn. rewrite !Z.ldiff_spec. destruct (Z.testbit v n), (Z.testbit MIP_MTIP n); reflexivity.
Qed.
Lemma sync_mip e s : eff_mip e (sync_timer e s) (r_csr (sync_timer e s) mip) = r_csr (sync_timer e s) mip.
Proof. unfold sync_timer, wc. cbn [set_csr r_csr]. unfold cset at 2 4. cbn [cname_beq]. unfold cset. cbn [cname_beq]. exact (eff_idem e s (r_csr s mip)). Qed.
Definition lines (e : renv) (s : ref) : irq :=
  let t := sync_timer e s in ref_irq (r_csr t mstatus) (r_csr t mie) (eff_mip e t (r_csr t mip)) (r_csr t mideleg) (r_priv t).
Lemma lines_same e s st : same (sync_timer e s) st -> lines e s = irq_of st.
Proof. intros (C & P). unfold lines. cbv zeta. rewrite sync_mip. unfold irq_of. rewrite !C, P. apply irq_same. Qed.
Lemma lines_begin e s w : lines e (begin s w) = lines e s.
Proof. reflexivity. Qed.

(** RISCV() on a word that is not a trap or return, no interrupt pending. *)
Definition ready (e : renv) (s : ref) (q : irq) : ref := set_irq (sync_timer e s) q.
Lemma riscv_csr e s : r_flags s = clear -> any_m (lines e s) || any_s (lines e s) = false -> bits (r_inst s) 6 0 = 115 -> bits (r_inst s) 14 12 <> 0 ->
  riscv e s = zero_x0 (Done (rv32csr e (ready e s (lines e s)))).
Proof.
  intros F Q O F3. unfold riscv. cbv zeta. fold (lines e s). fold (ready e s (lines e s)).
  destruct (sync_fields e s) as (SG & SP & SV & SM & SD & SI & SF & SC). rewrite SI.
  assert (QF : r_flags (ready e s (lines e s)) = clear) by (unfold ready; cbn [set_irq r_flags]; now rewrite SF). rewrite QF.
  assert (N : forall k, bits k 14 12 = 0 -> (r_inst s =? k) = false).
  { intros k K. destruct (Z.eqb_spec (r_inst s) k) as [<-|]; [|reflexivity]. now rewrite K in F3. }
  rewrite !N by reflexivity. unfold clear. cbn [f_pfi f_pfl f_pfs f_ill]. rewrite !andb_false_r, !orb_false_r. cbn [andb orb].
  destruct (any_m (lines e s)), (any_s (lines e s)); try discriminate Q. cbn [orb andb]. rewrite O. reflexivity.
Qed.

(** *** C36 *)
Lemma f3_cases f3 : In f3 [1; 2; 3; 5; 6; 7] -> f3 = 1 \/ f3 = 2 \/ f3 = 3 \/ f3 = 5 \/ f3 = 6 \/ f3 = 7.
Proof. cbn [In]. lia. Qed.
Lemma write_same s1 st c w w' d : (forall d, r_csr s1 d = rf st d) -> c <> mip -> c <> sip -> w = w' ->
  r_csr (ref_write_csr s1 c w) d = apply_write c w' (rf st) (rf st) d.
Proof.
  intros C M S ->. unfold SSTATUS_MASK, MSTATUS_MASK, MIE_MASK, SIE_MASK.
  destruct c; try contradiction; destruct d; cbn [ref_write_csr apply_write wc set_csr r_csr cset cname_beq]; unfold cset; cbn [cname_beq];
    unfold SSTATUS_MASK, MSTATUS_MASK, MIE_MASK, SIE_MASK; rewrite ?C; reflexivity.
Qed.
Lemma write_keeps s c w : r_gpr (ref_write_csr s c w) = r_gpr s /\ r_pc (ref_write_csr s c w) = r_pc s /\ r_priv (ref_write_csr s c w) = r_priv s.
Proof. destruct c; repeat split. Qed.

(** From equal registers and privilege, an encoded CSR instruction other than an access to
    mip or sip, or csrrwi with immediate 0, leaves both with equal registers and gives the same destination
    value.  [sync_timer]: the core's timer line is up to date. *)
Theorem c36_same_csr_instruction_partial e s w st c i1 st1 st2 :
  fetches e s w -> bits w 6 0 = 115 -> In (bits w 14 12) [1; 2; 3; 5; 6; 7] -> cvt (bits w 31 20) = Some c -> c <> mip -> c <> sip ->
  (bits w 14 12 = 5 -> bits w 19 15 <> 0) -> same (sync_timer e s) st -> p_we st = false -> interrupt_req st = false ->
  executes i1 (bits w 14 12) (bits w 19 15) (r_gpr s (bits w 19 15)) (bits w 11 7 =? 0) (bits w 31 20) ->
  csr_step st i1 = Some st1 -> csr_step st1 commit_in = Some st2 ->
  exists s', exec e s = Done s' /\ same s' st2 /\ r_pc s' = w32 (r_pc s + 4) /\ r_mem s' = r_mem s /\ r_dev s' = r_dev s /\
    (bits w 11 7 <> 0 -> csr_read st i1 = Some (r_gpr s' (bits w 11 7))) /\
    (forall r, r <> bits w 11 7 -> r <> 0 -> r_gpr s' r = r_gpr s r).
Proof.
  intros FE O F3 C M S Z5 SA P Q X E1 E2. rewrite (exec_begin _ _ _ FE).
  assert (SB : same (sync_timer e (begin s w)) st) by exact SA.
  assert (LQ : any_m (lines e (begin s w)) || any_s (lines e (begin s w)) = false) by (rewrite lines_begin, (lines_same _ _ _ SA); exact Q).
  assert (FN : bits w 14 12 <> 0) by (intros N; rewrite N in F3; cbn [In] in F3; lia).
  rewrite (riscv_csr e (begin s w) eq_refl LQ O FN). cbn [zero_x0].
  set (t := ready e (begin s w) (lines e (begin s w))).
  assert (TC : forall d, r_csr t d = rf st d) by exact (proj1 SB). assert (TP : r_priv t = priv st) by exact (proj2 SB).
  assert (TG : r_gpr t = r_gpr s) by reflexivity. assert (TI : r_inst t = w) by reflexivity. assert (TPC : r_pc t = r_pc s) by reflexivity.
  assert (TM : r_mem t = r_mem s /\ r_dev t = r_dev s) by (split; reflexivity). clearbody t.
  exists (wr (rv32csr e t) 0 0). split; [reflexivity|].
  assert (OLD : csr_old e t c = rf st c) by (rewrite <- TC; destruct c; try contradiction; reflexivity).
  unfold executes, to_csr in X. cbv beta iota zeta in X. subst i1.
  unfold csr_step in E1. rewrite quiet_exc in E1 by reflexivity. cbn -[Z.land cvt nz bits] in E1. rewrite P in E1.
  injection E1 as <-. unfold csr_step in E2. rewrite quiet_exc in E2 by reflexivity. cbn -[Z.land cvt nz apply_write rmw bits] in E2. rewrite orb_false_r in E2.
  assert (NT : (bits w 31 20 =? 0xc01) || (bits w 31 20 =? 0xc81) = false).
  { destruct (Z.eqb_spec (bits w 31 20) 0xc01) as [K|]; [rewrite K in C; discriminate C|]. destruct (Z.eqb_spec (bits w 31 20) 0xc81) as [K|]; [rewrite K in C; discriminate C|]. reflexivity. }
  unfold rv32csr. cbv zeta. rewrite TI, NT, C, TG, TPC.
  (* enables *)
  set (f3 := bits w 14 12) in *. set (rs1 := bits w 19 15) in *. set (rd := bits w 11 7) in *.
  assert (WE : (f3 =? 1) || negb (rs1 =? 0) = (f3 =? 1) || (f3 =? 5) || negb (rs1 =? 0)).
  { destruct (Z.eqb_spec f3 5) as [K|K]; [|now rewrite orb_false_r]. destruct (Z.eqb_spec rs1 0) as [K0|K0]; [now elim (Z5 K)|]. now rewrite !orb_true_r. }
  set (s1 := if negb (f3 =? 1) || negb (rd =? 0) then wr t rd (csr_old e t c) else t).
  assert (S1 : (forall d, r_csr s1 d = rf st d) /\ r_priv s1 = priv st /\ r_mem s1 = r_mem s /\ r_dev s1 = r_dev s /\
    (rd <> 0 -> r_gpr s1 rd = rf st c) /\ (forall r, r <> rd -> r <> 0 -> r_gpr s1 r = r_gpr s r)).
  { unfold s1. destruct (negb (f3 =? 1) || negb (rd =? 0)) eqn:RE.
    - cbn [wr set_gpr r_csr r_priv r_mem r_dev r_gpr]. unfold RefModel.upd. rewrite Z.eqb_refl, OLD. split; [exact TC|]. split; [exact TP|]. split; [exact (proj1 TM)|]. split; [exact (proj2 TM)|]. split; [reflexivity|].
      intros r N _. destruct (Z.eqb_spec r rd); [contradiction|]. now rewrite TG.
    - split; [exact TC|]. split; [exact TP|]. split; [exact (proj1 TM)|]. split; [exact (proj2 TM)|]. split; [|intros; now rewrite TG].
      intros N. destruct (Z.eqb_spec rd 0); [contradiction|]. now rewrite orb_true_r in RE. }
  clearbody s1. destruct S1 as (SC & SP & SM & SD & SR & SO).
  assert (RDV : rd <> 0 -> csr_read st (CsrIn ((f3 =? 1) || (f3 =? 5) || negb (rs1 =? 0)) (negb ((f3 =? 1) || (f3 =? 5)) || negb (rd =? 0)) (bits w 31 20) (Z.land f3 3)
      (if nz (Z.land f3 4) then rs1 else r_gpr s rs1) false false false false false false false false false 0 0 None None) = Some (rf st c)).
  { intros N. unfold csr_read. cbn [x_re x_idx]. destruct (Z.eqb_spec rd 0); [contradiction|]. now rewrite orb_true_r, C. }
  rewrite WE. destruct ((f3 =? 1) || (f3 =? 5) || negb (rs1 =? 0)) eqn:WR.
  - cbn [andb] in E2. rewrite C in E2. cbn -[Z.land nz apply_write rmw] in E2. injection E2 as <-.
    set (nv := if Z.land f3 3 =? 1 then _ else _).
    assert (NV : nv = rmw (Z.land f3 3) (if nz (Z.land f3 4) then rs1 else r_gpr s rs1) (rf st c)).
    { unfold nv, rmw. rewrite OLD. destruct (f3_cases _ F3) as [K|[K|[K|[K|[K|K]]]]]; rewrite K; [change (Z.land 1 3) with 1|change (Z.land 2 3) with 2|change (Z.land 3 3) with 3|change (Z.land 5 3) with 1|change (Z.land 6 3) with 2|change (Z.land 7 3) with 3]; eqbs; try reflexivity; apply Z.lor_comm. }
    destruct (write_keeps s1 c nv) as (KG & KP & KV).
    assert (KM : r_mem (ref_write_csr s1 c nv) = r_mem s1 /\ r_dev (ref_write_csr s1 c nv) = r_dev s1) by (destruct c; split; reflexivity).
    unfold same. cbn [wr set_gpr set_pc r_csr r_priv r_pc r_mem r_dev r_gpr rf priv]. rewrite KG, KV. destruct KM as (-> & ->).
    split; [split; [intros d; exact (write_same s1 st c nv _ d SC M S NV)|exact SP]|]. split; [reflexivity|]. split; [exact SM|]. split; [exact SD|].
    unfold RefModel.upd. split.
    + intros N. rewrite (RDV N). destruct (Z.eqb_spec rd 0); [contradiction|]. now rewrite SR.
    + intros r N N0. destruct (Z.eqb_spec r 0); [contradiction|]. now apply SO.
  - cbn [andb] in E2. injection E2 as <-. unfold same. cbn [wr set_gpr set_pc r_csr r_priv r_pc r_mem r_dev r_gpr rf priv].
    split; [split; [exact SC|exact SP]|]. split; [reflexivity|]. split; [exact SM|]. split; [exact SD|].
    unfold RefModel.upd. split.
    + intros N. rewrite (RDV N). destruct (Z.eqb_spec rd 0); [contradiction|]. now rewrite SR.
    + intros r N N0. destruct (Z.eqb_spec r 0); [contradiction|]. now apply SO.
Qed.

(** The decoder of the core sees the same instruction: the fields the theorem above takes from the word. *)
Lemma csr_known_cvt a : csr_known a = match cvt a with Some _ => true | None => false end.
Proof.
  destruct (cvt a) as [c|] eqn:C.
  - apply c17_csr_address_map in C. subst a. destruct c; reflexivity.
  - unfold csr_known. destruct (existsb (Z.eqb a) known_csrs) eqn:X; [|reflexivity]. apply existsb_exists in X. destruct X as (k & I & K). apply Z.eqb_eq in K. subst k.
    unfold known_csrs in I. cbn [In] in I. repeat destruct I as [<-|I]; try discriminate C. contradiction.
Qed.
Lemma shift20 w : is_w 32 w -> Z.shiftr w 20 = bits w 31 20.
Proof.
  unfold is_w, bits. intros W. change (31 - 20 + 1) with 12. change (2 ^ 12 - 1) with (Z.ones 12). rewrite Z.land_ones by lia. rewrite Z.shiftr_div_pow2 by lia.
  change (2 ^ 32) with 4294967296 in W. change (2 ^ 20) with 1048576. change (2 ^ 12) with 4096. lia.
Qed.
Definition sys_uop (w : Z) : duop :=
  let f3 := bits w 14 12 in let isimm := Z.testbit f3 2 && (Z.testbit f3 0 || Z.testbit f3 1) in let c := Z.shiftr w 20 in let k := csr_known c in
  mk_duop (bits w 11 7) (bits w 19 15) (bits w 24 20) k k (if k then negb isimm else false) false isimm f3 (bits w 31 25) (if k then bits w 19 15 else 0) c
    (if k then T_CSR else T_NOP) false (if k then false else (c =? 3073) || (c =? 3201)).
Lemma sys_case w : bits w 6 0 = 115 -> Z.testbit (bits w 14 12) 0 || Z.testbit (bits w 14 12) 1 = true -> decode_case w = sys_uop w.
Proof. intros O T. unfold decode_case. cbv zeta. rewrite O, T. eqbs. unfold sys_uop. rewrite T. destruct (csr_known (Z.shiftr w 20)); reflexivity. Qed.
Theorem c36_decoded_fields w : is_w 32 w -> bits w 6 0 = 115 -> In (bits w 14 12) [1; 2; 3; 5; 6; 7] ->
  let u := decode w in
  d_func3 u = bits w 14 12 /\ d_csr_idx u = bits w 31 20 /\ d_dest_areg u = bits w 11 7 /\ d_src1_areg u = bits w 19 15 /\
  match cvt (bits w 31 20) with
  | Some _ => d_type u = T_CSR /\ d_imm u = bits w 19 15 /\ d_src2_is_imm u = Z.testbit (bits w 14 12) 2 /\ d_dest_en u = negb (bits w 11 7 =? 0) /\ d_illegal u = false
  | None => d_type u = T_NOP /\ d_dest_en u = false /\ d_illegal u = (bits w 31 20 =? 0xc01) || (bits w 31 20 =? 0xc81)
  end.
Proof.
  intros W O F. rewrite <- (shift20 w W).
  pose proof (csr_known_cvt (Z.shiftr w 20)) as K. pose proof (sys_case w O) as X.
  assert (T : Z.testbit (bits w 14 12) 0 || Z.testbit (bits w 14 12) 1 = true) by (destruct (f3_cases _ F) as [->|[->|[->|[->|[->| ->]]]]]; reflexivity).
  specialize (X T). unfold decode. rewrite X. clear X. unfold sys_uop. rewrite T, andb_true_r, K. clear K T F.
  destruct (cvt (Z.shiftr w 20)); cbv zeta; cbn [d_type d_func3 d_csr_idx d_dest_areg d_src1_areg d_imm d_src2_is_imm d_dest_en d_illegal it_eqb andb]; repeat split; destruct (bits w 11 7 =? 0); reflexivity.
Qed.

(** An unknown register: both do nothing.  time and timeh: both illegal. *)
Theorem c36_unknown_csr e s w : fetches e s w -> is_w 32 w -> bits w 6 0 = 115 -> In (bits w 14 12) [1; 2; 3; 5; 6; 7] -> cvt (bits w 31 20) = None ->
  any_m (lines e s) || any_s (lines e s) = false ->
  exists s', exec e s = Done s' /\
  if (bits w 31 20 =? 0xc01) || (bits w 31 20 =? 0xc81) then d_illegal (decode w) = true /\ r_priv s' = 3 /\ r_csr s' mcause = 2 /\ r_csr s' mtval = w /\ r_csr s' mepc = r_pc s
  else d_illegal (decode w) = false /\ r_pc s' = w32 (r_pc s + 4) /\ r_priv s' = r_priv s /\ (forall d, r_csr s' d = r_csr (sync_timer e s) d) /\
       (forall r, r <> 0 -> r_gpr s' r = r_gpr s r).
Proof.
  intros FE W O F3 C Q. rewrite (exec_begin _ _ _ FE).
  assert (FN : bits w 14 12 <> 0) by (intros N; rewrite N in F3; cbn [In] in F3; lia).
  rewrite (riscv_csr e (begin s w) eq_refl Q O FN). cbn [zero_x0]. eexists. split; [reflexivity|].
  destruct (c36_decoded_fields w W O F3) as (_ & _ & _ & _ & D). rewrite C in D. destruct D as (_ & _ & ->).
  set (t := ready e (begin s w) (lines e (begin s w))). unfold rv32csr. cbv zeta. change (r_inst t) with w. rewrite C.
  destruct ((bits w 31 20 =? 0xc01) || (bits w 31 20 =? 0xc81)).
  - assert (E : r_irq t = lines e s) by reflexivity. assert (I : r_inst t = w) by reflexivity. assert (G : r_flags t = clear) by reflexivity. assert (P : r_pc t = r_pc s) by reflexivity.
    split; [reflexivity|]. clearbody t. unfold ref_exception. cbv zeta. cbn [set_flags r_inst r_irq r_flags r_csr r_priv r_pc]. rewrite I, E, G, P. unfold clear. cbn [f_pfi f_pfl f_pfs f_ill].
    assert (N : (w =? INST_ECALL) = false). { destruct (Z.eqb_spec w INST_ECALL) as [K|]; [|reflexivity]. exfalso. apply FN. now rewrite K. }
    rewrite N. unfold any_m, any_s in Q. destruct (m_soft (lines e s)), (m_timer (lines e s)), (m_ext (lines e s)); try discriminate Q.
    rewrite !andb_false_r, !andb_false_l, !orb_false_r. cbn [orb andb]. cbn [wr set_gpr set_pc wc set_csr set_priv r_priv r_csr]. unfold cset. cbn [cname_beq]. repeat split; reflexivity.
  - split; [reflexivity|]. split; [reflexivity|]. split; [reflexivity|]. split; [reflexivity|].
    intros r N. cbn [wr set_gpr set_pc r_gpr]. unfold RefModel.upd. destruct (Z.eqb_spec r 0); [contradiction|]. reflexivity.
Qed.

(** So the reference gives the registers the values the privileged architecture prescribes. *)
Theorem c36_reference_csr_instruction_partial e s w c :
  fetches e s w -> bits w 6 0 = 115 -> In (bits w 14 12) [1; 2; 3; 5; 6; 7] -> cvt (bits w 31 20) = Some c -> c <> mip -> c <> sip ->
  (bits w 14 12 = 5 -> bits w 19 15 <> 0) -> views (r_csr (sync_timer e s)) -> any_m (lines e s) || any_s (lines e s) = false ->
  exists s', exec e s = Done s' /\ (bits w 11 7 <> 0 -> r_gpr s' (bits w 11 7) = r_csr s c) /\ r_priv s' = r_priv s /\ r_pc s' = w32 (r_pc s + 4) /\
  forall d k, 0 <= k -> Z.testbit (r_csr s' d) k =
    if isa_writes (bits w 14 12) (bits w 19 15)
    then written c (r_csr (sync_timer e s)) (isa_new (bits w 14 12) (isa_operand (bits w 14 12) (bits w 19 15) (r_gpr s (bits w 19 15))) (r_csr s c)) d k
    else Z.testbit (r_csr (sync_timer e s) d) k.
Proof.
  intros FE O F3 C M S Z5 V Q.
  set (st := Csr (r_csr (sync_timer e s)) (r_priv s) false 0 0 0).
  set (i1 := let '(we, re, cmd, x) := to_csr (bits w 14 12) (bits w 19 15) (r_gpr s (bits w 19 15)) (bits w 11 7 =? 0) in
      CsrIn we re (bits w 31 20) cmd x false false false false false false false false false 0 0 None None).
  assert (SA : same (sync_timer e s) st) by (split; reflexivity).
  assert (IQ : interrupt_req st = false) by (unfold interrupt_req; rewrite <- (lines_same e s st SA); exact Q).
  assert (R1 : exists st1, csr_step st i1 = Some st1).
  { unfold csr_step. rewrite quiet_exc by reflexivity. unfold i1, to_csr. cbv beta iota zeta. cbn [x_commit andb]. eexists. reflexivity. }
  destruct R1 as (st1 & E1).
  assert (R2 : exists st2, csr_step st1 commit_in = Some st2).
  { unfold csr_step in E1. rewrite quiet_exc in E1 by reflexivity. unfold i1, to_csr in E1. cbv beta iota zeta in E1. cbn [x_commit andb] in E1. injection E1 as <-.
    unfold csr_step. rewrite quiet_exc by reflexivity. cbn [x_commit commit_in andb p_we p_idx x_we x_idx p_cmd p_wdata]. unfold st. cbn [p_we p_idx]. rewrite orb_false_r.
    destruct ((bits w 14 12 =? 1) || (bits w 14 12 =? 5) || negb (bits w 19 15 =? 0)); [rewrite C|]; eexists; reflexivity. }
  destruct R2 as (st2 & E2).
  destruct (c36_same_csr_instruction_partial e s w st c i1 st1 st2 FE O F3 C M S Z5 SA eq_refl IQ eq_refl E1 E2) as (s' & X & (SC & SP) & PC & _ & _ & RD & _).
  destruct (c17_csr_instruction st _ _ _ _ _ c i1 st1 st2 V eq_refl F3 C eq_refl E1 E2) as (K1 & K2 & _ & K4).
  assert (OC : r_csr (sync_timer e s) c = r_csr s c). { destruct (sync_fields e s) as (_ & _ & _ & _ & _ & _ & _ & SC'). now apply SC'. }
  exists s'. split; [exact X|]. split.
  { intros N. specialize (RD N). destruct (Z.eqb_spec (bits w 11 7) 0); [contradiction|]. rewrite (K1 eq_refl) in RD. injection RD as RD. rewrite <- RD. exact OC. }
  split; [rewrite SP, K2; reflexivity|]. split; [exact PC|]. intros d k K. rewrite SC, (K4 d k K). unfold st. cbn [rf]. now rewrite OC.
Qed.

(** *** Refutations of C36 without the exclusions *)
Definition rc (c : regs) (pv : Z) (w : Z) (g : Z -> Z) : ref :=
  mkr g c 0x80000000 pv (fun _ => w) false 0 0 0 false 0 0 no_irq clear 0 (2 ^ 64 - 1) false [].
Definition cz : regs := cset (fun _ => 0) misa 0x40141103.
Definition enc_csr (n rs1 f3 rd : Z) : Z := n * 2 ^ 20 + rs1 * 2 ^ 15 + f3 * 2 ^ 12 + rd * 2 ^ 7 + 115.
(** The core's side: execute, then commit. *)
Definition core_csr (st : csr) (w : Z) (g : Z -> Z) : option csr :=
  let '(we, re, cmd, x) := to_csr (bits w 14 12) (bits w 19 15) (g (bits w 19 15)) (bits w 11 7 =? 0) in
  match csr_step st (CsrIn we re (bits w 31 20) cmd x false false false false false false false false false 0 0 None None) with
  | Some st1 => csr_step st1 commit_in | None => None end.
Definition csr_after (r : res) (c : cname) : option Z := match r with Done s => Some (r_csr s c) | _ => None end.
Definition core_after (o : option csr) (c : cname) : option Z := option_map (fun st => rf st c) o.
Theorem c36_csr_writes_refuted :
  (* csrrwi x0, mscratch, 0: the core writes 0, the reference does not write *)
  (let w := enc_csr 0x340 0 5 0 in let c := cset cz mscratch 5 in
     core_after (core_csr (Csr c 3 false 0 0 0) w (fun _ => 0)) mscratch = Some 0 /\ csr_after (exec e0 (rc c 3 w (fun _ => 0))) mscratch = Some 5) /\
  (* csrw mip, -1: the core keeps the writable bits and updates sip, the reference writes the word and leaves sip *)
  (let w := enc_csr 0x344 7 1 0 in let g r := if r =? 7 then 0xffffffff else 0 in
     core_after (core_csr (Csr cz 3 false 0 0 0) w g) mip = Some 0xbbb /\ csr_after (exec e0 (rc cz 3 w g)) mip = Some 0xffffffff /\
     core_after (core_csr (Csr cz 3 false 0 0 0) w g) sip = Some 0x333 /\ csr_after (exec e0 (rc cz 3 w g)) sip = Some 0) /\
  (* csrw sip, 2: the core raises the supervisor software interrupt in mip, the reference does not *)
  (let w := enc_csr 0x144 7 1 0 in let g r := if r =? 7 then 2 else 0 in
     core_after (core_csr (Csr cz 3 false 0 0 0) w g) mip = Some 2 /\ csr_after (exec e0 (rc cz 3 w g)) mip = Some 0) /\
  (* funct3 = 4, reserved: no operation in the core; the reference writes 0 to the register *)
  (let w := enc_csr 0x340 7 4 0 in let c := cset cz mscratch 5 in
     d_type (decode w) = T_NOP /\ d_illegal (decode w) = false /\ csr_after (exec e0 (rc c 3 w (fun _ => 0))) mscratch = Some 0).
Proof. vm_compute. repeat split; reflexivity. Qed.
(** The hypotheses of the agreement theorem hold for csrrs x5, mstatus, x7. *)
Example c36_ex : let w := enc_csr 0x300 7 2 5 in let g r := if r =? 7 then 8 else 0 in let s := rc (cset cz mstatus 0x80) 3 w g in let st := Csr (cset cz mstatus 0x80) 3 false 0 0 0 in
  bits w 6 0 = 115 /\ cvt (bits w 31 20) = Some mstatus /\ interrupt_req st = false /\ core_after (core_csr st w g) mstatus = Some 0x88 /\
  csr_after (exec e0 s) mstatus = Some 0x88 /\ match exec e0 s with Done s' => r_gpr s' 5 = 0x80 | _ => False end.
Proof. vm_compute. repeat split; reflexivity. Qed.
Example c36_ex_fetches : let w := enc_csr 0x300 7 2 5 in fetches e0 (rc (cset cz mstatus 0x80) 3 w (fun _ => 0)) w.
Proof. split; [vm_compute; discriminate|vm_compute; reflexivity]. Qed.

Print Assumptions c36_same_csr_instruction_partial.
Print Assumptions c36_decoded_fields.
Print Assumptions c36_unknown_csr.
Print Assumptions c36_reference_csr_instruction_partial.
Print Assumptions c36_csr_writes_refuted.

(** Before a CSR access the reference brings its pending bits up to date: the timer bit of mip
    says whether mtime reached mtimecmp, sip shows the software, timer and external bits of mip
    other than the machine ones, and nothing else changes. *)
Theorem c36_timer_shown e s : let t := sync_timer e s in
  (forall k, 0 <= k -> Z.testbit (r_csr t mip) k = if k =? 7 then r_cmp s <=? wrap 64 (e_now e + r_off s) else Z.testbit (r_csr s mip) k) /\
  (forall k, 0 <= k -> Z.testbit (r_csr t sip) k = (k <? 10) && negb (Z.testbit k 1) && Z.testbit (r_csr t mip) k) /\
  (forall d, d <> mip -> d <> sip -> r_csr t d = r_csr s d).
Proof.
  cbv zeta. unfold sync_timer, wc. cbn [set_csr r_csr]. split; [|split].
  - intros k K. unfold cset. cbn [cname_beq]. unfold eff_mip. fold (timer_now e s). destruct (r_cmp s <=? timer_now e s).
    + rewrite Z.lor_spec. change MIP_MTIP with (2 ^ 7). rewrite Z.pow2_bits_eqb, (Z.eqb_sym 7 k) by lia. destruct (k =? 7); [apply orb_true_r|apply orb_false_r].
    + rewrite Z.ldiff_spec. change MIP_MTIP with (2 ^ 7). rewrite Z.pow2_bits_eqb, (Z.eqb_sym 7 k) by lia. destruct (k =? 7); [apply andb_false_r|apply andb_true_r].
  - intros k K. unfold cset. cbn [cname_beq]. rewrite Z.land_spec, andb_comm. f_equal.
    destruct (Z.ltb_spec k 10) as [L|L]; [|apply (Z.bits_above_log2 0x333 k); [lia|change (Z.log2 0x333) with 9; lia]].
    assert (k = 0 \/ k = 1 \/ k = 2 \/ k = 3 \/ k = 4 \/ k = 5 \/ k = 6 \/ k = 7 \/ k = 8 \/ k = 9) as H by lia.
    repeat (destruct H as [->|H]; [reflexivity|]). subst k. reflexivity.
  - intros d N1 N2. unfold cset. destruct d; try reflexivity; contradiction.
Qed.
Print Assumptions c36_timer_shown.
Example c36_timer_shown_ex : let s := sync_timer e0 (rc (cset cz mip 0xfff) 3 0 (fun _ => 0)) in r_csr s sip = 0x333.
Proof. vm_compute. reflexivity. Qed.
