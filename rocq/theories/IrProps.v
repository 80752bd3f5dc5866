(** Properties C81: the committed stream is a run of the instruction set. *)
From Verif Require Import Base IsaSpec MemSpec ExecModel ExecProps MemProofs RenModel RenSpec RobModel RobSpec OooModel OooSpec OooProps LsuSpec LsuCycle LvMem LcModel LcProps CpModel CpProps RefSpec RefModel RefStepProofs RefExecProps IrSpec.
Ltac Zify.zify_post_hook ::= Z.div_mod_to_equations.

(** The operands a committed instruction read are those of the sequential machine. *)
Lemma log_captured n c a x b v1 v2 : runs n c -> k_log c = a ++ x :: b -> x_ops x = Some (v1, v2) ->
  v1 = src1 (seq_run zero a) x /\ v2 = src2 (seq_run zero a) x.
Proof.
  intros R. revert a x b v1 v2. induction R as [|c y R IH O]; intros a x b v1 v2 E H; [destruct a; discriminate|]. cbn [core_step k_log] in E.
  apply prefix_app in E as [(t & E)|(t & -> & E)]; [exact (IH a x t v1 v2 E H)|].
  apply (c72_captured n c t x (b ++ skipn (y_done y) (k_fly c)) v1 v2 R); [|exact H]. rewrite <- (firstn_skipn (y_done y) (k_fly c)) at 1. rewrite E, <- app_assoc. reflexivity.
Qed.

Lemma gint_gz V r : reg_ix r -> gint V r = gz V r.
Proof. intros [A B]. unfold gint, gz. now replace ((0 <=? r) && (r <? 32)) with true by lia. Qed.
Lemma gz_range V r : gprs V -> 0 <= gz V r < 2 ^ 32. Proof. intros [A _]. apply A. Qed.
Lemma gz_0 V : gprs V -> gz V 0 = 0. Proof. intros [_ A]. exact A. Qed.

(** Register write. *)
Definition rd_ok (en : bool) (areg rd : Z) : Prop := en = negb (rd =? 0) /\ areg = rd \/ en = true /\ areg = (if rd =? 0 then 32 else rd).
Lemma regs_after V x en areg rd v : gprs V -> reg_ix rd -> rd_ok en areg rd -> g_en (x_g x) = en -> (en = true -> Z.of_nat (g_dest (x_g x)) = areg) ->
  (en = true -> result V x = v) -> 0 <= v < 2 ^ 32 ->
  (forall r, gint (seq1 V x) r = if r =? 0 then 0 else if r =? rd then v else gint V r) /\ gprs (seq1 V x).
Proof.
  intros [GR G0] [R1 R2] OK EN D RS RV. unfold seq1. rewrite EN. destruct en.
  - specialize (D eq_refl). rewrite (RS eq_refl). assert (DC : g_dest (x_g x) = Z.to_nat rd /\ rd <> 0 \/ g_dest (x_g x) = 32%nat /\ rd = 0).
    { destruct OK as [[A B]|[_ B]]; [left; symmetry in A; apply negb_true_iff, Z.eqb_neq in A; lia|destruct (Z.eqb_spec rd 0); [right|left]; lia]. }
    split.
    + intros r. unfold gint, fupd. destruct (Z.eqb_spec r 0) as [->|NZ]; [cbn [Z.leb Z.ltb andb]|].
      * change ((0 <=? 0) && (0 <? 32)) with true. cbv iota. change (Z.to_nat 0) with 0%nat. destruct DC as [[-> N]|[-> _]]; [|exact G0]. replace (0 =? Z.to_nat rd)%nat with false; [exact G0|]. symmetry. apply Nat.eqb_neq. lia.
      * destruct ((0 <=? r) && (r <? 32)) eqn:B; [|replace (r =? rd) with false by lia; reflexivity]. destruct DC as [[-> N]|[-> ->]].
        -- destruct (Nat.eqb_spec (Z.to_nat r) (Z.to_nat rd)); [replace (r =? rd) with true by lia|replace (r =? rd) with false by lia]; reflexivity.
        -- replace (Z.to_nat r =? 32)%nat with false by (symmetry; apply Nat.eqb_neq; lia). replace (r =? 0) with false by lia. reflexivity.
    + split; unfold fupd; [intros r; destruct (_ =? _)%nat; [exact RV|apply GR]|]. destruct DC as [[-> N]|[-> _]]; [|exact G0]. replace (0 =? Z.to_nat rd)%nat with false; [exact G0|]. symmetry. apply Nat.eqb_neq. lia.
  - assert (rd = 0) as -> by (destruct OK as [[A _]|[A _]]; [|discriminate]; destruct (Z.eqb_spec rd 0); [assumption|discriminate]). split; [|split; assumption].
    intros r. destruct (Z.eqb_spec r 0) as [->|]; [exact G0|reflexivity].
Qed.
Lemma regs_same V x : gprs V -> g_en (x_g x) = false -> (forall r, gint (seq1 V x) r = if r =? 0 then 0 else gint V r) /\ gprs (seq1 V x).
Proof. intros G E. unfold seq1. rewrite E. split; [|exact G]. intros r. destruct (Z.eqb_spec r 0) as [->|]; [exact (proj2 G)|reflexivity]. Qed.

(** Bytes. *)
Definition bytes (M : bmem) : Prop := forall y, 0 <= M y < 256.
Lemma bytes_store M a n v : bytes M -> bytes (store_bytes M a n v).
Proof. intros B y. unfold store_bytes. destruct (_ && _); [apply Z.mod_pos_bound; lia|apply B]. Qed.
Lemma bytes_run l : forall M, bytes M -> bytes (run_stores l M).
Proof. induction l as [|h l IH]; intros M B; [exact B|]. cbn [run_stores fold_left]. apply IH. apply bytes_store. exact B. Qed.
Lemma bytes_mem W t : bytes (mem_after W t).
Proof. apply bytes_run. intros y. apply Z.mod_pos_bound. lia. Qed.
Lemma load_bytes_range M : bytes M -> forall n a, 0 <= load_bytes M a n < 256 ^ Z.of_nat n.
Proof.
  intros B. induction n as [|n IH]; intros a; [cbn; lia|]. cbn [load_bytes]. specialize (IH (a + 1)). specialize (B a). rewrite Nat2Z.inj_succ, Z.pow_succ_r by lia. lia.
Qed.
Lemma isa_load_range M a f3 : bytes M -> load_f3 f3 -> 0 <= isa_load M a f3 < 2 ^ 32.
Proof.
  intros B F. unfold isa_load. pose proof (load_bytes_range M B (Z.to_nat (size f3)) a) as R. unfold load_f3 in F. cbn [In] in F. change (2 ^ 32) with 4294967296.
  destruct F as [<-|[<-|[<-|[<-|[<-|[]]]]]]; unfold extend.
  - change (256 ^ Z.of_nat (Z.to_nat (size 0))) with 256 in R. change (0 =? 0) with true. cbv iota. change (2 ^ 32 - 256) with 4294967040. destruct (Z.ltb_spec (load_bytes M a (Z.to_nat (size 0))) 128); lia.
  - change (256 ^ Z.of_nat (Z.to_nat (size 1))) with 65536 in R. change (1 =? 0) with false. change (1 =? 1) with true. cbv iota. change (2 ^ 32 - 65536) with 4294901760. destruct (Z.ltb_spec (load_bytes M a (Z.to_nat (size 1))) 32768); lia.
  - change (256 ^ Z.of_nat (Z.to_nat (size 2))) with 4294967296 in R. change (2 =? 0) with false. change (2 =? 1) with false. cbv iota. lia.
  - change (256 ^ Z.of_nat (Z.to_nat (size 4))) with 256 in R. change (4 =? 0) with false. change (4 =? 1) with false. cbv iota. lia.
  - change (256 ^ Z.of_nat (Z.to_nat (size 5))) with 65536 in R. change (5 =? 0) with false. change (5 =? 1) with false. cbv iota. lia.
Qed.

(** One instruction. *)
Section one.
  Variables (act : nat -> Z) (V : nat -> Z) (M : bmem) (p : Z) (m : item).
  Let x := m_fly m. Let a := mkist (gint V) p M.
  Hypothesis G : gprs V. Hypothesis B : bytes M. Hypothesis D : does p m. Hypothesis RN : ran act m. Hypothesis LG : legal a (m_ins m).
  Hypothesis OPS : forall v1 v2, x_ops x = Some (v1, v2) -> v1 = src1 V x /\ v2 = src2 V x.
  Hypothesis LD : forall pa f3 v t, m_ops m = MLoad pa f3 v :: t -> load_f3 f3 -> no_wrap pa f3 -> aligned pa f3 -> v = isa_load M pa f3.

  Lemma writes rd v : memop (m_ins m) = false -> reg_ix rd -> exec_result (enc (m_ins m)) (gz V) p = Val v -> d_dest_areg (decode (enc (m_ins m))) = rd -> d_dest_en (decode (enc (m_ins m))) = negb (rd =? 0) -> 0 <= v < 2 ^ 32 ->
    (forall r, gint (seq1 V x) r = if r =? 0 then 0 else if r =? rd then v else gint V r) /\ gprs (seq1 V x).
  Proof.
    intros MO RI EX AR EN RV. apply (regs_after V x (d_dest_en (decode (enc (m_ins m)))) (d_dest_areg (decode (enc (m_ins m)))) rd v); auto.
    - left. split; assumption.
    - exact (do_en _ _ D).
    - exact (do_rd _ _ D).
    - intros E. exact (do_val _ _ D MO V v G EX E).
  Qed.
  Definition after_mem : bmem := run_stores (filter LsuSpec.plain (stores_of (m_ops m))) M.
  Definition wf_new : Prop := forall h, In h (stores_of (m_ops m)) -> LsuSpec.plain h = true -> LvMem.wf h.
  (** The step from the three parts. *)
  Lemma assemble : (forall r, gint (seq1 V x) r = if r =? 0 then 0 else match dest (m_ins m) with Some d => if r =? d then value a (m_ins m) else gint V r | None => gint V r end) ->
    actE act (m_ent m) = next a (m_ins m) -> (forall y, after_mem y = memory a (m_ins m) y) ->
    isa_step a (mkist (gint (seq1 V x)) (actE act (m_ent m)) after_mem).
  Proof.
    intros RG PC MM. destruct LG as (L1 & L2 & L3 & L4 & _). exists (m_ins m). split; [exact L1|]. split; [exact L2|]. split; [exact (do_wf _ _ D)|]. split; [exact L3|]. split; [exact L4|].
    split; [exact PC|]. split; [exact RG|exact MM].
  Qed.
  Lemma one : isa_step a (mkist (gint (seq1 V x)) (actE act (m_ent m)) after_mem) /\ gprs (seq1 V x) /\ wf_new.
  Proof.
    destruct RN as (v1 & v2 & RO & AC & OP). destruct (OPS v1 v2 RO) as [E1 E2]. cbv zeta in OP. pose proof (do_wf _ _ D) as WF. pose proof (fun r => gz_range V r G) as GR. pose proof (gz_0 V G) as G0. pose proof LG as (_ & _ & L3 & L4 & L5).
    pose proof writes as WR. pose proof assemble as AS. pose proof (do_seq _ _ D) as SQ. pose proof (do_adr _ _ D V) as AD. pose proof (do_dat _ _ D V) as DT. pose proof (do_nxt _ _ D V) as NX. pose proof (do_en _ _ D) as EN. pose proof (do_rd _ _ D) as RD.
    fold x in AD, DT, NX, EN, RD, OP. rewrite <- E1, <- E2 in AD, DT, NX. assert (NM : m_ops m = [] -> wf_new) by (intros N; unfold wf_new; rewrite N; intros h []).
    assert (NK : m_ops m = [] -> forall y, after_mem y = M y) by (intros N y; unfold after_mem; rewrite N; reflexivity).
    destruct (m_ins m) as [o rd rs1 rs2|o rd rs1 rs2|o rd rs1 imm|o rd rs1 n|o rd rs1|rd i|rd i|rd off|rd rs1 imm|o rs1 rs2 off|f3 rd rs1 imm|f3 rs1 rs2 imm|o q rd rs1 rs2] eqn:EI; cbn [enc wf_ins memop jumps dest value next memory addr x_gpr x_pc x_mem a rotate0 access_ok] in *.
    - destruct WF as (W1 & W2 & W3). rewrite (gint_gz V rs2 W3) in L3. destruct (c12_register_ops o rd rs1 rs2 (gz V) p W1 W2 W3 GR) as (X1 & X2 & X3); [intros [E|E]; subst o; exact L3|].
      destruct (WR rd _ eq_refl W1 X1 X2 X3 (rop_range _ _ _ (GR rs1) (GR rs2))) as [Y1 Y2]. rewrite (gint_gz V rs1 W2), (gint_gz V rs2 W3) in AS. split; [|auto]. apply AS; [exact Y1| |exact (NK OP)]. rewrite AC. exact (SQ eq_refl v1 v2).
    - destruct WF as (W1 & W2 & W3). destruct (c13_mul_div o rd rs1 rs2 (gz V) p W1 W2 W3 GR) as (X1 & X2 & X3).
      destruct (WR rd _ eq_refl W1 X1 X2 X3 (mop_range _ _ _ (GR rs1) (GR rs2))) as [Y1 Y2]. rewrite (gint_gz V rs1 W2), (gint_gz V rs2 W3) in AS. split; [|auto]. apply AS; [exact Y1| |exact (NK OP)]. rewrite AC. exact (SQ eq_refl v1 v2).
    - destruct WF as (W1 & W2 & W3). destruct (c12_immediate_ops o rd rs1 imm (gz V) p W1 W2 W3 GR) as (X1 & X2 & X3).
      destruct (WR rd _ eq_refl W1 X1 X2 X3 (iop_range _ _ _ (GR rs1))) as [Y1 Y2]. rewrite (gint_gz V rs1 W2) in AS. split; [|auto]. apply AS; [exact Y1| |exact (NK OP)]. rewrite AC. exact (SQ eq_refl v1 v2).
    - destruct WF as (W1 & W2 & W3). destruct (c12_shift_immediates o rd rs1 n (gz V) p W1 W2 W3 GR) as (X1 & X2 & X3); [intros E; subst o; exact L3|].
      assert (RV : 0 <= sem_shop o (gz V rs1) n < 2 ^ 32) by (apply rop_range; [apply GR|unfold W; change (2 ^ 32) with 4294967296; lia]).
      destruct (WR rd _ eq_refl W1 X1 X2 X3 RV) as [Y1 Y2]. rewrite (gint_gz V rs1 W2) in AS. split; [|auto]. apply AS; [exact Y1| |exact (NK OP)]. rewrite AC. exact (SQ eq_refl v1 v2).
    - destruct WF as (W1 & W2). destruct (c12_unary_ops o rd rs1 (gz V) p W1 W2 (conj GR G0)) as (X1 & X2 & X3).
      destruct (WR rd _ eq_refl W1 X1 X2 X3 (uop1_range _ _ (GR rs1))) as [Y1 Y2]. rewrite (gint_gz V rs1 W2) in AS. split; [|auto]. apply AS; [exact Y1| |exact (NK OP)]. rewrite AC. exact (SQ eq_refl v1 v2).
    - destruct WF as (W1 & W2). destruct (c12_lui rd i (gz V) p W1 W2 (conj GR G0)) as (X1 & X2 & X3).
      destruct (WR rd _ eq_refl W1 X1 X2 X3) as [Y1 Y2]; [change (2 ^ 20) with 1048576 in W2; change (2 ^ 32) with 4294967296; change (2 ^ 12) with 4096; lia|]. split; [|auto]. apply AS; [exact Y1| |exact (NK OP)]. rewrite AC. exact (SQ eq_refl v1 v2).
    - destruct WF as (W1 & W2). destruct (c12_auipc rd i (gz V) p W1 W2) as (X1 & X2 & X3).
      destruct (WR rd _ eq_refl W1 X1 X2 X3 (W_mod _)) as [Y1 Y2]. split; [|auto]. apply AS; [exact Y1| |exact (NK OP)]. rewrite AC. exact (SQ eq_refl v1 v2).
    - destruct WF as (W1 & W2 & W3). destruct (c14_jal rd off (gz V) p true 0 W1 W2 W3) as ((r & X0 & _ & X4 & _) & X1 & X2 & X3).
      destruct (WR rd _ eq_refl W1 X1 X2 X3 (W_mod _)) as [Y1 Y2]. split; [|auto]. apply AS; [exact Y1| |exact (NK OP)]. rewrite AC, (NX _ _ _ G X0). exact X4.
    - destruct WF as (W1 & W2 & W3). destruct (c14_jalr rd rs1 imm (gz V) p true 0 W1 W2 W3) as ((r & X0 & _ & X4 & _) & X1 & X2 & X3).
      destruct (WR rd _ eq_refl W1 X1 X2 X3 (W_mod _)) as [Y1 Y2]. rewrite (gint_gz V rs1 W2) in AS. split; [|auto]. apply AS; [exact Y1| |exact (NK OP)]. rewrite AC, (NX _ _ _ G X0). exact X4.
    - destruct WF as (W1 & W2 & W3 & W4). destruct (c14_conditional_branch o rs1 rs2 off (gz V) p true 0 W1 W2 W3 W4 GR) as (r & X0 & (_ & X4 & _) & X3).
      destruct (regs_same V x G (eq_trans EN X3)) as [Y1 Y2]. rewrite (gint_gz V rs1 W1), (gint_gz V rs2 W2) in AS. split; [|auto]. apply AS; [exact Y1| |exact (NK OP)]. rewrite AC, (NX _ _ _ G X0). exact X4.
    - destruct WF as (W1 & W2 & W3 & W4). destruct (c43_load_address f3 rd rs1 imm (gz V) (load_f3_range _ W1) W2 W3 W4) as (X1 & X2 & X3 & X4). specialize (AD _ G X1). destruct L4 as [AL _].
      rewrite (gint_gz V rs1 W3) in AS, AL, L5. rewrite X2, AD in OP. pose proof (LD _ _ _ _ OP W1 L5 AL) as LV.
      destruct (regs_after V x _ _ rd (isa_load M ((gz V rs1 + imm) mod M32) f3) G W2 (or_introl (conj X4 X3)) EN RD) as [Y1 Y2]; [intros _; unfold result; rewrite <- E1, <- E2; exact LV|exact (isa_load_range _ _ _ B W1)|].
      split; [|split; [exact Y2|unfold wf_new; rewrite OP; intros h []]]. apply AS; [exact Y1| |unfold after_mem; rewrite OP; reflexivity]. rewrite AC. exact (SQ eq_refl v1 v2).
    - destruct WF as (W1 & W2 & W3 & W4). destruct (c43_store_address_and_data f3 rs1 rs2 imm (gz V) 0 ltac:(pose proof (load_f3_range _ (store_is_load _ W1)); lia) W2 W3 W4) as (X1 & X2 & X3 & X4). specialize (AD _ G X1). specialize (DT _ _ G X2). destruct L4 as [AL _].
      rewrite (gint_gz V rs1 W2) in AS, AL, L5. rewrite (gint_gz V rs2 W3) in AS. rewrite X3, AD, DT in OP. destruct (regs_same V x G (eq_trans EN X4)) as [Y1 Y2].
      split; [|split; [exact Y2|]]. 
      + apply AS; [exact Y1| |unfold after_mem; rewrite OP; reflexivity]. rewrite AC. exact (SQ eq_refl v1 v2).
      + unfold wf_new. rewrite OP. intros h [<-|[]] _. split; [split; [exact W1|split; [|exact AL]]|exact L5]. cbn [h_pa]. destruct L5. pose proof (size_cases f3). unfold is_w. lia.
    - destruct WF as (W1 & W2 & W3 & W4). destruct L4 as [AL _]. rewrite (gint_gz V rs1 W3) in AS, AL, L5. rewrite (gint_gz V rs2 W4) in AS.
      assert (F2 : load_f3 2) by (unfold load_f3; cbn; tauto). set (old := w_fun (x_w x) v1 v2) in *.
      assert (AV : m_adr m v1 v2 = gz V rs1). { destruct (c43_amo o q rd rs1 rs2 (gz V) 0 W1 W2 W3 W4 GR ltac:(lia)) as (X1 & _). exact (AD _ G X1). }
      rewrite AV in OP. pose proof (LD _ _ _ _ OP F2 L5 AL) as LV. pose proof (isa_load_range M (gz V rs1) 2 B F2) as LR. rewrite <- LV in LR, AS.
      destruct (c43_amo o q rd rs1 rs2 (gz V) old W1 W2 W3 W4 GR LR) as (X1 & X2 & X3 & X4). rewrite (DT _ _ G X2) in OP.
      destruct (regs_after V x _ _ rd old G W2 (or_intror (conj X4 X3)) EN RD) as [Y1 Y2]; [intros _; unfold result; rewrite <- E1, <- E2; reflexivity|exact LR|].
      split; [|split; [exact Y2|]].
      + apply AS; [exact Y1| |unfold after_mem; rewrite OP; reflexivity]. rewrite AC. exact (SQ eq_refl v1 v2).
      + unfold wf_new. rewrite OP. intros h [<-|[]] _. split; [split; [unfold store_f3; cbn; tauto|split; [|exact AL]]|exact L5]. cbn [h_pa]. exact (GR rs1).
  Qed.
End one.

(** The stretch. *)
Section stretch.
  Variables (pc pred act : nat -> Z) (flg br : nat -> bool) (start : Z).
  Definition steps (l : list item) : list (qent * option Z) := map (fun m => (m_ent m, @None Z)) l.
  Lemma path_app l1 : forall x l2 y, path pc act x (l1 ++ l2) y -> exists z, path pc act x l1 z /\ path pc act z l2 y.
  Proof.
    induction l1 as [|[e f] l1 IH]; intros x l2 y P; [exists x; split; [reflexivity|exact P]|]. cbn [app path] in *. destruct P as [P1 P2]. destruct (IH _ _ _ P2) as (z & Z1 & Z2). exists z. auto.
  Qed.
  Lemma path_steps l : forall x y, path pc act x (steps l) y -> y = pc_after act x l.
  Proof. induction l as [|m l IH]; intros x y P; cbn in *; [congruence|]. destruct P as [_ P]. exact (IH _ _ P). Qed.
  Lemma path_at x l1 m l2 y : path pc act x (steps (l1 ++ m :: l2)) y -> pcE pc (m_ent m) = pc_after act x l1.
  Proof. unfold steps. rewrite map_app. intros P. apply path_app in P as (z & P1 & P2). apply path_steps in P1. cbn [map path] in P2. destruct P2 as [P2 _]. congruence. Qed.

  Variables (nports : nat) (c : core) (W : Z -> Z) (rl : rob) (ql : list qent) (s : LsuModel.lsu) (g : LsuCycle.gs) (pend : list LsuModel.dlreq) (pos : nat -> nat) (cs : nat) (acc : nat -> bool * Z * Z) (T : list LcModel.mop).
  Variables (rp : rob) (qp : list qent) (b : latch) (xp : Z) (L : list (qent * option Z)).
  Variables (H0 H2 : list fly) (T0 T2 : list LcModel.mop) (L0 L2 : list (qent * option Z)) (l : list item).
  Hypothesis RUN : runs nports c.
  Hypothesis LSU : treach W rl ql s g pend pos cs acc T.
  Hypothesis PATH : preach pc pred act flg br start rp qp b xp L.
  Hypothesis LOG : k_log c = H0 ++ map m_fly l ++ H2.
  Hypothesis OPS : T = T0 ++ flat_map m_ops l ++ T2.
  Hypothesis WAY : L = L0 ++ steps l ++ L2.
  Hypothesis DOES : forall m, In m l -> does (pcE pc (m_ent m)) m /\ ran act m.
  Hypothesis BEFORE : gprs (seq_run zero H0) /\ forall h, In h (stores_of T0) -> LsuSpec.plain h = true -> LvMem.wf h.
  Definition at_ (x : Z) (l1 : list item) : ist := arch W (H0 ++ map m_fly l1) (T0 ++ flat_map m_ops l1) (pc_after act x l1).
  Lemma seq_run_snoc h x : seq_run zero (h ++ [x]) = seq1 (seq_run zero h) x. Proof. unfold seq_run. now rewrite fold_left_app. Qed.
  Lemma mem_snoc t o : mem_after W (t ++ o) = run_stores (filter LsuSpec.plain (stores_of o)) (mem_after W t).
  Proof. unfold mem_after. now rewrite stores_of_app, filter_app, run_stores_app. Qed.
  Lemma stretch_run : exists x, path pc act start L0 x /\ path pc act (pc_after act x l) L2 (next_pc pc qp xp) /\
    ((forall l1 m l2, l = l1 ++ m :: l2 -> legal (at_ x l1) (m_ins m)) -> forall l1 l2, l = l1 ++ l2 ->
      isa_run (at_ x []) (at_ x l1) /\ gprs (seq_run zero (H0 ++ map m_fly l1)) /\ forall h, In h (stores_of (T0 ++ flat_map m_ops l1)) -> LsuSpec.plain h = true -> LvMem.wf h).
  Proof.
    pose proof (c80_committed_path _ _ _ _ _ _ _ _ _ _ _ PATH) as P. rewrite WAY in P. apply path_app in P as (x & P0 & P). apply path_app in P as (z & P & P2). exists x. split; [exact P0|].
    split; [rewrite <- (path_steps _ _ _ P); exact P2|]. intros LG.
    induction l1 as [|m l1 IH] using rev_ind; intros l2 E.
    - cbn [map flat_map]. rewrite !app_nil_r. split; [constructor|exact BEFORE].
    - rewrite <- app_assoc in E. cbn [app] in E. destruct (IH _ E) as (I1 & I2 & I3). destruct (DOES m ltac:(rewrite E; apply in_or_app; right; now left)) as [D R].
      specialize (LG l1 m l2 E). rewrite E in P. pose proof (path_at _ _ _ _ _ P) as PE. rewrite PE in D.
      destruct (one act (seq_run zero (H0 ++ map m_fly l1)) (mem_after W (T0 ++ flat_map m_ops l1)) (pc_after act x l1) m I2 (bytes_mem _ _) D R LG) as (O1 & O2 & O3).
      + intros v1 v2. apply (log_captured nports c _ _ (map m_fly l2 ++ H2) v1 v2 RUN). rewrite LOG, E, map_app, <- !app_assoc. reflexivity.
      + intros pa f3 v t M A1 A2 A3. destruct (c77_sequential _ _ _ _ _ _ _ _ _ _ LSU) as [_ SE]. apply (SE (T0 ++ flat_map m_ops l1) pa f3 v (t ++ flat_map m_ops l2 ++ T2)); auto.
        rewrite OPS, E, flat_map_app. cbn [flat_map]. rewrite M, <- !app_assoc. reflexivity.
      + rewrite !map_app, !flat_map_app. cbn [map flat_map]. rewrite app_nil_r, !app_assoc, seq_run_snoc. split; [|split; [exact O2|]].
        * apply (run1 _ _ _ I1). unfold at_ at 2, arch. rewrite map_app, flat_map_app. cbn [map flat_map]. rewrite app_nil_r, !app_assoc, seq_run_snoc, mem_snoc. unfold pc_after. rewrite fold_left_app. cbn [fold_left]. exact O1.
        * intros h. rewrite stores_of_app. intros IH'. apply in_app_or in IH' as [J|J]; [exact (I3 h J)|exact (O3 h J)].
  Qed.
  (** C81: the stretch is a run of the instruction set from the state before it to the state after it, if the program obeys [legal] on the way. *)
  Theorem c81_isa_run : exists x, path pc act start L0 x /\ path pc act (pc_after act x l) L2 (next_pc pc qp xp) /\
    ((forall l1 m l2, l = l1 ++ m :: l2 -> legal (at_ x l1) (m_ins m)) -> isa_run (at_ x []) (at_ x l)).
  Proof. destruct stretch_run as (x & P & P2 & K). exists x. split; [exact P|]. split; [exact P2|]. intros LG. destruct (K LG l [] ltac:(now rewrite app_nil_r)) as [K' _]. exact K'. Qed.
  (** The reference simulator, started where the stretch starts, arrives where it ends: the lock-step check of registers finds no difference. *)
  Theorem c81_reference_agrees : exists x, path pc act start L0 x /\
    ((forall l1 m l2, l = l1 ++ m :: l2 -> legal (at_ x l1) (m_ins m)) ->
     forall env t, RefStepProofs.inv t -> RefStepProofs.R t (at_ x []) ->
     exists n t', calls env n t = Done t' /\ (forall r, (r < 32)%nat -> r_gpr t' (Z.of_nat r) = seq_run zero (H0 ++ map m_fly l) r) /\ r_pc t' = pc_after act x l /\
       forall y, bytes_of (r_mem t') y = mem_after W (T0 ++ flat_map m_ops l) y).
  Proof.
    destruct c81_isa_run as (x & P & _ & K). exists x. split; [exact P|]. intros LG env t IV RR. destruct (c59_programs env t _ _ IV RR (K LG)) as (n & t' & C & _ & (R1 & R2 & R3) & _).
    exists n, t'. split; [exact C|]. split; [|split; [symmetry; exact R2|intros y; symmetry; exact (R3 y)]].
    intros r Hr. rewrite <- R1. cbn [at_ arch x_gpr]. unfold gint. replace ((0 <=? Z.of_nat r) && (Z.of_nat r <? 32)) with true by lia. now rewrite Nat2Z.id.
  Qed.
End stretch.

(** From reset, when everything has drained: registers as the check reads them, the address of the next instruction and the
    bytes of memory are those a run of the instruction set reaches from zeroed registers, the reset address and the loaded image. *)
Theorem c81_program pc pred act flg br start n c W rl ql s g pend pos cs acc T rp qp b xp L l :
  runs n c -> treach W rl ql s g pend pos cs acc T -> preach pc pred act flg br start rp qp b xp L ->
  k_log c = map m_fly l -> T = flat_map m_ops l -> L = steps l ->
  (forall m, In m l -> does (pcE pc (m_ent m)) m /\ ran act m) ->
  (forall l1 m l2, l = l1 ++ m :: l2 -> legal (arch W (map m_fly l1) (flat_map m_ops l1) (pc_after act start l1)) (m_ins m)) ->
  LsuModel.scc (LsuModel.st s) = 0%nat ->
  exists i f, isa_run i f /\ (forall r, x_gpr i r = 0) /\ x_pc i = start /\ x_mem i = bytes_of W /\ (forall r, (r < 32)%nat -> x_gpr f (Z.of_nat r) = get_reg c r) /\ x_pc f = next_pc pc qp xp /\
    forall y, x_mem f y = bytes_of (fold_left LsuSpec.perform (LsuCycle.g_log g) W) y.
Proof.
  intros RU LS PR E1 E2 E3 DO LG DR. destruct (stretch_run pc pred act flg br start n c W rl ql s g pend pos cs acc T rp qp b xp L [] [] [] [] [] [] l RU LS PR) as (x & P & P2 & K); rewrite ?app_nil_r; auto.
  { split; [split; [intros r; change (0 <= 0 < 2 ^ 32); split; [lia|reflexivity]|reflexivity]|intros h []]. }
  cbn [path] in P, P2. subst x. destruct (K LG l [] ltac:(now rewrite app_nil_r)) as (K1 & _ & K3). cbn [app] in K3. rewrite <- E2 in K3.
  exists (arch W [] [] start), (arch W (map m_fly l) (flat_map m_ops l) (pc_after act start l)). split; [exact K1|]. split; [intros r; cbn [arch x_gpr]; unfold gint; now destruct (_ && _)|]. split; [reflexivity|]. split; [reflexivity|]. split; [|split].
  - intros r Hr. rewrite (c72_registers n c r RU) by (unfold RAT_NUM; lia). rewrite E1. unfold arch, x_gpr, gint. replace ((0 <=? Z.of_nat r) && (Z.of_nat r <? 32)) with true by lia. now rewrite Nat2Z.id.
  - exact P2.
  - intros y. rewrite (c77_final_memory _ _ _ _ _ _ _ _ _ _ LS DR) by (intros h I Q; exact (proj1 (K3 h I Q))). rewrite E2. reflexivity.
Qed.

(** *** A program: LUI, SW, LW
    0x80000000: lui x1, 0x80001;  sw x1, 0(x1);  lw x2, 0(x1) *)
Definition px : list ins := [ILui 1 0x80001; IStore 2 1 1 0; ILoad 2 2 1 0].
Definition pW : Z -> Z := fun a => if a =? 0x20000000 then enc_lui 1 0x80001 else if a =? 0x20000001 then enc_store 2 1 1 0 else if a =? 0x20000002 then enc_load 2 2 1 0 else 0.
Definition w_lui : work := Work false false (fun _ _ => 0x80001000).
Definition w_sw : work := Work true true (fun _ _ => 0).
Definition w_lw : work := Work true false (fun _ _ => 0x80001000).
Definition p_cycles : list cyc :=
  [ cyc0 [slot true 1 0 0; slot false 0 1 1] true [] [] [] 0 [] [] [];
    cyc0 [slot true 2 1 0] true [] [] [] 0 [w_lui; w_sw] [] [];
    cyc0 [] true [] [] [] 0 [w_lw] [0%nat] [];
    cyc0 [] true [] [wbk 33 0x80001000] [wbk 33 0x80001000] 0 [] [1%nat; 2%nat] [0%nat];
    cyc0 [] true [] [] [wbk 34 0x80001000] 0 [] [] [2%nat];
    cyc0 [] true [CEntry true true 1 33 1 false; CEntry true false 0 0 0 false] [] [] 2 [] [] [];
    cyc0 [] true [CEntry true true 2 34 2 false] [] [] 1 [] [] [] ].
Definition p_c : core := fold_left core_step p_cycles (core_init 4).
Lemma p_runs : runs 4 p_c.
Proof. apply (allokb_runs resultb result_of resultb_ok 4 p_cycles); [apply runs_init|]. vm_compute. reflexivity. Qed.
(** The micro-operations: the queue place of the memory operation and, above it, a number. *)
Definition pu0 : ruop := ex_k_uop T_ADD 1 0.
Definition pu1 : ruop := ex_k_uop T_STORE 6 128.
Definition pu2 : ruop := ex_k_uop T_LOAD 1 257.
Definition p_kp : list kp := let no := [None; None] in let idle := Kp no false [] [] [] [] [] [] [] [] [] [] in
  [ Kp [Some pu0; Some pu1] false [] [] [] [] [] [] [] [] [] [LsuModel.SA 0 1 false 2 false];
    Kp [Some pu2; None] false [RlProps.rep 0 0] [] [] [LsuModel.StD 0 1 false 0x80001000] [LsuModel.StA 0 1 false 0x80001000 2 0 false] [] [] [LsuModel.MR (LsuModel.MHit 0x80001000) 0 0] [LsuModel.LA 0 0 2 false] [];
    Kp no false [RlProps.rep 6 1] [] [] [] [] [LsuModel.LdR 0 2 false 0x80001000 2 40 1 false false] [LsuModel.MR (LsuModel.MHit 0x80001000) 0 0] [] [] [];
    idle; Kp no false [] [] [LsuModel.DS 0 LsuModel.RHit] [] [] [] [] [] [] []; idle; idle; idle; idle ].
Definition p_T : list LcModel.mop := [MStore (HS 0x80001000 2 0x80001000 false false); MLoad 0x80001000 2 0x80001000].
Definition p_view (x : option (rob * list qent * LsuModel.lsu * LsuCycle.gs * list LsuModel.dlreq * (nat -> nat) * nat * (nat -> bool * Z * Z) * list LcModel.mop)) :=
  match x with Some (_, _, l, _, _, _, _, _, T) => Some (LsuModel.scc (LsuModel.st l), T) | None => None end.
Lemma p_lsu : exists r q l g pend pos c acc, treach pW r q l g pend pos c acc p_T /\ LsuModel.scc (LsuModel.st l) = 0%nat.
Proof.
  assert (X : p_view (kruns pW rob_init [] LsuModel.lsu0 LsuCycle.g0 [] (fun _ => 0%nat) 0 (fun _ => (true, 0%Z, 0%Z)) [] p_kp) = Some (0%nat, p_T)) by (vm_compute; reflexivity).
  destruct (kruns pW rob_init [] LsuModel.lsu0 LsuCycle.g0 [] (fun _ => 0%nat) 0 (fun _ => (true, 0%Z, 0%Z)) [] p_kp) as [[[[[[[[[r q] l] g] pend] pos] c] acc] T]|] eqn:E; [|discriminate]. cbn [p_view] in X. injection X as XC XT. subst T. exists r, q, l, g, pend, pos, c, acc.
  split; [exact (kruns_reach _ _ _ _ _ _ _ _ _ _ _ _ _ _ _ _ _ _ _ _ (treach0 _ _) E)|exact XC].
Qed.
Definition p_pc (n : nat) : Z := 0x80000000 + 4 * Z.of_nat (n / 128).
Definition p_act (n : nat) : Z := p_pc n + 4.
Definition p_no (n : nat) : bool := false.
Definition p_in : list pin := [ (xi None [] [Some pu0; Some pu1], [], 0); (xi None [xw 0 0 false] [Some pu2; None], [], 0); (xi None [xw 4 1 false; xw 6 1 false] nof, [], 0); (xi None [xw 2 2 false] nof, [], 0); (xi None [] nof, [], 0); (xi None [] nof, [], 0)].
Definition p_st : pst := fold_left (pnext p_act) p_in (rob_init, [], None, 0x80000000, []).
Lemma p_path : holds p_pc p_act p_act p_no p_no 0x80000000 p_st.
Proof. apply pok_run; [constructor|vm_compute; reflexivity]. Qed.
Definition p_l : list item :=
  match k_log p_c, p_st with
  | [f0; f1; f2], (_, _, _, _, [(e0, _); (e1, _); (e2, _)]) =>
      let adr v1 (v2 : Z) := v1 mod 2 ^ 32 in let dat (old v1 v2 : Z) := v2 in
      [mkitem f0 e0 (ILui 1 0x80001) adr dat (fun _ _ => 0x80000004) []; mkitem f1 e1 (IStore 2 1 1 0) adr dat (fun _ _ => 0x80000008) (firstn 1 p_T); mkitem f2 e2 (ILoad 2 2 1 0) adr dat (fun _ _ => 0x8000000c) (skipn 1 p_T)]
  | _, _ => [] end.
Lemma p_does m : In m p_l -> does (pcE p_pc (m_ent m)) m /\ ran p_act m.
Proof.
  assert (RI : forall r, 0 <= r < 3 -> reg_ix r) by (unfold reg_ix; lia).
  assert (X1 : forall V, exec_addr (enc_store 2 1 1 0) (gz V) = Some ((gz V 1 + 0) mod 2 ^ 32) /\ forall old, exec_store_data (enc_store 2 1 1 0) (gz V) old = Some (gz V 1)).
  { intros V. split; [|intros old]; destruct (c43_store_address_and_data 2 1 1 0 (gz V) 0) as (A & B & _); try apply RI; try lia; [exact A|]. destruct (c43_store_address_and_data 2 1 1 0 (gz V) old) as (_ & B' & _); try apply RI; try lia. exact B'. }
  assert (X2 : forall V, exec_addr (enc_load 2 2 1 0) (gz V) = Some ((gz V 1 + 0) mod 2 ^ 32)) by (intros V; apply c43_load_address; try apply RI; lia).
  assert (X0 : forall V p, gprs V -> exec_result (enc_lui 1 0x80001) (gz V) p = Val 0x80001000).
  { intros V p G. destruct (c12_lui 1 0x80001 (gz V) p) as (A & _); [apply RI; lia|change (2 ^ 20) with 1048576; lia|split; [intros r; apply gz_range; exact G|apply gz_0; exact G]|exact A]. }
  unfold p_l. let v := eval vm_compute in (k_log p_c) in change (k_log p_c) with v. let v := eval vm_compute in p_st in change p_st with v. cbv iota zeta. intros [<-|[<-|[<-|[]]]]; (split; [constructor|]); cbn [m_fly m_ent m_ins m_adr m_dat m_nxt m_ops enc memop jumps].
  - cbn. unfold reg_ix. lia.
  - vm_compute. reflexivity.
  - intros _. vm_compute. reflexivity.
  - intros _ V v G E _. rewrite (X0 V _ G) in E. injection E as <-. reflexivity.
  - intros V a0 _ E. vm_compute in E. discriminate.
  - intros V old d _ E. vm_compute in E. discriminate.
  - intros V pt npc r _ E. vm_compute in E. discriminate.
  - intros _ v1 v2. vm_compute. reflexivity.
  - do 2 eexists. split; [reflexivity|]. split; [vm_compute; reflexivity|]. vm_compute. reflexivity.
  - cbn. unfold store_f3, reg_ix, imm12. cbn. lia.
  - vm_compute. reflexivity.
  - intros E. vm_compute in E. discriminate.
  - discriminate.
  - intros V a0 _ E. rewrite (proj1 (X1 V)) in E. injection E as <-. rewrite Z.add_0_r. reflexivity.
  - intros V old d _ E. rewrite (proj2 (X1 V)) in E. injection E as <-. reflexivity.
  - intros V pt npc r _ E. vm_compute in E. discriminate.
  - intros _ v1 v2. vm_compute. reflexivity.
  - do 2 eexists. split; [reflexivity|]. split; [vm_compute; reflexivity|]. vm_compute. reflexivity.
  - cbn. unfold load_f3, reg_ix, imm12. cbn. lia.
  - vm_compute. reflexivity.
  - intros _. vm_compute. reflexivity.
  - discriminate.
  - intros V a0 _ E. rewrite X2 in E. injection E as <-. rewrite Z.add_0_r. reflexivity.
  - intros V old d _ E. vm_compute in E. discriminate.
  - intros V pt npc r _ E. vm_compute in E. discriminate.
  - intros _ v1 v2. vm_compute. reflexivity.
  - do 2 eexists. split; [reflexivity|]. split; [vm_compute; reflexivity|]. vm_compute. reflexivity.
Qed.
Lemma p_legal l1 m l2 : p_l = l1 ++ m :: l2 -> legal (arch pW (map m_fly l1) (flat_map m_ops l1) (pc_after p_act 0x80000000 l1)) (m_ins m).
Proof.
  unfold p_l. let v := eval vm_compute in (k_log p_c) in change (k_log p_c) with v. let v := eval vm_compute in p_st in change p_st with v. cbv iota zeta. intros E.
  destruct l1 as [|a0 [|a1 [|a2 [|a3 l1]]]]; try discriminate; cbn [app] in E; [injection E as <- <-|injection E as <- <- <-|injection E as <- <- <- <-]; cbn [map m_fly m_ops m_ins m_ent flat_map app].
  - split; [vm_compute; reflexivity|]. split; [vm_compute; reflexivity|]. split; [intros []|]. split; exact I.
  - split; [vm_compute; reflexivity|]. split; [vm_compute; reflexivity|]. split; [intros []|]. split; [split; [vm_compute; reflexivity|]|vm_compute; split; congruence]. unfold plain. vm_compute. intros H. repeat (destruct H as [H|H]; [discriminate|]). exact H.
  - split; [vm_compute; reflexivity|]. split; [vm_compute; reflexivity|]. split; [intros []|]. split; [split; [vm_compute; reflexivity|]|vm_compute; split; congruence]. unfold plain. vm_compute. intros H. repeat (destruct H as [H|H]; [discriminate|]). exact H.
Qed.
(** The three logs of this program meet every hypothesis of [c81_program]: a run of the instruction set ends with what the core holds. *)
Example c81_ex : exists g i f, isa_run i f /\ (forall r, x_gpr i r = 0) /\ x_pc i = 0x80000000 /\ x_mem i = bytes_of pW /\
  x_gpr f 1 = 0x80001000 /\ x_gpr f 2 = 0x80001000 /\ x_pc f = 0x8000000c /\ forall y, x_mem f y = bytes_of (fold_left LsuSpec.perform (LsuCycle.g_log g) pW) y.
Proof.
  destruct p_lsu as (r & q & s & g & pend & pos & cs & acc & LS & DR). pose proof p_path as P. destruct p_st as [[[[rp qp] b] xp] L] eqn:EP. cbn [holds] in P.
  assert (EL : L = steps p_l) by (change L with (snd (rp, qp, b, xp, L)); rewrite <- EP; vm_compute; reflexivity).
  assert (EN : next_pc p_pc qp xp = 0x8000000c) by (change (next_pc p_pc qp xp) with (let '(_, qp, _, xp, _) := (rp, qp, b, xp, L) in next_pc p_pc qp xp); rewrite <- EP; vm_compute; reflexivity).
  destruct (c81_program p_pc p_act p_act p_no p_no 0x80000000 4 p_c pW r q s g pend pos cs acc p_T rp qp b xp L p_l p_runs LS P) as (i & f & A & A0 & A1 & A2 & A3 & A4 & A5).
  - vm_compute. reflexivity.
  - vm_compute. reflexivity.
  - exact EL.
  - exact p_does.
  - exact p_legal.
  - exact DR.
  - exists g, i, f. split; [exact A|]. split; [exact A0|]. split; [exact A1|]. split; [exact A2|]. split; [|split; [|split; [now rewrite A4|exact A5]]].
    + change 1 with (Z.of_nat 1). rewrite A3 by lia. vm_compute. reflexivity.
    + change 2 with (Z.of_nat 2). rewrite A3 by lia. vm_compute. reflexivity.
Qed.

Print Assumptions c81_isa_run.
Print Assumptions c81_reference_agrees.
Print Assumptions c81_program.
