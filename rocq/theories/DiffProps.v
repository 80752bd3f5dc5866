(** C71: the lock-step check. *)
From Verif Require Import Base BaseLemmas ExecModel CsrModel IsaSpec RefModel RefSpec RefStepProofs RefExecProps DiffModel DiffSpec DiffProofs.
Ltac Zify.zify_post_hook ::= Z.div_mod_to_equations.
#[local] Opaque Z.pow Z.land Z.lor Z.lxor Z.shiftl Z.shiftr Z.ldiff.

(** Report and comparison together decide [same]. *)
Theorem c71_check_exact : forall s d k, ~ resyncs k -> is_w 32 (k_qdata k) ->
  check s (fst (prepare d k)) = true <-> same s k.
Proof. intros s d k N B. now apply check_iff. Qed.
Print Assumptions c71_check_exact.

(** When the reference is not run. *)
Theorem c71_when_resynced : forall d k, snd (prepare d k) = true <-> resyncs k.
Proof. exact sync_iff. Qed.
Print Assumptions c71_when_resynced.

(** Any number of commits without resynchronisation: the simulation goes on if and only
    if each commit is what the reference, run alone, does at that point. *)
Theorem c71_lockstep : forall sf d s l, (forall k, In k l -> ~ resyncs k) -> (forall k, In k l -> is_w 32 (k_qdata k)) ->
  (exists d' s', lockrun sf d s l = Go d' s') <->
  (forall pre k post, l = pre ++ k :: post -> exists sm, refrun sf s (pre ++ [k]) = Done sm /\ same sm k).
Proof. intros sf d s l Q W. now apply lockrun_quiet. Qed.
Print Assumptions c71_lockstep.

(** A run of [n] steps of the specified machine. *)
Inductive isa_n : nat -> ist -> ist -> Prop :=
| isa_0 a : isa_n 0 a a
| isa_S n a b c : isa_step a b -> isa_n n b c -> isa_n (S n) a c.
Lemma refrun_isa sf : forall l s a b, inv s -> R s a -> isa_n (length l) a b -> exists s', refrun sf s l = Done s' /\ inv s' /\ R s' b.
Proof.
  induction l as [|k l IH]; intros s a b I HR H; cbn [length] in H; inversion H as [? E|? ? m ? ST RN]; subst.
  - exists s. cbn [refrun]. auto.
  - destruct (c59_one_instruction (told sf k) s a m I HR ST) as (s1 & X & I1 & R1 & _). cbn [refrun]. rewrite X. now apply (IH s1 m b).
Qed.
Lemma isa_app n : forall m a c, isa_n (n + m) a c -> exists b, isa_n n a b /\ isa_n m b c.
Proof.
  induction n as [|n IH]; intros m a c H; cbn [Nat.add] in H; [exists a; split; [constructor|exact H]|].
  inversion H as [|? ? x ? ST RN]; subst. destruct (IH _ _ _ RN) as (b & H1 & H2). exists b. split; [econstructor; eassumption|exact H2].
Qed.
(** Joined with C59: a core that is not stopped has the registers and the program counter
    of the specified machine at every commit. *)
Theorem c71_core_follows_isa : forall sf d s l d' s' a b, (forall k, In k l -> ~ resyncs k) -> (forall k, In k l -> is_w 32 (k_qdata k)) ->
  lockrun sf d s l = Go d' s' -> inv s -> R s a -> isa_n (length l) a b ->
  forall pre k post, l = pre ++ k :: post -> exists m, isa_n (length pre + 1) a m /\ isa_n (length post) m b /\
    x_pc m = goes_to k /\ (forall i, 0 <= i < 32 -> x_gpr m i = k_gpr k i).
Proof.
  intros sf d s l d' s' a b Q W H I HR N pre k post E.
  destruct (proj1 (c71_lockstep sf d s l Q W) (ex_intro _ d' (ex_intro _ s' H)) pre k post E) as (sm & X & S).
  assert (LN : length l = (length pre + 1 + length post)%nat) by (rewrite E, app_length; cbn [length]; lia). rewrite LN in N.
  destruct (isa_app _ _ _ _ N) as (m & N1 & N2). exists m. split; [exact N1|]. split; [exact N2|].
  destruct (refrun_isa sf (pre ++ [k]) s a m I HR) as (s2 & X2 & _ & G & P & _); [now rewrite app_length|].
  rewrite X in X2. injection X2 as <-. split; [rewrite P; apply S|]. intros i L. rewrite G. now apply S.
Qed.
Print Assumptions c71_core_follows_isa.

(** The store fields of the reference. *)
Definition st3 (s : ref) : bool * Z * Z := (r_store s, r_saddr s, r_sdata s).
Lemma st3_word e s a d : st3 (store_word e s a d) = st3 s.
Proof. unfold store_word. cbv zeta. repeat match goal with |- context [if ?b then _ else _] => destruct b end; reflexivity. Qed.
Lemma st3_dev s d : st3 (add_dev s d) = st3 s. Proof. reflexivity. Qed.
Lemma st3_wc s c v : st3 (wc s c v) = st3 s. Proof. reflexivity. Qed.
Lemma st3_resv s b a : st3 (set_resv s b a) = st3 s. Proof. reflexivity. Qed.
Lemma st3_store e s : st3 (store_data e s) = (r_store s, r_saddr s, shl (r_sdata s) (Z.land (r_saddr s) 3 * 8)).
Proof.
  unfold store_data. cbv zeta.
  set (s1 := if r_store s && _ && _ then _ else s). assert (A1 : st3 s1 = st3 s) by (unfold s1; destruct (_ && _); reflexivity). clearbody s1.
  set (s2 := if r_store s1 then _ else s1). assert (A2 : st3 s2 = st3 s) by (unfold s2; destruct (r_store s1); rewrite ?st3_word; exact A1). clearbody s2.
  set (s3 := if r_saddr s =? UART_BASE then _ else s2). assert (A3 : st3 s3 = st3 s) by (unfold s3; destruct (_ =? _); rewrite ?st3_dev, ?st3_word; exact A2). clearbody s3.
  set (s4 := if _ && (Z.land (r_sdata s3) 255 =? 7) then _ else s3). assert (A4 : st3 s4 = st3 s) by (unfold s4; destruct (_ && _); rewrite ?st3_dev, ?st3_wc, ?st3_word; exact A3). clearbody s4.
  set (s5 := if _ && (Z.land (r_sdata s4) 255 =? 5) then _ else s4). assert (A5 : st3 s5 = st3 s) by (unfold s5; destruct (_ && _); rewrite ?st3_dev, ?st3_wc, ?st3_word; exact A4). clearbody s5.
  set (s6 := if _ && (Z.land (r_sdata s5) 255 =? 10) then _ else s5). assert (A6 : st3 s6 = st3 s) by (unfold s6; destruct (_ && _); rewrite ?st3_dev, ?st3_wc, ?st3_word; exact A5). clearbody s6.
  unfold st3 in *. injection A6 as B1 B2 B3. cbn [set_st r_store r_saddr r_sdata]. now rewrite B1, B2, B3.
Qed.

Lemma store_fields e s : r_store (store_data e s) = r_store s /\ r_saddr (store_data e s) = r_saddr s /\
  r_sdata (store_data e s) = shl (r_sdata s) (Z.land (r_saddr s) 3 * 8).
Proof.
  assert (X := st3_store e s). generalize dependent (store_data e s). intros z X. unfold st3 in X. injection X as X1 X2 X3. auto.
Qed.

#[local] Opaque store_data.
Definition st_v (f3 b : Z) : Z := if f3 =? 0 then Z.land b 255 else if f3 =? 1 then Z.land b 0xffff else b.
Definition st_t (f3 : Z) : Z := if f3 =? 0 then 1 else if f3 =? 1 then 3 else 15.
Lemma im_sto e s : bits (r_inst s) 6 0 = 35 -> translated s = false ->
  misaligned (bits (r_inst s) 14 12) (w32 (r_gpr s (bits (r_inst s) 19 15) + immS (r_inst s))) = false ->
  rv32im e s = Done (set_pc (store_data e (set_st s true (w32 (r_gpr s (bits (r_inst s) 19 15) + immS (r_inst s)))
    (st_v (bits (r_inst s) 14 12) (r_gpr s (bits (r_inst s) 24 20))) (st_t (bits (r_inst s) 14 12)))) (w32 (r_pc s + 4))).
Proof. intros O T M. unfold rv32im. cbv zeta. rewrite O. cbn [Z.eqb Pos.eqb]. rewrite T, M. reflexivity. Qed.
Lemma pc_store s p : r_store (set_pc s p) = r_store s. Proof. reflexivity. Qed.
Lemma pc_saddr s p : r_saddr (set_pc s p) = r_saddr s. Proof. reflexivity. Qed.
Lemma pc_sdata s p : r_sdata (set_pc s p) = r_sdata s. Proof. reflexivity. Qed.

(** The store the core reports is the store of the reference, for every size and address:
    with the address and the register value in the queue entry the comparison succeeds. *)
Theorem c71_store_agrees : forall e s k, bits (r_inst s) 6 0 = 35 -> translated s = false ->
  is_w 32 (r_gpr s (bits (r_inst s) 24 20)) -> misaligned (bits (r_inst s) 14 12) (k_qpa k) = false ->
  k_qpa k = w32 (r_gpr s (bits (r_inst s) 19 15) + immS (r_inst s)) -> k_qdata k = r_gpr s (bits (r_inst s) 24 20) -> k_qf3 k = bits (r_inst s) 14 12 ->
  exists s', rv32im e s = Done s' /\ r_store s' = true /\ r_saddr s' = k_qpa k /\ r_sdata s' = in_word (k_qf3 k) (k_qpa k) (k_qdata k).
Proof.
  intros e s k O T B M A D F3. eexists. split; [apply im_sto; [exact O|exact T|now rewrite <- A]|]. rewrite <- A, pc_store, pc_saddr, pc_sdata.
  destruct (store_fields e (set_st s true (k_qpa k) (st_v (bits (r_inst s) 14 12) (r_gpr s (bits (r_inst s) 24 20))) (st_t (bits (r_inst s) 14 12)))) as (X1 & X2 & X3).
  rewrite X1, X2, X3. split; [reflexivity|]. split; [reflexivity|]. rewrite F3, D, <- store_word_eq by exact B. reflexivity.
Qed.
Print Assumptions c71_store_agrees.

(** A resynchronisation never stops the simulation; the reference gets the registers, the
    program counter and the privilege of the core.  Its memory stays, and its reservation
    becomes the one dut_cpu had before the first commit. *)
Theorem c71_resync : forall sf d s l d1 s1 k, lockrun sf d s l = Go d1 s1 -> resyncs k ->
  exists d' s', lockrun sf d s (l ++ [k]) = Go d' s' /\
    r_gpr s' = k_gpr k /\ r_pc s' = goes_to k /\ r_priv s' = k_priv k /\ (forall c, c <> mip -> c <> sip -> r_csr s' c = k_csr k c) /\
    r_mem s' = r_mem s1 /\ r_resv s' = d_resv d /\ r_raddr s' = d_raddr d.
Proof.
  intros sf d s l d1 s1 k H Y. destruct (lock_resv sf l d s d1 s1 H) as (V1 & V2 & _).
  assert (L : forall l d s, lockrun sf d s (l ++ [k]) = match lockrun sf d s l with Go d s => lockstep sf d s k | v => v end).
  { clear. induction l as [|x l IH]; intros d s; cbn [app lockrun]; [now destruct (lockstep sf d s k)|]. destruct (lockstep sf d s x); auto. }
  rewrite L, H. assert (S := proj2 (sync_iff d1 k) Y). unfold lockstep. revert S. unfold prepare. destruct (report_store d1 k) as [[[st sa] sd] y]. cbn [snd].
  intros ->. eexists. eexists. split; [reflexivity|]. unfold adopt. cbn [r_gpr r_pc r_priv r_csr r_mem r_resv r_raddr d_gpr d_csr d_pc d_resv d_raddr].
  repeat (split; [reflexivity || assumption|]). split; [intros c; apply report_other|]. auto.
Qed.
Print Assumptions c71_resync.

(** What the check does not see.  The privilege level; the sip of the core; the width of
    a store whose upper bytes are 0; a store where the reference has none. *)
Definition with_priv (k : commit) (p : Z) : commit :=
  mkk (k_gpr k) (k_csr k) p (k_now k) (k_store k) (k_load k) (k_mmio k) (k_skip k) (k_pfi k) (k_pfl k) (k_pfs k) (k_inst k) (k_pc k) (k_diag k) (k_jump k)
      (k_qsup k) (k_qpav k) (k_qdv k) (k_qpa k) (k_qdata k) (k_qf3 k) (k_flush k) (k_intr k) (k_ext k) (k_tim k).
Definition with_csr (k : commit) (c : regs) : commit :=
  mkk (k_gpr k) c (k_priv k) (k_now k) (k_store k) (k_load k) (k_mmio k) (k_skip k) (k_pfi k) (k_pfl k) (k_pfs k) (k_inst k) (k_pc k) (k_diag k) (k_jump k)
      (k_qsup k) (k_qpav k) (k_qdv k) (k_qpa k) (k_qdata k) (k_qf3 k) (k_flush k) (k_intr k) (k_ext k) (k_tim k).
(** A store of [v] at [a]. *)
Definition with_store (k : commit) (a v f3 : Z) : commit :=
  mkk (k_gpr k) (k_csr k) (k_priv k) (k_now k) true (k_load k) (k_mmio k) (k_skip k) (k_pfi k) (k_pfl k) (k_pfs k) (k_inst k) (k_pc k) (k_diag k) (k_jump k)
      false true true a v f3 (k_flush k) (k_intr k) (k_ext k) (k_tim k).

Theorem c71_privilege_refuted : forall sf d s k p, ~ resyncs k -> lockstep sf d s (with_priv k p) = lockstep sf d s k.
Proof.
  intros sf d s k p N. assert (S : snd (prepare d k) = false) by (destruct (snd (prepare d k)) eqn:E; [apply sync_iff in E; contradiction|reflexivity]).
  unfold lockstep. change (prepare d (with_priv k p)) with (prepare d k). destruct (prepare d k) as [x y]. cbn [snd] in S. now rewrite S.
Qed.
Print Assumptions c71_privilege_refuted.

(** Whether the simulation goes on. *)
Definition passes (v : verdict) : Prop := exists d s, v = Go d s.
Theorem c71_core_sip_refuted : forall sf d s k v, ~ resyncs k -> is_w 32 (k_qdata k) ->
  passes (lockstep sf d s (with_csr k (cset (k_csr k) sip v))) <-> passes (lockstep sf d s k).
Proof.
  intros sf d s k v N B. set (k' := with_csr k _). assert (N' : ~ resyncs k') by exact N.
  assert (E : forall z, same z k' <-> same z k).
  { intros z. assert (O : forall c, c <> sip -> k_csr k' c = k_csr k c) by (intros c C; unfold k'; cbn [k_csr with_csr]; now apply cset_ne).
    assert (M : k_csr k' mip = k_csr k mip) by (apply O; discriminate).
    split; intros [H1 H2 H3 H4 H5 H6 H7 H8]; constructor; try assumption; try (intros c C1 C2; specialize (H5 c C1 C2); rewrite O in * by exact C2; exact H5);
      rewrite M in *; assumption. }
  unfold passes. split; intros (d1 & s1 & H).
  - apply lockstep_quiet in H; [|assumption..]. destruct H as (_ & X & S). exists (reported d k), s1. apply lockstep_quiet; [assumption..|]. split; [reflexivity|]. split; [exact X|now apply E].
  - apply lockstep_quiet in H; [|assumption..]. destruct H as (_ & X & S). exists (reported d k'), s1. apply lockstep_quiet; [assumption..|]. split; [reflexivity|]. split; [exact X|now apply E].
Qed.
Print Assumptions c71_core_sip_refuted.

Lemma quiet_store k a v f3 : ~ resyncs k -> k_mmio k = false -> ~ resyncs (with_store k a v f3).
Proof.
  unfold resyncs, wrote. cbn [k_intr k_skip k_mmio k_load k_pfl k_store k_pfs k_qpav k_qdv k_qsup k_inst k_ext k_tim with_store]. intros N M. rewrite M in *.
  intros [C|[C|[(C & _)|[(C & _)|[(_ & [C|C])|C]]]]]; try discriminate; apply N; tauto.
Qed.
Theorem c71_extra_store_refuted : forall sf d s k s' a v f3, ~ resyncs k -> is_w 32 (k_qdata k) -> k_mmio k = false -> is_w 32 v ->
  lockstep sf d s k = Go (fst (prepare d k)) s' -> r_store s' = false -> passes (lockstep sf d s (with_store k a v f3)).
Proof.
  intros sf d s k s' a v f3 N B M V H S. apply lockstep_quiet in H; [|assumption..]. destruct H as (_ & X & E).
  exists (reported d (with_store k a v f3)), s'. apply lockstep_quiet; [now apply quiet_store|exact V|]. split; [reflexivity|]. split; [exact X|].
  destruct E as [H1 H2 H3 H4 H5 H6 H7 H8]. constructor; try assumption. rewrite S. discriminate.
Qed.
Print Assumptions c71_extra_store_refuted.

Theorem c71_store_width_refuted : forall sf d s k a v, ~ resyncs k -> k_mmio k = false -> 0 <= v < 256 ->
  passes (lockstep sf d s (with_store k a v 0)) <-> passes (lockstep sf d s (with_store k a v 2)).
Proof.
  intros sf d s k a v N M V. assert (V' : 0 <= v < 2 ^ 32) by (change (2 ^ 32) with 4294967296; lia).
  assert (E : forall z, same z (with_store k a v 0) <-> same z (with_store k a v 2)).
  { assert (W : in_word 0 a v = in_word 2 a v).
    { unfold in_word, width. cbn [Z.eqb Pos.eqb]. change (2 ^ 8) with 256. rewrite (Z.mod_small v 256), (Z.mod_small v (2 ^ 32)) by assumption. reflexivity. }
    intros z. split; intros [H1 H2 H3 H4 H5 H6 H7 H8]; constructor; try assumption; intros S; destruct (H8 S) as (S1 & S2 & S3); cbn [k_qf3 k_qpa k_qdata with_store] in *;
      (split; [exact S1|split; [exact S2|]]); [now rewrite <- W|now rewrite W]. }
  assert (Q := fun f => quiet_store k a v f N M).
  split; intros (d1 & s1 & H); apply lockstep_quiet in H; try apply Q; try exact V'; destruct H as (_ & X & S).
  - exists (reported d (with_store k a v 2)), s1. apply lockstep_quiet; [apply Q|exact V'|]. split; [reflexivity|]. split; [exact X|now apply E].
  - exists (reported d (with_store k a v 0)), s1. apply lockstep_quiet; [apply Q|exact V'|]. split; [reflexivity|]. split; [exact X|now apply E].
Qed.
Print Assumptions c71_store_width_refuted.

(** A page fault the core reports is taken by the reference, whatever the page tables say. *)
Theorem c71_faults_believed_refuted : forall sf s k,
  (nz (Z.land (r_csr s satp) 0x80000000) = true -> r_priv s <> 3 -> k_pfi k = true ->
     exec (told sf k) s = Done (ref_exception (r_pc s) (set_flags (set_st (set_flags s (mkfl false false false false)) false (r_saddr s) (r_sdata s) (r_sstrb s)) (mkfl true false false false)))) /\
  (translated s = true -> bits (r_inst s) 6 0 = 3 -> k_pfl k = true ->
     rv32im (told sf k) s = Done (ref_exception (w32 (r_gpr s (bits (r_inst s) 19 15) + immI (r_inst s))) (set_pf s true false))) /\
  (translated s = true -> bits (r_inst s) 6 0 = 35 -> k_pfs k = true ->
     rv32im (told sf k) s = Done (ref_exception (w32 (r_gpr s (bits (r_inst s) 19 15) + immS (r_inst s))) (set_pf s false true))).
Proof.
  intros sf s k. split; [|split].
  - intros T P F. unfold exec. cbv zeta. cbn [r_csr r_priv set_st set_flags]. rewrite T. replace (r_priv s =? 3) with false by lia. cbn [andb negb].
    unfold va2pa_fix. cbv zeta. cbn [e_dut told Z.eqb]. rewrite F. destruct (va2pa _ _ _); reflexivity.
  - intros T O F. unfold rv32im. cbv zeta. rewrite O, T. cbn [Z.eqb Pos.eqb]. unfold va2pa_fix. cbv zeta. cbn [e_dut told Z.eqb Pos.eqb]. rewrite F. destruct (va2pa _ _ _); reflexivity.
  - intros T O F. unfold rv32im. cbv zeta. rewrite O, T. cbn [Z.eqb Pos.eqb]. unfold va2pa_fix. cbv zeta. cbn [e_dut told Z.eqb Pos.eqb]. rewrite F. destruct (va2pa _ _ _); reflexivity.
Qed.
Print Assumptions c71_faults_believed_refuted.

(** A false alarm: the instruction before a fetch fault named mip or sip, and the timer is
    pending and driven. *)
Theorem c71_stale_instruction_refuted : forall sf d s k s', ~ resyncs k -> is_w 32 (k_qdata k) ->
  exec (told sf k) s = Done s' -> irq_access (r_inst s') -> driven (k_tim k) = true -> Z.testbit (r_csr s' mip) 7 = true ->
  lockstep sf d s k = Mismatch.
Proof.
  intros sf d s k s' N B X I T M. destruct (lockstep sf d s k) as [d1 s1| |] eqn:E; [|reflexivity|].
  - apply lockstep_quiet in E; [|assumption..]. destruct E as (_ & X' & S). rewrite X in X'. injection X' as <-.
    destruct (sm_irq _ _ S I) as (H & _). specialize (H 7). rewrite T, M in H. cbn [Z.eqb Pos.eqb andb negb] in H. rewrite Bool.andb_false_r in H. discriminate.
  - exfalso. revert E. unfold lockstep. assert (TE := told_env sf d k). unfold reported in TE. destruct (prepare d k) as [x y]. cbn [fst] in TE. rewrite TE, X. destruct y; [discriminate|]. destruct (check s' x); discriminate.
Qed.
Print Assumptions c71_stale_instruction_refuted.

(** Concrete commits: what a correct core commits, from the states of the reference. *)
Definition kof (s s' : ref) (mm : bool) (tim : option bool) : commit :=
  mkk (r_gpr s') (r_csr s') (r_priv s') 0 (r_store s') mm mm false (f_pfi (r_flags s')) (f_pfl (r_flags s')) (f_pfs (r_flags s')) (if f_pfi (r_flags s') then 0 else r_inst s') (r_pc s) (r_pc s') true
      false true true (r_saddr s') (r_sdata s') 2 false false None tim.
Definition sdone (r : res) (s : ref) : ref := match r with Done s => s | _ => s end.
Definition dcpu0 : dcpu := mkd (fun _ => 0) (fun _ => 0) 0 false 0 0 0 0 false false false false 0.
(** lr.w x5,(x6); lw x7,0(x8); sc.w x9,x5,(x6) *)
Definition lrsc_prog : list Z := [enc_R 8 0 6 2 5 0x2f; enc_load 2 7 8 0; enc_R 12 5 6 2 9 0x2f].
Definition lr0 : ref := r0 (fun r => if r =? 6 then 0x80001000 else if r =? 8 then 0x10000000 else 0) 0x80000000 (fun i => nth (Z.to_nat (i - 0x20000000)) lrsc_prog 0) 0.
Definition lr1 : ref := sdone (exec e0 lr0) lr0.
Definition lr2 : ref := sdone (exec e0 lr1) lr1.
Definition lr3 : ref := sdone (exec e0 lr2) lr2.
Definition stops (v : verdict) : bool := match v with Mismatch => true | _ => false end.
Definition goes (v : verdict) : bool := match v with Go _ _ => true | _ => false end.
(** A device load between a load-reserved and its store-conditional: the core's success is
    reported as an error.  Without the resynchronisation it is accepted. *)
Theorem c71_reservation_lost_refuted :
  r_gpr lr3 9 = 0 /\ r_store lr3 = true /\
  goes (lockrun sf0 dcpu0 lr0 [kof lr0 lr1 false None; kof lr1 lr2 false None; kof lr2 lr3 false None]) = true /\
  goes (lockrun sf0 dcpu0 lr0 [kof lr0 lr1 false None; kof lr1 lr2 true None]) = true /\
  stops (lockrun sf0 dcpu0 lr0 [kof lr0 lr1 false None; kof lr1 lr2 true None; kof lr2 lr3 false None]) = true.
Proof. vm_compute. repeat split; reflexivity. Qed.
Print Assumptions c71_reservation_lost_refuted.

(** The program of C59 in lock step; a wrong register, program counter or store stops it. *)
Definition p0 : ref := r0 (fun r => if r =? 6 then 0x80001000 else 0) 0x80000000 pmem 0.
Definition p1 : ref := sdone (exec e0 p0) p0.
Definition p2 : ref := sdone (exec e0 p1) p1.
Definition spoil (k : commit) (g : Z -> Z) (pc : Z) (v : Z) : commit :=
  mkk g (k_csr k) (k_priv k) (k_now k) (k_store k) (k_load k) (k_mmio k) (k_skip k) (k_pfi k) (k_pfl k) (k_pfs k) (k_inst k) (k_pc k) pc (k_jump k)
      (k_qsup k) (k_qpav k) (k_qdv k) (k_qpa k) v (k_qf3 k) (k_flush k) (k_intr k) (k_ext k) (k_tim k).
Example c71_ex :
  let k1 := kof p0 p1 false (Some true) in let k2 := kof p1 p2 false (Some false) in
  goes (lockrun sf0 dcpu0 p0 [k1; k2]) = true /\ r_store p2 = true /\
  stops (lockrun sf0 dcpu0 p0 [k1; spoil k2 (fun i => if i =? 31 then 1 else k_gpr k2 i) (k_diag k2) (k_qdata k2)]) = true /\
  stops (lockrun sf0 dcpu0 p0 [k1; spoil k2 (k_gpr k2) (k_diag k2 + 4) (k_qdata k2)]) = true /\
  stops (lockrun sf0 dcpu0 p0 [k1; spoil k2 (k_gpr k2) (k_diag k2) (k_qdata k2 - 1)]) = true.
Proof. vm_compute. repeat split; reflexivity. Qed.
Example c71_ex_quiet : ~ resyncs (kof p0 p1 false (Some true)) /\ ~ resyncs (kof p1 p2 false None) /\ resyncs (kof lr1 lr2 true None).
Proof.
  assert (Q : forall k, snd (prepare dcpu0 k) = false -> ~ resyncs k) by (intros k E C; apply (sync_iff dcpu0) in C; congruence).
  split; [apply Q; vm_compute; reflexivity|]. split; [apply Q; vm_compute; reflexivity|]. apply (sync_iff dcpu0). vm_compute. reflexivity.
Qed.
(** csrr x5,sip in S-mode, then a fetch fault, the timer pending in the reference and
    driven at the core: the core does what the reference does and is stopped. *)
Definition sip0 : ref :=
  mkr (fun _ => 0) (cset (cset (fun _ => 0) satp 0x80000000) mip 0x80) 0 1 (fun _ => 0) false 0 0 0 false 0 (0x144 * 2 ^ 20 + 2 * 2 ^ 12 + 5 * 2 ^ 7 + 0x73) no_irq (mkfl false false false false) 0 0 false [].
Definition sip1 : ref := sdone (exec (mkre 0 (Some (true, false, false)) false sf0) sip0) sip0.
Example c71_ex_alarm : f_pfi (r_flags sip1) = true /\ r_csr sip1 mcause = 12 /\
  stops (lockstep sf0 dcpu0 sip0 (kof sip0 sip1 false (Some true))) = true /\ goes (lockstep sf0 dcpu0 sip0 (kof sip0 sip1 false None)) = true.
Proof. vm_compute. repeat split; reflexivity. Qed.
