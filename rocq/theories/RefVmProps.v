(** C35: address translation in the reference CPU. *)
From Verif Require Import Base BaseLemmas CsrModel ExecModel RefModel Sv32Spec.
From Verif Require MemSpec DcModel DcSpec RtModel RtSpec PtwModel PtwSpec PtwProofs TlbModel TlbSpec TlbProofs TlbMain.
Ltac Zify.zify_post_hook ::= Z.div_mod_to_equations.
#[local] Opaque Z.pow Z.land Z.lor Z.shiftl Z.shiftr.

(** The page-table words of the reference, at physical addresses cut to 32 bits. *)
Definition words (s : ref) (a : Z) : Z := r_mem s (w32 a / 4).
Definition rctx (s : ref) : ctx :=
  let ms := r_csr s mstatus in mkctx (r_priv s) (Z.testbit ms 18) (Z.testbit ms 19) (Z.testbit ms 17) (bits ms 12 11).
Definition ty (k : access) : Z := match k with Fetch => 0 | Read => 1 | Write => 2 end.
Definition mem_words (s : ref) : Prop := forall i, is_w 32 (r_mem s i).
(** The one case the two disagree about: a fetch in S-mode from a user superpage with SUM. *)
Definition user_superpage (o : outcome) : Prop := match o with Leaf p l => l = 1 /\ pU p = true | Fault => False end.
Definition odd_fetch (s : ref) (va : Z) (k : access) : Prop :=
  k = Fetch /\ r_priv s = 1 /\ x_sum (rctx s) = true /\ user_superpage (walk (words s) (r_csr s satp) va).

Lemma load_words s a : is_w 32 a -> load_word s a = r_mem s (a / 4).
Proof.
  intros W. unfold load_word. f_equal. change 0xfffffffc with (Z.lxor (2 ^ 32 - 1) 3).
  apply Z.bits_inj'. intros n N. change 4 with (2 ^ 2). rewrite <- !Z.shiftr_div_pow2 by lia. rewrite !Z.shiftr_spec by lia.
  rewrite Z.land_spec, Z.lxor_spec, testbit_ones_pred by lia.
  assert (Z.testbit 3 (n + 2) = false) as -> by (apply (is_w_testbit 2); unfold is_w; lia). rewrite xorb_false_r.
  destruct (Z.ltb_spec (n + 2) 32); [now rewrite andb_true_r|]. rewrite andb_false_r. symmetry. apply (is_w_testbit 32); [lia|exact W|lia].
Qed.
Lemma table_addr r v : 0 <= r < 2 ^ 22 -> 0 <= v < 2 ^ 10 -> Z.lor (shl r 12) (shl v 2) = w32 (r * 4096 + v * 4).
Proof.
  intros R V. unfold shl. rewrite !Z.shiftl_mul_pow2 by lia. unfold w32. change (2 ^ 12) with 4096. change (2 ^ 2) with 4.
  rewrite (Z.mod_small (v * 4)) by lia.
  rewrite (TlbProofs.lor_add _ _ 12) by (change (2 ^ 12) with 4096; change (2 ^ 32) with 4294967296; lia). change (2 ^ 32) with 4294967296. lia.
Qed.
Lemma nzt x m n : m = 2 ^ n -> 0 <= n -> nz (Z.land x m) = Z.testbit x n.
Proof. intros -> N. now apply TlbProofs.nz_bit. Qed.
Lemma low22 x : Z.land x 0x3FFFFF = x mod 2 ^ 22.
Proof. change 0x3FFFFF with (2 ^ 22 - 1). apply TlbProofs.land_ones. lia. Qed.
Lemma p4k p va : is_w 32 p -> Z.lor (shl (shr p 10) 12) (Z.land va 0xFFF) = w32 (phys p 0 va).
Proof.
  intros W. unfold phys, shl, shr, ppn. cbn [Z.eqb]. change 0xFFF with (2 ^ 12 - 1). rewrite TlbProofs.land_ones by lia.
  rewrite Z.shiftl_mul_pow2, Z.shiftr_div_pow2 by lia. unfold is_w in W. unfold w32.
  change (2 ^ 10) with 1024. change (2 ^ 12) with 4096. change (2 ^ 22) with 4194304. change (2 ^ 32) with 4294967296 in *.
  rewrite (TlbProofs.lor_add _ _ 12) by (change (2 ^ 12) with 4096; lia). lia.
Qed.
Lemma p4m p va : is_w 32 p -> Z.lor (Z.land (shl p 2) 0xFFC00000) (Z.land va 0x3FFFFF) = w32 (phys p 1 va).
Proof.
  intros W. unfold phys, shl. change (1 =? 1) with true. cbv iota. rewrite low22.
  assert (E : Z.land (w32 (Z.shiftl p 2)) 0xFFC00000 = w32 (ppn p / 2 ^ 10 * 2 ^ 22)).
  { apply (word_ext 32); [lia| |apply w32_range|].
    { unfold is_w. assert (B := w32_range (Z.shiftl p 2)). unfold is_w in B. change 0xFFC00000 with (Z.shiftl 1023 22).
      apply is_w_land; [lia|exact B|]. rewrite Z.shiftl_mul_pow2 by lia. lia. }
    intros n N. rewrite Z.land_spec, !testbit_w32, Z.shiftl_spec by lia. change 0xFFC00000 with (Z.shiftl (2 ^ 10 - 1) 22). rewrite Z.shiftl_spec by lia.
    rewrite Z.mul_pow2_bits by lia. unfold ppn. rewrite <- Z.shiftr_div_pow2 by lia.
    destruct (Z.ltb_spec n 22).
    - rewrite (Z.testbit_neg_r (2 ^ 10 - 1)) by lia. rewrite andb_false_r, (Z.testbit_neg_r _ (n - 22)) by lia. now rewrite andb_false_r.
    - rewrite testbit_ones_pred, Z.shiftr_spec by lia. rewrite Z.mod_pow2_bits_low by lia.
      rewrite Z.div_pow2_bits by lia. replace (n - 22 + 10 + 10) with (n - 2) by lia.
      destruct (Z.ltb_spec n 32), (Z.ltb_spec (n - 22) 10); try lia; destruct (Z.testbit p (n - 2)); reflexivity. }
  rewrite E. generalize (ppn p / 2 ^ 10). intros q. clear.
  rewrite (TlbProofs.lor_add _ _ 22); unfold w32; change (2 ^ 22) with 4194304; change (2 ^ 32) with 4294967296.
  all: change (1 =? 1)%positive with true; lia.
Qed.
(** The rights tests of the two branches, given the order of the code. *)
Lemma rights_4k p k eff sum mxr (X : option Z) :
  (if (ty k =? 0) && negb (pX p) then None else if (ty k =? 1) && negb (pR p) && negb (mxr && pX p) then None
   else if (ty k =? 2) && negb (pW p) then None else if (eff =? 0) && negb (pU p) then None
   else if (eff =? 1) && pU p && ((ty k =? 0) || negb sum) then None
   else if negb (pA p) then None else if (ty k =? 2) && negb (pD p) then None else X) =
  if permits p k eff sum mxr then X else None.
Proof.
  unfold permits. destruct k; cbn [ty Z.eqb andb orb].
  all: destruct (pX p), (pR p), (pW p), (pU p), (pA p), (pD p), sum, mxr; cbn [negb andb orb]; destruct (Z.eqb_spec eff 0), (Z.eqb_spec eff 1); cbn [andb orb negb]; reflexivity || lia.
Qed.
Lemma rights_4m p k eff sum mxr (X : option Z) :
  (negb (ppn p mod 2 ^ 10 =? 0) = false -> ~ (k = Fetch /\ eff = 1 /\ sum = true /\ pU p = true)) ->
  (if (ty k =? 0) && negb (pX p) then None else if (ty k =? 1) && negb (pR p) && negb (mxr && pX p) then None
   else if (ty k =? 2) && negb (pW p) then None else if (eff =? 0) && negb (pU p) then None
   else if (eff =? 1) && pU p && negb sum then None
   else if negb (ppn p mod 2 ^ 10 =? 0) then None
   else if negb (pA p) then None else if (ty k =? 2) && negb (pD p) then None else X) =
  if negb (ppn p mod 2 ^ 10 =? 0) then None else if permits p k eff sum mxr then X else None.
Proof.
  unfold permits. intros N. destruct (negb (ppn p mod 2 ^ 10 =? 0)).
  - repeat match goal with |- (if ?b then _ else _) = _ => destruct b; [reflexivity|] end. reflexivity.
  - destruct k; cbn [ty Z.eqb andb orb].
    all: destruct (pX p), (pR p), (pW p), (pU p), (pA p), (pD p), sum, mxr; cbn [negb andb orb]; destruct (Z.eqb_spec eff 0), (Z.eqb_spec eff 1); cbn [andb orb negb]; try reflexivity; try lia; exfalso; apply (N eq_refl); auto.
Qed.

(** For every page table, address, access kind, privilege and status, va2pa grants and
    translates exactly as Sv32 prescribes, physical addresses cut to 32 bits. *)
Theorem c35_reference_translation_partial s va k : mem_words s -> is_w 32 va -> mode (r_csr s satp) = true -> eff (rctx s) k <> 3 ->
  ~ odd_fetch s va k ->
  va2pa s va (ty k) = option_map w32 (translation (walk (words s) (r_csr s satp) va) (rctx s) k (r_csr s satp) va).
Proof.
  intros M V MO E N. unfold translation. rewrite MO. rewrite (proj2 (Z.eqb_neq _ _) E). cbn [orb negb].
  unfold va2pa. cbv zeta.
  rewrite !(nzt _ 524288 19), !(nzt _ 262144 18), !(nzt _ 131072 17) by reflexivity || lia.
  assert (EF : (if nz (ty k) && Z.testbit (r_csr s mstatus) 17 then Z.land (Z.shiftr (r_csr s mstatus) 11) 3 else r_priv s) = eff (rctx s) k).
  { unfold eff, rctx. cbn [x_mprv x_mpp x_priv]. unfold bits. destruct k; cbn [ty]; [reflexivity| |]; change (nz _) with true; cbn [andb]; destruct (Z.testbit _ 17); reflexivity. }
  rewrite EF. set (ef := eff (rctx s) k) in *.
  change (Z.land (shr va 22) 1023) with (Z.land (Z.shiftr va 22) 1023). change (Z.land (shr va 12) 1023) with (Z.land (Z.shiftr va 12) 1023).
  rewrite TlbProofs.vpn1_of, TlbProofs.vpn0_of, low22.
  assert (V1 : 0 <= vpn1 va < 2 ^ 10) by (unfold vpn1; lia). assert (V0 : 0 <= vpn0 va < 2 ^ 10) by (unfold vpn0; lia).
  rewrite table_addr by (assumption || (split; [apply Z.mod_pos_bound|apply Z.mod_pos_bound]; lia)).
  rewrite load_words by apply w32_range.
  unfold walk. change (r_mem s (w32 (r_csr s satp mod 2 ^ 22 * 4096 + vpn1 va * 4) / 4)) with (words s (pte1_addr (r_csr s satp) va)).
  set (p1 := words s (pte1_addr (r_csr s satp) va)). assert (P1 : is_w 32 p1) by apply M.
  rewrite !(nzt p1 1 0), !(nzt p1 2 1), !(nzt p1 4 2), !(nzt p1 8 3), !(nzt p1 16 4), !(nzt p1 64 6), !(nzt p1 128 7) by reflexivity || lia.
  fold (pV p1) (pR p1) (pW p1) (pX p1) (pU p1) (pA p1) (pD p1).
  change (Z.land (shr p1 10) 1023) with (Z.land (Z.shiftr p1 10) 1023). rewrite PtwProofs.low10.
  change (Z.land (shr p1 10) 4194303) with (Z.land (Z.shiftr p1 10) 4194303). rewrite TlbProofs.ppn_of.
  unfold judge at 1. change (1 =? 1) with true. change (1 =? 0) with false. cbn [andb].
  destruct (negb (pV p1) || negb (pR p1) && pW p1) eqn:F1; [reflexivity|].
  destruct (pR p1 || pX p1) eqn:L1.
  - change (nz (ppn p1 mod 2 ^ 10)) with (negb (ppn p1 mod 2 ^ 10 =? 0)). rewrite rights_4m.
    + destruct (negb (ppn p1 mod 2 ^ 10 =? 0)); [reflexivity|]. unfold ef, rctx. cbn [x_sum x_mxr]. destruct (permits _ _ _ _ _); [|reflexivity]. now rewrite p4m.
    + intros A1 (-> & Ef & Su & U). apply N. repeat split; try assumption. unfold walk. fold p1. unfold judge at 1. rewrite F1, L1. change (1 =? 1) with true. cbn [andb]. rewrite A1. now split.
  - assert (0 <= ppn p1 < 2 ^ 22) by (unfold ppn; apply Z.mod_pos_bound; lia). rewrite table_addr by assumption. rewrite load_words by apply w32_range.
    change (r_mem s (w32 (ppn p1 * 4096 + vpn0 va * 4) / 4)) with (words s (pte0_addr p1 va)).
    set (p2 := words s (pte0_addr p1 va)). assert (P2 : is_w 32 p2) by apply M.
    rewrite !(nzt p2 1 0), !(nzt p2 2 1), !(nzt p2 4 2), !(nzt p2 8 3), !(nzt p2 16 4), !(nzt p2 64 6), !(nzt p2 128 7) by reflexivity || lia.
    fold (pV p2) (pR p2) (pW p2) (pX p2) (pU p2) (pA p2) (pD p2).
    unfold judge. change (0 =? 1) with false. change (0 =? 0) with true. cbn [andb].
    destruct (negb (pV p2) || negb (pR p2) && pW p2); [reflexivity|]. destruct (pR p2 || pX p2); [|reflexivity].
    rewrite rights_4k. unfold ef, rctx. cbn [x_sum x_mxr]. destruct (permits _ _ _ _ _); [|reflexivity]. now rewrite p4k.
Qed.

(** The core's answers (model of both TLBs, walker, routing and data cache over whole
    runs) and the reference, from the same registers and the same tables. *)
Theorem c35_core_agrees_partial m0 tr u i u' c k va cs r s :
  TlbSpec.ureach m0 tr u -> TlbSpec.ucycle u i u' -> TlbSpec.answered u i c k va cs r -> TlbModel.po_result r <> 2 ->
  mem_words s -> is_w 32 va -> mode (r_csr s satp) = true -> eff (rctx s) k <> 3 -> ~ odd_fetch s va k ->
  TlbModel.s_satp cs = r_csr s satp -> TlbSpec.ctx_of cs = rctx s ->
  (forall x, TlbSpec.used tr c x -> TlbSpec.tables m0 tr u c (words s) x va /\ TlbSpec.consistent (words s) (r_csr s satp) va x) ->
  TlbSpec.agrees r (va2pa s va (ty k)).
Proof.
  intros R C A N M V MO E O S X H. rewrite c35_reference_translation_partial by assumption.
  pose proof (TlbMain.c30_same_as_fresh_walk _ _ _ _ _ _ _ _ _ _ (words s) R C A N V) as G. rewrite S, X in G. specialize (G H).
  destruct (translation _ _ _ _ _) as [a|]; [|exact G]. destruct G as [G1 G2]. cbn [option_map]. split; [exact G1|]. rewrite G2. unfold w32. now rewrite Z.mod_mod.
Qed.

(** va2pa_fix: what it grants is what va2pa grants, and a page fault the core reported
    is taken over without looking at the tables: difftest cannot see a page fault too many. *)
Theorem c35_fix_grants_only_translations e s va t pa : va2pa_fix e s va t = Some (Some pa) -> va2pa s va t = Some pa.
Proof. unfold va2pa_fix. destruct (e_dut e) as [[[di dl] ds]|]; [|now intros [= ->]]. cbv zeta. destruct (va2pa s va t); match goal with |- context [if ?b then Some None else _] => destruct b end; congruence. Qed.
Definition core_fault (e : renv) (k : access) : bool :=
  match e_dut e with None => false | Some (i, l, w) => match k with Fetch => i | Read => l | Write => w end end.
Theorem c35_core_faults_adopted e s va k : core_fault e k = true -> va2pa_fix e s va (ty k) = Some None.
Proof. unfold core_fault, va2pa_fix. destruct (e_dut e) as [[[i l] w]|]; [|discriminate]. destruct k; cbn; intros ->; now destruct (va2pa _ _ _). Qed.
Theorem c35_missing_faults_stop e s va k : e_dut e <> None -> core_fault e k = false -> va2pa s va (ty k) = None -> va2pa_fix e s va (ty k) = None.
Proof. unfold core_fault, va2pa_fix. destruct (e_dut e) as [[[i l] w]|]; [|congruence]. destruct k; cbn; intros _ -> ->; reflexivity. Qed.

(** A user superpage at 0 and its use in S-mode with SUM set. *)
Definition zirq := Irq false false false false false false.
Definition rstate (c : regs) (pv : Z) (m : Z -> Z) : ref :=
  mkr (fun _ => 0) c 0 pv m false 0 0 0 false 0 0 zirq (mkfl false false false false) 0 0 false [].
Definition sp_csr : regs := cset (cset (fun _ => 0) satp (2 ^ 31 + 1)) mstatus (2 ^ 18).
(** leaf V R W X U A D at 4 MiB, in the root table at 4096 *)
Definition sp_mem (i : Z) : Z := if i =? 1024 then 0x100000 + 0xdf else 0.
Definition sp : ref := rstate sp_csr 1 sp_mem.
Lemma sp_words : mem_words sp.
Proof. intros i. unfold sp, rstate, r_mem, sp_mem. destruct (i =? 1024); split; vm_compute; congruence. Qed.
Theorem c35_superpage_fetch_refuted :
  ~ forall s va k, mem_words s -> is_w 32 va -> mode (r_csr s satp) = true -> eff (rctx s) k <> 3 ->
      va2pa s va (ty k) = option_map w32 (translation (walk (words s) (r_csr s satp) va) (rctx s) k (r_csr s satp) va).
Proof.
  intros H. specialize (H sp 16 Fetch sp_words ltac:(split; vm_compute; congruence) ltac:(vm_compute; reflexivity) ltac:(vm_compute; congruence)).
  vm_compute in H. discriminate.
Qed.
(** The same page read in S-mode: inside the theorem, and granted. *)
Example c35_ex_read : va2pa sp 20 (ty Read) = Some (0x400000 + 20) /\ ~ odd_fetch sp 20 Read /\ eff (rctx sp) Read <> 3 /\ mode (r_csr sp satp) = true.
Proof. split; [vm_compute; reflexivity|]. split; [intros (Q & _); discriminate|]. split; [vm_compute; congruence|vm_compute; reflexivity]. Qed.
Example c35_ex_user_fetch : let s := rstate sp_csr 0 sp_mem in va2pa s 20 (ty Fetch) = Some (0x400000 + 20) /\ ~ odd_fetch s 20 Fetch.
Proof. split; [vm_compute; reflexivity|]. intros (_ & Q & _). discriminate. Qed.

Print Assumptions c35_reference_translation_partial.
Print Assumptions c35_core_agrees_partial.
Print Assumptions c35_fix_grants_only_translations.
Print Assumptions c35_core_faults_adopted.
Print Assumptions c35_missing_faults_stop.
Print Assumptions c35_superpage_fetch_refuted.
