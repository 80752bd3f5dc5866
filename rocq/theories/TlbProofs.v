From Verif Require Import Base BaseLemmas MemSpec DcModel DcSpec RtModel RtSpec PtwModel Sv32Spec PtwSpec PtwProofs PtwMain TlbModel TlbSpec.
Ltac Zify.zify_post_hook ::= Z.div_mod_to_equations.
#[local] Opaque Z.pow Z.land Z.lor Z.shiftl Z.shiftr.

(** ** Bit fields *)
Lemma land_ones x n : 0 <= n -> Z.land x (2 ^ n - 1) = x mod 2 ^ n.
Proof. intros H. rewrite <- Z.land_ones by auto. f_equal. rewrite Z.ones_equiv. lia. Qed.
Lemma nz_bit x n : 0 <= n -> nz (Z.land x (2 ^ n)) = Z.testbit x n.
Proof.
  intros H. unfold nz. destruct (Z.testbit x n) eqn:E.
  - apply negb_true_iff, Z.eqb_neq. intros Z0. assert (X : Z.testbit (Z.land x (2 ^ n)) n = true) by (rewrite Z.land_spec, E, Z.pow2_bits_true by auto; reflexivity). rewrite Z0, Z.bits_0 in X. discriminate.
  - apply negb_false_iff, Z.eqb_eq, Z.bits_inj'. intros k K. rewrite Z.land_spec, Z.bits_0, Z.pow2_bits_eqb by auto. destruct (Z.eqb_spec n k); [subst; now rewrite E|now rewrite andb_false_r].
Qed.
Lemma vpn1_of va : Z.land (Z.shiftr va 22) 1023 = vpn1 va.
Proof. unfold vpn1. rewrite Z.shiftr_div_pow2 by lia. change 1023 with (2 ^ 10 - 1). now rewrite land_ones. Qed.
Lemma vpn0_of va : Z.land (Z.shiftr va 12) 1023 = vpn0 va.
Proof. unfold vpn0. rewrite Z.shiftr_div_pow2 by lia. change 1023 with (2 ^ 10 - 1). now rewrite land_ones. Qed.
Lemma asid_of s : sv32_asid s = asid s.
Proof. unfold sv32_asid, asid. rewrite Z.shiftr_div_pow2 by lia. change 511 with (2 ^ 9 - 1). now rewrite land_ones. Qed.
Lemma ppn_of p : Z.land (Z.shiftr p 10) 4194303 = ppn p.
Proof. unfold ppn. rewrite Z.shiftr_div_pow2 by lia. change 4194303 with (2 ^ 22 - 1). now rewrite land_ones. Qed.
Lemma low8 p : Z.land p 255 = p mod 2 ^ 8.
Proof. change 255 with (2 ^ 8 - 1). now apply land_ones. Qed.
Lemma land3 x : 0 <= x < 4 -> Z.land x 3 = x.
Proof. intros. change 3 with (2 ^ 2 - 1). rewrite land_ones by lia. apply Z.mod_small. now change (2 ^ 2) with 4. Qed.
Lemma mode_of s : (Z.land s 2147483648 =? 0) = negb (mode s).
Proof. unfold mode. change 2147483648 with (2 ^ 31). rewrite <- nz_bit by lia. unfold nz. now rewrite negb_involutive. Qed.
Lemma pages_vpn a b : Z.shiftr a 12 = Z.shiftr b 12 -> vpn1 a = vpn1 b /\ vpn0 a = vpn0 b.
Proof.
  rewrite !Z.shiftr_div_pow2 by lia. unfold vpn1, vpn0. change (2 ^ 12) with 4096. change (2 ^ 22) with (4096 * 1024). intros E. rewrite <- !Z.div_div by lia. rewrite E. auto.
Qed.

Lemma check_permits p type k priv sum mxr : (type = 0 /\ k = Fetch \/ type = 1 /\ k = Read \/ type = 2 /\ k = Write) ->
  check_perm (p mod 2 ^ 8) type priv sum mxr = permits p k priv sum mxr.
Proof.
  intros T. assert (B : forall n, 0 <= n < 8 -> nz (Z.land (p mod 2 ^ 8) (2 ^ n)) = Z.testbit p n) by (intros n N; rewrite nz_bit by lia; apply Z.mod_pow2_bits_low; lia).
  pose proof (B 1 ltac:(lia)) as B1. pose proof (B 2 ltac:(lia)) as B2. pose proof (B 3 ltac:(lia)) as B3. pose proof (B 4 ltac:(lia)) as B4. pose proof (B 6 ltac:(lia)) as B6. pose proof (B 7 ltac:(lia)) as B7.
  change (2 ^ 1) with 2 in *. change (2 ^ 2) with 4 in *. change (2 ^ 3) with 8 in *. change (2 ^ 4) with 16 in *. change (2 ^ 6) with 64 in *. change (2 ^ 7) with 128 in *.
  unfold check_perm. cbv zeta. rewrite B1, B2, B3, B4, B6, B7. unfold permits, pX, pR, pW, pU, pA, pD. clear - T.
  assert (Q : priv = 0 \/ priv = 1 \/ (priv =? 0) = false /\ (priv =? 1) = false) by lia.
  generalize (Z.testbit p 1), (Z.testbit p 2), (Z.testbit p 3), (Z.testbit p 4), (Z.testbit p 6), (Z.testbit p 7). intros r w x u a d.
  destruct T as [[-> ->]|[[-> ->]|[-> ->]]]; destruct Q as [->|[->|[-> ->]]]; destruct r, w, x, u, a, d, sum, mxr; reflexivity.
Qed.
Lemma lor_add a b n : 0 <= n -> a mod 2 ^ n = 0 -> 0 <= b < 2 ^ n -> Z.lor a b = a + b.
Proof.
  intros N A B. assert (Z0 : Z.land a b = 0); [|rewrite Z.add_nocarry_lxor, Z.lxor_lor; auto]. apply Z.bits_inj'. intros k K. rewrite Z.land_spec, Z.bits_0. destruct (Z.lt_ge_cases k n).
  - rewrite <- (Z.mod_pow2_bits_low a n k) by lia. now rewrite A, Z.bits_0.
  - rewrite (is_w_testbit n b k); auto. apply andb_false_r.
Qed.
Lemma compose_phys va p l e : e_ppn e = ppn p -> e_level e = l -> l = 0 \/ l = 1 -> compose_paddr va e = w32 (phys p l va).
Proof.
  intros P L [-> | ->]; unfold compose_paddr; rewrite P, L.
  - change (nz (Z.land 0 1)) with false. unfold phys. change (0 =? 1) with false. cbv iota. rewrite Z.shiftl_mul_pow2 by lia. change 4095 with (2 ^ 12 - 1). rewrite land_ones by lia.
    rewrite (lor_add _ _ 12); unfold w32; change (2 ^ 12) with 4096; change (2 ^ 32) with 4294967296; lia.
  - change (nz (Z.land 1 1)) with true. unfold phys. change (1 =? 1) with true. cbv iota. rewrite Z.shiftl_mul_pow2 by lia. change 4194303 with (2 ^ 22 - 1). rewrite land_ones by lia.
    assert (E : Z.land (w32 (ppn p * 2 ^ 12)) (w32 (Z.lnot (2 ^ 22 - 1))) = w32 (ppn p / 2 ^ 10 * 2 ^ 22)).
    { apply Z.bits_inj'. intros k K. rewrite Z.land_spec. unfold w32. rewrite <- (Z.shiftl_mul_pow2 _ 12), <- (Z.shiftl_mul_pow2 _ 22), <- Z.shiftr_div_pow2 by lia.
      destruct (Z.lt_ge_cases k 32); [|rewrite !Z.mod_pow2_bits_high by lia; reflexivity]. rewrite !Z.mod_pow2_bits_low by lia. rewrite Z.lnot_spec by lia.
      replace (2 ^ 22 - 1) with (Z.ones 22) by (rewrite Z.ones_equiv; lia). destruct (Z.lt_ge_cases k 22).
      - rewrite Z.ones_spec_low by lia. rewrite (Z.shiftl_spec_low _ 22) by lia. apply andb_false_r.
      - rewrite Z.ones_spec_high by lia. rewrite !Z.shiftl_spec by lia. rewrite Z.shiftr_spec by lia. replace (k - 22 + 10) with (k - 12) by lia. apply andb_true_r. }
    rewrite E. rewrite (lor_add _ _ 22); unfold w32; change (2 ^ 22) with 4194304; change (2 ^ 10) with 1024; change (2 ^ 32) with 4294967296; lia.
Qed.

(** ** Walks *)
Lemma walks_level rd satp va p l : walks rd satp va (Leaf p l) -> l = 0 \/ l = 1.
Proof. intros (p1 & _ & H). destruct (judge 1 p1); [discriminate|injection H; auto|]. destruct H as (p0 & _ & H). destruct (match judge 0 p0 with VLeaf => true | _ => false end); [injection H; auto|discriminate]. Qed.
Lemma walks_other rd satp va va' o : walks rd satp va o -> vpn1 va' = vpn1 va -> (vpn0 va' = vpn0 va \/ exists p, o = Leaf p 1) -> walks rd satp va' o.
Proof.
  intros (p1 & R1 & H) E1 E0. exists p1. split; [unfold pte1_addr in *; now rewrite E1|]. destruct (judge 1 p1); auto.
  destruct H as (p0 & R0 & H). destruct E0 as [E0|[p ->]].
  - exists p0. split; auto. unfold pte0_addr in *. now rewrite E0.
  - destruct (match judge 0 p0 with VLeaf => true | _ => false end); discriminate H.
Qed.

(** ** One lane.  [W satp va o]: a walk of [va] under [satp] found [o]. *)
Section lane.
Variable W : Z -> Z -> outcome -> Prop.
Hypothesis W_level : forall s va p l, W s va (Leaf p l) -> l = 0 \/ l = 1.
Hypothesis W_other : forall s va va' o, W s va o -> vpn1 va' = vpn1 va -> (vpn0 va' = vpn0 va \/ exists p, o = Leaf p 1) -> W s va' o.

Definition entry_of (satp va p l : Z) : entry := mke true (pG p) (asid satp) l (vpn1 va) (vpn0 va) (ppn p) (p mod 2 ^ 8).
Definition good (e : entry) : Prop := e_valid e = true -> exists satp va p l, W satp va (Leaf p l) /\ e = entry_of satp va p l.
Definition refill_good (f : refill) : Prop := f_valid f = true -> good (f_entry f) /\ 0 <= f_slot f < ENTRIES /\ 0 <= f_next f < ENTRIES.
(** an answer in a lane: a walk of that address, in that address space or global *)
Definition answer_ok (k : access) (va : Z) (c : csrs) (r : pout) : Prop :=
  po_valid r = true /\
  (po_result r <> 2 ->
   if (eff (ctx_of c) k =? 3) || negb (mode (s_satp c)) then po_result r = 0 /\ po_pa r = va
   else exists s o, W s va o /\ (asid s = asid (s_satp c) \/ global o) /\ agrees r (translation o (ctx_of c) k (s_satp c) va)).
Definition kind_of (type : Z) (k : access) : Prop := type = 0 /\ k = Fetch \/ type = 1 /\ k = Read \/ type = 2 /\ k = Write.
Definition wreq_of (w : wregs) : wreq := mkwq (w_va w) (w_satp w) (w_type w).
Definition busyw (w : wregs) : bool := w_act w && w_sent w.

Lemma walk_entry_of q s va p l : l = 0 \/ l = 1 -> walk_entry va (sv32_asid s) (resp_of q (Leaf p l)) = entry_of s va p l.
Proof.
  intros L. unfold walk_entry, entry_of, resp_of. cbn [r_pte r_level]. rewrite asid_of, vpn1_of, vpn0_of, ppn_of, low8. replace (nz (Z.land p 32)) with (pG p).
  - f_equal. destruct L as [-> | ->]; reflexivity.
  - unfold pG. rewrite <- nz_bit by lia. reflexivity.
Qed.
Lemma match_walk e va s : good e -> entry_matches e va (sv32_asid s) = true ->
  exists s' p l, W s' va (Leaf p l) /\ (asid s' = asid s \/ pG p = true) /\ e_ppn e = ppn p /\ e_level e = l /\ e_perm e = p mod 2 ^ 8 /\ (l = 0 \/ l = 1).
Proof.
  intros G M. unfold entry_matches in M. destruct (e_valid e) eqn:V; [|discriminate]. destruct (G V) as (s' & va' & p & l & K & ->). cbn [entry_of e_glob e_asid e_vpn1 e_vpn0 e_level e_ppn e_perm negb] in *.
  rewrite vpn1_of, vpn0_of, asid_of in M. destruct (pG p || (asid s' =? asid s)) eqn:A; [|discriminate M]. cbn [negb] in M. destruct (Z.eqb_spec (vpn1 va') (vpn1 va)); [|discriminate M]. cbn [negb] in M.
  pose proof (W_level _ _ _ _ K) as L. exists s', p, l. repeat split; auto.
  - eapply W_other; eauto. apply orb_true_iff in M. destruct M as [M|M]; [right; exists p; f_equal; lia|left; lia].
  - apply orb_true_iff in A. destruct A; [right; auto|left; lia].
Qed.

Definition resp_good (w : wregs) (r : wresp) : Prop := exists o, W (w_satp w) (w_va w) o /\ r = resp_of (wreq_of w) o.
Record lane_ok (s : acc) (r : wresp) : Prop := {
  lk_refill : refill_good (a_refill s);
  lk_resp : a_rv s = true -> busyw (a_walk s) = true /\ resp_good (a_walk s) r }.
(** what a lane does to the walk registers and the port *)
Inductive moves (s s' : acc) : Prop :=
| mv_same : a_walk s' = a_walk s -> a_ready s' = a_ready s -> a_rv s' = a_rv s -> a_rq s' = a_rq s -> a_req s' = a_req s -> a_cons s' = a_cons s -> moves s s'
| mv_new : w_act (a_walk s) = false -> busyw (a_walk s') = false -> a_ready s' = a_ready s -> a_rv s' = a_rv s -> a_rq s' = a_rq s -> a_req s' = a_req s -> a_cons s' = a_cons s -> moves s s'
| mv_send : busyw (a_walk s) = false -> a_ready s = true -> busyw (a_walk s') = true -> a_ready s' = false -> a_rv s' = false -> a_rq s' = true -> a_req s' = wreq_of (a_walk s') -> a_cons s' = a_cons s -> moves s s'
| mv_done : busyw (a_walk s) = true -> a_rv s = true -> a_walk s' = wregs0 -> a_ready s' = a_ready s -> a_rv s' = false -> a_rq s' = a_rq s -> a_req s' = a_req s -> a_cons s' = true -> moves s s'.
(** walk registers hold an address space in use *)
Definition satp_from (satp : Z) (w w' : wregs) : Prop := w_act w' = true -> (w_act w = true /\ w_satp w' = w_satp w) \/ w_satp w' = satp.

Lemma lane_step t p s k : lane_ok s (ti_resp t) -> 0 <= ti_repl t < ENTRIES ->
  (pp_valid p = true -> kind_of (pp_type p) k /\ csrs_ok (ti_csr t) /\ (l_hit (pp_look p) = true -> good (l_entry (pp_look p)) /\ entry_matches (l_entry (pp_look p)) (pp_va p) (sv32_asid (s_satp (ti_csr t))) = true)) ->
  let o := core (lane_in ENTRIES t p s) in
  lane_ok (accumulate s o) (ti_resp t) /\ moves s (accumulate s o) /\ satp_from (s_satp (ti_csr t)) (a_walk s) (a_walk (accumulate s o)) /\
  (pp_valid p = true -> answer_ok k (pp_va p) (ti_csr t) (port_out o)).
Proof.
  intros [LF LR] RP PV. unfold core. cbv zeta. cbn [lane_in ci_valid ci_va ci_type ci_satp ci_priv ci_mxr ci_sum ci_mprv ci_mpp ci_look ci_walk ci_refill ci_repl ci_cap ci_ready ci_rv ci_resp].
  assert (SAME : forall o, co_walk o = a_walk s -> co_refill o = a_refill s -> co_rq o = false -> co_cons o = false ->
    lane_ok (accumulate s o) (ti_resp t) /\ moves s (accumulate s o) /\ satp_from (s_satp (ti_csr t)) (a_walk s) (a_walk (accumulate s o))).
  { intros o E1 E2 E3 E4. unfold accumulate. rewrite E1, E2, E3, E4. cbn [orb]. split; [|split; [apply mv_same; reflexivity|intros A; auto]]. split; cbn [a_refill a_rv a_walk]; auto. }
  destruct (pp_valid p) eqn:V; cbn [negb].
  2:{ split; [|split; [|split]]; [apply SAME; reflexivity|apply SAME; reflexivity|apply SAME; reflexivity|discriminate]. }
  destruct (PV eq_refl) as (KD & (C1 & C2 & C3) & LG). clear PV. set (c := ti_csr t) in *. set (va := pp_va p) in *.
  assert (PR : (if nz (pp_type p) && s_mprv c then Z.land (s_mpp c) 3 else Z.land (s_priv c) 3) = eff (ctx_of c) k).
  { rewrite !land3 by auto. unfold eff, ctx_of. cbn [x_priv x_mprv x_mpp]. destruct KD as [[-> ->]|[[-> ->]|[-> ->]]]; reflexivity. }
  rewrite PR. rewrite mode_of. set (priv := eff (ctx_of c) k) in *.
  destruct ((priv =? 3) || negb (mode (s_satp c))) eqn:BARE.
  { split; [|split; [|split]]; try apply SAME; try reflexivity. intros _. split; [reflexivity|]. intros _. fold priv. rewrite BARE. split; reflexivity. }
  assert (TR : forall o, translation o (ctx_of c) k (s_satp c) va = match o with Fault => None | Leaf q l => if permits q k priv (s_sum c) (s_mxr c) then Some (phys q l va) else None end).
  { intros o. unfold translation. fold priv. rewrite BARE. reflexivity. }
  destruct (hit_of _) as [h|] eqn:H.
  { assert (M : exists s' q l, W s' va (Leaf q l) /\ (asid s' = asid (s_satp c) \/ pG q = true) /\ e_ppn h = ppn q /\ e_level h = l /\ e_perm h = q mod 2 ^ 8 /\ (l = 0 \/ l = 1)).
    { unfold hit_of in H. cbn [lane_in ci_refill ci_look ci_va ci_satp] in H. destruct (f_valid (a_refill s) && entry_matches (f_entry (a_refill s)) (pp_va p) (sv32_asid (s_satp (ti_csr t)))) eqn:F.
      - injection H as <-. apply andb_true_iff in F. destruct F as [F1 F2]. apply match_walk; auto. apply LF; auto.
      - destruct (l_hit (pp_look p)) eqn:L; [|discriminate]. injection H as <-. destruct (LG eq_refl). apply match_walk; auto. }
    destruct M as (s' & q & l & K & AG & P1 & P2 & P3 & P4).
    assert (CP : check_perm (Z.land (e_perm h) 255) (pp_type p) priv (s_sum c) (s_mxr c) = permits q k priv (s_sum c) (s_mxr c)).
    { rewrite P3, low8, Z.mod_mod by lia. apply check_permits. exact KD. }
    rewrite CP. destruct (permits q k priv (s_sum c) (s_mxr c)) eqn:PM; cbn [negb]; (split; [|split; [|split]]; [apply SAME; reflexivity|apply SAME; reflexivity|apply SAME; reflexivity|]); intros _; (split; [reflexivity|]); intros _; fold priv; rewrite BARE; exists s', (Leaf q l); (split; [exact K|]); (split; [destruct AG; [left; auto|right; auto]|]); rewrite TR, PM; cbn [agrees port_out po_result po_pa co_result co_pa]; auto.
    split; auto. eapply compose_phys; eauto. }
  destruct (w_act (a_walk s) && negb _) eqn:OTH.
  { split; [|split; [|split]]; try apply SAME; try reflexivity. intros _. split; [reflexivity|]. cbn. congruence. }
  set (w := if w_act (a_walk s) then a_walk s else mkw true false va (pp_type p) (s_satp c) priv (s_mxr c) (s_sum c)).
  assert (WA : w_act w = true) by (unfold w; destruct (w_act (a_walk s)) eqn:A; auto).
  assert (SF : satp_from (s_satp c) (a_walk s) w) by (unfold w; intros _; destruct (w_act (a_walk s)); auto).
  assert (NR : forall o, co_result o = 2 -> co_valid o = true -> answer_ok k va c (port_out o)) by (intros o E E'; split; [exact E'|]; cbn [port_out po_result]; congruence).
  destruct (w_sent w) eqn:SN; cbn [negb].
  2:{ assert (NB : busyw (a_walk s) = false) by (unfold busyw, w in *; destruct (w_act (a_walk s)); auto).
      assert (RV : a_rv s = false) by (destruct (a_rv s) eqn:R; auto; destruct (LR eq_refl); congruence).
      destruct (a_ready s) eqn:RD; cbn [negb].
      - split; [|split; [|split]]; [| | |intros _; apply NR; reflexivity].
        + split; cbn [accumulate co_walk co_refill co_rq co_cons orb a_refill a_rv a_walk]; auto. discriminate.
        + apply mv_send; auto. cbn [accumulate co_walk a_walk busyw w_act w_sent]. unfold busyw. cbn [w_act w_sent]. now rewrite WA.
        + cbn [accumulate co_walk a_walk]. intros A. apply (SF WA).
      - split; [|split; [|split]]; [| | |intros _; apply NR; reflexivity].
        + split; cbn [accumulate co_walk co_refill co_rq co_cons orb a_refill a_rv a_walk]; auto. rewrite RV. discriminate.
        + destruct (w_act (a_walk s)) eqn:A; [apply mv_same; reflexivity|]. apply mv_new; auto.
        + exact SF. }
  assert (WS : w = a_walk s) by (unfold w in *; destruct (w_act (a_walk s)); auto; discriminate SN).
  rewrite WS in *. assert (BW : busyw (a_walk s) = true) by (unfold busyw; rewrite WA, SN; reflexivity).
  assert (AC : w_act (a_walk s) = true) by exact WA. rewrite AC in OTH. cbn [andb] in OTH. apply negb_false_iff, andb_true_iff in OTH. destruct OTH as [PG ST]. apply Z.eqb_eq in PG, ST.
  destruct (a_rv s) eqn:RV; cbn [negb].
  2:{ split; [|split; [|split]]; [| | |intros _; apply NR; reflexivity].
      - split; cbn [accumulate co_walk co_refill co_rq co_cons orb a_refill a_rv a_walk]; auto. rewrite RV. discriminate.
      - apply mv_same; reflexivity.
      - intros A. auto. }
  destruct (LR eq_refl) as (_ & o & K & RS). rewrite RS.
  replace (Z.shiftr (r_va (resp_of (wreq_of (a_walk s)) o)) 12 =? Z.shiftr (w_va (a_walk s)) 12) with true by (destruct o; cbn [resp_of r_va wreq_of q_va]; now rewrite Z.eqb_refl). cbn [negb].
  assert (K' : W (s_satp c) va o).
  { replace (s_satp c) with (w_satp (a_walk s)) by exact ST. destruct (pages_vpn _ _ PG) as [P1 P2]. eapply W_other; [exact K| |left]; auto. }
  assert (DONE : forall o' r', co_walk o' = wregs0 -> co_refill o' = a_refill s \/ refill_good (co_refill o') -> co_rq o' = false -> co_cons o' = true ->
    lane_ok (accumulate s o') r' /\ moves s (accumulate s o') /\ satp_from (s_satp c) (a_walk s) (a_walk (accumulate s o'))).
  { intros o' r' E1 E2 E3 E4. unfold accumulate. rewrite E1, E3, E4. cbn [orb]. split; [|split].
    - split; cbn [a_refill a_rv a_walk]; [destruct E2 as [->|E2]; auto|discriminate].
    - apply mv_done; auto.
    - intros A. discriminate A. }
  destruct o as [|q l]; cbn [resp_of r_fault r_pte].
  { split; [|split; [|split]]; try (first [apply (DONE _ wresp0)|apply DONE]; [reflexivity|first [left; reflexivity|right; assumption]|reflexivity|reflexivity]). intros _. split; [reflexivity|]. intros _. fold priv. rewrite BARE. exists (s_satp c), Fault. rewrite TR. split; [exact K'|]. split; [left; reflexivity|reflexivity]. }
  rewrite low8, (check_permits q (pp_type p) k) by exact KD.
  destruct (permits q k priv (s_sum c) (s_mxr c)) eqn:PM; cbn [negb].
  2:{ split; [|split; [|split]]; try (first [apply (DONE _ wresp0)|apply DONE]; [reflexivity|first [left; reflexivity|right; assumption]|reflexivity|reflexivity]). intros _. split; [reflexivity|]. intros _. fold priv. rewrite BARE. exists (s_satp c), (Leaf q l). rewrite TR, PM. split; [exact K'|]. split; [left; reflexivity|reflexivity]. }
  pose proof (W_level _ _ _ _ K') as LV. change (0 <? ENTRIES) with true. cbv iota. change (mkwr false (q_va (wreq_of (a_walk s))) q l) with (resp_of (wreq_of (a_walk s)) (Leaf q l)). rewrite walk_entry_of by exact LV.
  assert (RG : refill_good (mkrf true (entry_of (s_satp c) va q l) (ti_repl t mod ENTRIES) ((ti_repl t mod ENTRIES + 1) mod ENTRIES))).
  { intros _. cbn [f_entry f_slot f_next]. unfold ENTRIES in *. split; [|lia]. intros _. do 4 eexists. split; [exact K'|reflexivity]. }
  split; [|split; [|split]]; try (first [apply (DONE _ wresp0)|apply DONE]; [reflexivity|first [left; reflexivity|right; assumption]|reflexivity|reflexivity]). intros _. split; [reflexivity|]. intros _. fold priv. rewrite BARE. exists (s_satp c), (Leaf q l). rewrite TR, PM. split; [exact K'|]. split; [left; reflexivity|].
  cbn [agrees port_out po_result po_pa co_result co_pa]. split; [reflexivity|]. eapply compose_phys; eauto; reflexivity.
Qed.

Record AI (s0 s : acc) : Prop := {
  ai_rq : a_rq s = true -> busyw (a_walk s) = true /\ a_req s = wreq_of (a_walk s) /\ a_rv s = false /\ a_ready s = false /\ a_ready s0 = true;
  ai_cons : a_cons s = true -> a_rv s0 = true /\ a_rv s = false;
  ai_ready : a_rq s = false -> a_ready s = a_ready s0;
  ai_taken : a_rq s = false -> a_cons s = true -> busyw (a_walk s) = false;
  ai_same : a_rq s = false -> a_cons s = false -> a_rv s = a_rv s0 /\ busyw (a_walk s) = busyw (a_walk s0) /\ (busyw (a_walk s0) = true -> a_walk s = a_walk s0) }.
Lemma AI_move s0 s s' : AI s0 s -> moves s s' -> AI s0 s'.
Proof.
  intros [A B R C D] M. destruct M as [E1 E2 E3 E4 E5 E6|N E1 E2 E3 E4 E5 E6|N1 N2 E1 E2 E3 E4 E5 E6|N1 N2 E1 E2 E3 E4 E5 E6].
  - split; rewrite ?E1, ?E2, ?E3, ?E4, ?E5, ?E6; auto.
  - assert (NB : busyw (a_walk s) = false) by (unfold busyw; rewrite N; reflexivity). split; rewrite ?E2, ?E3, ?E4, ?E5, ?E6; auto.
    + intros Q. destruct (A Q) as (X & _). rewrite NB in X. discriminate X.
    + intros Q1 Q2. destruct (D Q1 Q2) as (X1 & X2 & X3). rewrite E1, <- X2, NB. repeat split; auto. discriminate.
  - assert (Q : a_rq s = false) by (destruct (a_rq s); auto; destruct (A eq_refl) as (_ & _ & _ & X & _); rewrite N2 in X; discriminate X).
    split; rewrite ?E1, ?E2, ?E3, ?E4, ?E5, ?E6; try discriminate.
    + intros _. repeat split; auto. rewrite <- (R Q). exact N2.
    + intros Q2. destruct (B Q2). auto.
  - assert (Q : a_rq s = false) by (destruct (a_rq s); auto; destruct (A eq_refl) as (_ & _ & X & _); rewrite N2 in X; discriminate X).
    assert (Q2 : a_cons s = false) by (destruct (a_cons s); auto; destruct (B eq_refl) as (_ & X); rewrite N2 in X; discriminate X).
    split; rewrite ?E1, ?E2, ?E3, ?E4, ?E5, ?E6, ?Q; try discriminate; auto.
    intros _. destruct (D Q Q2) as (X & _). split; congruence.
Qed.
Lemma satp_from_trans s w1 w2 w3 : satp_from s w1 w2 -> satp_from s w2 w3 -> satp_from s w1 w3.
Proof. intros H1 H2 A. destruct (H2 A) as [[A2 E]|E]; [|auto]. rewrite E. destruct (H1 A2) as [[A1 E1]|E1]; auto. Qed.
Lemma kind_unique ty k k' : kind_of ty k -> kind_of ty k' -> k = k'.
Proof. intros [[-> ->]|[[-> ->]|[-> ->]]] [[E ->]|[[E ->]|[E ->]]]; auto; discriminate E. Qed.
Definition port_ok (c : csrs) (p : pport) : Prop :=
  pp_valid p = true -> (exists k, kind_of (pp_type p) k) /\ csrs_ok c /\
    (l_hit (pp_look p) = true -> good (l_entry (pp_look p)) /\ entry_matches (l_entry (pp_look p)) (pp_va p) (sv32_asid (s_satp c)) = true).

Lemma lanes_ok t s0 : 0 <= ti_repl t < ENTRIES -> forall ps s, lane_ok s (ti_resp t) -> AI s0 s -> Forall (port_ok (ti_csr t)) ps ->
  forall s' os, lanes ENTRIES t ps s = (s', os) ->
  lane_ok s' (ti_resp t) /\ AI s0 s' /\ satp_from (s_satp (ti_csr t)) (a_walk s) (a_walk s') /\
  (forall n p k r, nth_error ps n = Some p -> pp_valid p = true -> kind_of (pp_type p) k -> nth_error os n = Some r -> answer_ok k (pp_va p) (ti_csr t) r).
Proof.
  intros RP. induction ps as [|p ps IH]; intros s L A F s' os E; cbn [lanes] in E.
  - injection E as <- <-. split; [exact L|]. split; [exact A|]. split; [intros X; auto|]. intros [|n]; discriminate.
  - inversion F as [|? ? F1 F2]. subst. destruct (lanes ENTRIES t ps (accumulate s (core (lane_in ENTRIES t p s)))) as [s2 os2] eqn:E2. injection E as <- <-.
    assert (ST : forall k, (pp_valid p = true -> kind_of (pp_type p) k) -> lane_ok (accumulate s (core (lane_in ENTRIES t p s))) (ti_resp t) /\ moves s (accumulate s (core (lane_in ENTRIES t p s))) /\ satp_from (s_satp (ti_csr t)) (a_walk s) (a_walk (accumulate s (core (lane_in ENTRIES t p s)))) /\ (pp_valid p = true -> answer_ok k (pp_va p) (ti_csr t) (port_out (core (lane_in ENTRIES t p s))))).
    { intros k K. apply lane_step; auto. intros V. destruct (F1 V) as (_ & C & H). auto. }
    assert (KE : exists k, pp_valid p = true -> kind_of (pp_type p) k).
    { destruct (pp_valid p) eqn:V; [destruct (F1 V) as ([k K] & _); exists k; auto|exists Fetch; discriminate]. }
    destruct KE as [k KE]. destruct (ST k KE) as (L1 & M1 & S1 & _).
    destruct (IH _ L1 (AI_move _ _ _ A M1) F2 _ _ E2) as (L2 & A2 & S2 & N2).
    split; [exact L2|]. split; [exact A2|]. split; [eapply satp_from_trans; eauto|].
    intros [|n] p' k' r P V K R; cbn [nth_error] in P, R.
    + injection P as <-. injection R as <-. destruct (ST k' (fun _ => K)) as (_ & _ & _ & X). auto.
    + eapply N2; eauto.
Qed.

(** ** The class *)
Record bok (b : comb) : Prop := {
  bo_refill : refill_good (b_refill b);
  bo_resp : forall r, b_resp b = Some r -> busyw (b_walk b) = true /\ resp_good (b_walk b) r }.
Definition tab_ok (t : tlb) : Prop := Forall good (t_tab t) /\ length (t_tab t) = 16%nat /\ 0 <= t_repl t < ENTRIES.

Lemma look_ok t va a : tab_ok t -> l_hit (table_look t va a) = true -> good (l_entry (table_look t va a)) /\ entry_matches (l_entry (table_look t va a)) va a = true.
Proof.
  intros (F & _) H. unfold table_look in *. destruct (find _ (t_tab t)) as [e|] eqn:E; [|discriminate H]. apply find_some in E. destruct E as [I M]. split; auto. rewrite Forall_forall in F. auto.
Qed.
Inductive ran (b b' : comb) : Prop :=
| ran_req : b_ready b = true -> b_req b' = Some (wreq_of (b_walk b')) -> busyw (b_walk b') = true -> ran b b'
| ran_take : b_resp b <> None -> b_take b' = true -> b_req b' = None -> busyw (b_walk b') = false -> ran b b'
| ran_same : b_take b' = b_take b -> b_req b' = None -> busyw (b_walk b') = busyw (b_walk b) -> (busyw (b_walk b) = true -> b_walk b' = b_walk b) -> ran b b'.
Lemma run_top t b c ps b' : tab_ok t -> bok b -> b_req b = None -> Forall (port_ok c) ps ->
  b' = apply_top (top ENTRIES (common_in t b false false c ps)) b ->
  refill_good (b_refill b') /\ satp_from (s_satp c) (b_walk b) (b_walk b') /\ b_flush b' = b_flush b /\ b_kill b' = b_kill b /\ ran b b' /\
  (forall n p k r, nth_error ps n = Some p -> pp_valid p = true -> kind_of (pp_type p) k -> nth_error (to_ports (top ENTRIES (common_in t b false false c ps))) n = Some r -> answer_ok k (pp_va p) c r).
Proof.
  intros (TF & TL & TR) [BF BR] NQ F ->. unfold top. cbn [common_in ti_flush ti_cancel ti_ports ti_walk ti_refill ti_ready ti_rv]. set (T := common_in t b false false c ps).
  set (rv := match b_resp b with Some _ => true | None => false end). set (s0 := mkac (b_walk b) (b_refill b) (b_ready b) rv false wreq0 false).
  destruct (lanes ENTRIES T ps s0) as [s os] eqn:E.
  assert (L0 : lane_ok s0 (ti_resp T)).
  { split; cbn [s0 a_refill a_rv a_walk]; [exact BF|]. unfold rv, T. cbn [common_in ti_resp]. destruct (b_resp b) as [r|] eqn:R; [|discriminate]. intros _. apply (BR r eq_refl). }
  assert (A0 : AI s0 s0) by (split; cbn [s0 a_rq a_cons a_rv]; try discriminate; auto).
  destruct (lanes_ok T s0 TR ps s0 L0 A0 F s os E) as ([LF LR] & [A B R C D] & S & N).
  unfold apply_top. cbn [to_cflush to_rq to_req to_cons to_walk to_refill to_tflush].
  destruct (a_rq s) eqn:Q; [|destruct (a_cons s) eqn:CE].
  - destruct (A eq_refl) as (X1 & X2 & X3 & X4 & X5). cbn [s0 a_ready] in X5. unfold a_send. rewrite NQ, X5. cbn [negb orb].
    split; [exact LF|]. split; [exact S|]. split; [destruct (a_cons s); apply orb_false_r|]. split; [destruct (a_cons s); reflexivity|]. split; [|exact N].
    apply ran_req; [exact X5| |exact X1]. cbn [b_walk b_req]. rewrite <- X2. destruct (a_cons s); reflexivity.
  - unfold a_take. cbn [b_refill b_walk b_flush b_kill b_req b_take]. split; [exact LF|]. split; [exact S|]. split; [apply orb_false_r|]. split; [reflexivity|]. split; [|exact N]. apply ran_take; cbn [b_req b_walk b_take]; auto. destruct (B eq_refl) as [X _]. cbn [s0 a_rv] in X. unfold rv in X. destruct (b_resp b); [discriminate|discriminate X].
  - destruct (D eq_refl eq_refl) as (X1 & X2 & X3). cbn [b_refill b_walk b_flush b_kill b_req b_take]. split; [exact LF|]. split; [exact S|]. split; [apply orb_false_r|]. split; [reflexivity|]. split; [|exact N]. apply ran_same; cbn [b_req b_walk b_take]; auto.
Qed.
Lemma port_of_ok t c ty k v : tab_ok t -> csrs_ok c -> kind_of ty k -> port_ok c (port_of t c (ty, v)).
Proof.
  intros T C K V. unfold port_of in *. cbn [snd fst] in *. destruct v; [|discriminate V]. cbn [pp_type pp_look pp_va]. split; [exists k; exact K|]. split; [exact C|]. apply look_ok. exact T.
Qed.

Lemma consume_ok faults t b b' got : tab_ok t -> bok b -> consume faults t b = (b', got) ->
  refill_good (b_refill b') /\ b_walk b' = b_walk b /\ b_flush b' = b_flush b /\ b_req b' = b_req b /\ b_kill b' = b_kill b /\ b_ready b' = b_ready b /\
  (if got then b_resp b' = None /\ b_take b' = true /\ b_resp b <> None else b' = b).
Proof.
  intros (_ & _ & TR) [BF BR] E. unfold consume in E. destruct (b_resp b) as [r|] eqn:R; [|injection E as <- <-; split; [exact BF|repeat split; auto]].
  destruct (BR r eq_refl) as (X1 & X2). destruct (w_act (b_walk b) && w_sent (b_walk b) && _); [|injection E as <- <-; split; [exact BF|repeat split; auto]].
  cbv zeta in E. destruct ((r_fault r || _) && negb faults) eqn:G; [injection E as <- <-; split; [exact BF|repeat split; auto]|]. injection E as <- <-.
  unfold a_take. cbn [b_refill b_walk b_flush b_req b_kill b_ready b_resp b_take]. split; [|repeat split; auto; discriminate].
  destruct (negb (r_fault r) && _) eqn:OK; [|exact BF]. apply andb_true_iff in OK. destruct OK as [OK _]. destruct X2 as (o & K & ->). destruct o as [|p l]; [discriminate OK|].
  rewrite walk_entry_of by (eapply W_level; exact K). intros _. cbn [f_entry f_slot f_next]. unfold ENTRIES in *. split; [|lia]. intros _. do 4 eexists. split; [exact K|reflexivity].
Qed.
Inductive moved (rdy : bool) (rs : option wresp) (w : wregs) (b : comb) : Prop :=
| md_kill : b_kill b = true -> b_req b = None -> w_act (b_walk b) = false -> moved rdy rs w b
| md_req : rdy = true -> b_kill b = false -> b_req b = Some (wreq_of (b_walk b)) -> busyw (b_walk b) = true -> moved rdy rs w b
| md_take : rs <> None -> b_kill b = false -> b_req b = None -> b_take b = true -> busyw (b_walk b) = false -> moved rdy rs w b
| md_same : b_kill b = false -> b_req b = None -> b_take b = false -> busyw (b_walk b) = busyw w -> (busyw w = true -> b_walk b = w) -> moved rdy rs w b.
(** a cycle of a TLB: [b] is what it leaves for the clock edge *)
Record cyc (rdy flush : bool) (rs : option wresp) (cs : option csrs) (t : tlb) (b : comb) : Prop := {
  cy_refill : refill_good (b_refill b);
  cy_flush : b_flush b = flush;
  cy_moved : moved rdy rs (t_wr t) b;
  cy_satp : w_act (b_walk b) = true -> (w_act (t_wr t) = true /\ w_satp (b_walk b) = w_satp (t_wr t)) \/ exists c, cs = Some c /\ w_satp (b_walk b) = s_satp c }.

Lemma flush_shape n t b : tlb_flush n t b = mkcb wregs0 refill0 true true None (b_req b) (b_take b) true.
Proof. unfold tlb_flush, apply_top, top, common_in, a_kill. cbn [ti_flush to_cflush to_rq to_cons to_walk to_refill to_tflush b_flush b_walk b_req b_take b_kill b_resp b_ready]. now rewrite orb_true_r. Qed.
Lemma cancel_shape n t b : let b1 := fst (consume true t b) in tlb_cancel n t b = mkcb wregs0 (b_refill b1) (b_flush b1) true None (b_req b1) (b_take b1) true.
Proof. cbv zeta. unfold tlb_cancel. cbv zeta. set (b1 := fst _). unfold apply_top, top, common_in, a_kill. cbn [ti_flush ti_cancel ti_refill to_cflush to_rq to_cons to_walk to_refill to_tflush b_flush b_walk b_req b_take b_kill b_resp b_ready]. now rewrite orb_false_r. Qed.
Definition start_ok (t : tlb) (rdy : bool) (rs : option wresp) : Prop :=
  tab_ok t /\ (forall r, rs = Some r -> busyw (t_wr t) = true /\ resp_good (t_wr t) r).
Lemma comb0_bok t rdy rs : start_ok t rdy rs -> bok (comb0 t rdy rs).
Proof. intros (_ & H). split; [discriminate|exact H]. Qed.
Lemma idle_cyc t rdy rs : cyc rdy false rs None t (comb0 t rdy rs).
Proof. split; [discriminate|reflexivity|apply md_same; auto|]. intros A. left. auto. Qed.
Lemma ran_moved t rdy rs b' : ran (comb0 t rdy rs) b' -> b_kill b' = false -> moved rdy rs (t_wr t) b'.
Proof. intros R K. destruct R; [apply md_req|apply md_take|apply md_same]; auto. Qed.

Lemma icycle_ok i t rdy rs b' os : iop_ok i -> (io_va i <> None -> csrs_ok (io_csr i)) -> start_ok t rdy rs -> icycle i t (comb0 t rdy rs) = (b', os) ->
  cyc rdy (io_flush i) rs (match io_va i with Some _ => Some (io_csr i) | None => None end) t b' /\
  (forall va r, io_va i = Some va -> nth_error os 0 = Some r -> answer_ok Fetch va (io_csr i) r).
Proof.
  intros OK CK S E. pose proof S as (T & SR). pose proof (comb0_bok _ _ _ S) as B0. unfold icycle in E. cbv zeta in E. destruct (io_va i) as [va|] eqn:V.
  - destruct (OK ltac:(rewrite V; discriminate)) as [F C]. rewrite F, C in *. cbv iota in E. unfold tlb_translate in E. injection E as <- <-.
    destruct (run_top t (comb0 t rdy rs) (io_csr i) [port_of t (io_csr i) (0, Some va)] _ T B0 eq_refl (Forall_cons _ (port_of_ok t (io_csr i) 0 Fetch (Some va) T (CK ltac:(discriminate)) (or_introl (conj eq_refl eq_refl))) (Forall_nil _)) eq_refl) as (R1 & R2 & R3 & R4 & R5 & R6).
    split; [split; [exact R1|exact R3|eapply ran_moved; eauto|]|].
    + intros A. destruct (R2 A) as [X|X]; [left; exact X|right; eauto].
    + intros va' r EV N. injection EV as <-. exact (R6 0%nat _ Fetch r eq_refl eq_refl (or_introl (conj eq_refl eq_refl)) N).
  - injection E as <- <-. split; [|intros ? ? X; discriminate X]. set (b := if io_flush i then tlb_flush 1 t (comb0 t rdy rs) else comb0 t rdy rs).
    assert (BE : b_req b = None /\ b_flush b = io_flush i /\ bok b /\ (io_flush i = true -> b_kill b = true /\ b_walk b = wregs0)).
    { unfold b. destruct (io_flush i).
      - rewrite flush_shape. split; [reflexivity|]. split; [reflexivity|]. split; [|split; reflexivity]. split; [intros X; discriminate X|intros ? X; discriminate X].
      - split; [reflexivity|]. split; [reflexivity|]. split; [exact B0|discriminate]. }
    destruct BE as (B1 & B2 & B3 & B4). destruct (io_cancel i).
    + rewrite cancel_shape. destruct (consume true t b) as [b1 got] eqn:CE. destruct (consume_ok true t b b1 got T B3 CE) as (C1 & C2 & C3 & C4 & C5 & C6 & C7). cbn [fst].
      split; cbn [b_refill b_flush b_walk]; [exact C1|congruence| |discriminate]. apply md_kill; cbn [b_kill b_req b_walk]; [reflexivity|congruence|reflexivity].
    + split; [apply B3|exact B2| |]; destruct (io_flush i) eqn:FL.
      * destruct (B4 eq_refl) as [B5 B6]. apply md_kill; [exact B5|exact B1|rewrite B6; reflexivity].
      * apply (cy_moved _ _ _ _ _ _ (idle_cyc t rdy rs)).
      * destruct (B4 eq_refl) as [B5 B6]. rewrite B6. discriminate.
      * intros A. left. auto.
Qed.

Lemma dcycle_ok d t rdy rs b' os : (forall c l s, d = DPorts c l s -> csrs_ok c) -> start_ok t rdy rs -> dcycle d t (comb0 t rdy rs) = (b', os) ->
  cyc rdy (match d with DFlush => true | _ => false end) rs (match d with DPorts c _ _ => Some c | _ => None end) t b' /\
  (forall c lds sts, d = DPorts c lds sts ->
    (forall n va r, nth_error lds n = Some (Some va) -> nth_error os n = Some r -> answer_ok Read va c r) /\
    (forall n va r, nth_error sts n = Some (Some va) -> nth_error os (length lds + n) = Some r -> answer_ok Write va c r)).
Proof.
  intros CK S E. pose proof S as (T & SR). pose proof (comb0_bok _ _ _ S) as B0. destruct d as [| |c lds sts]; cbn [dcycle] in E.
  - injection E as <- <-. split; [|discriminate]. rewrite flush_shape. split; cbn [b_refill b_flush b_walk]; try discriminate; auto. apply md_kill; reflexivity.
  - injection E as <- <-. split; [|discriminate]. rewrite cancel_shape. destruct (consume true t (comb0 t rdy rs)) as [b1 got] eqn:CE. destruct (consume_ok true t _ b1 got T B0 CE) as (C1 & C2 & C3 & C4 & C5 & C6 & C7). cbn [fst].
    split; cbn [b_refill b_flush b_walk]; [exact C1|exact C3| |discriminate]. apply md_kill; cbn [b_kill b_req b_walk]; [reflexivity|exact C4|reflexivity].
  - specialize (CK c lds sts eq_refl). unfold tlb_ports in E. destruct (consume false t (comb0 t rdy rs)) as [b1 got] eqn:CE. destruct (consume_ok false t _ b1 got T B0 CE) as (C1 & C2 & C3 & C4 & C5 & C6 & C7).
    set (b2 := if got then mkcb wregs0 (b_refill b1) (b_flush b1) (b_ready b1) (b_resp b1) (b_req b1) (b_take b1) (b_kill b1) else b1) in *. set (ps := map (port_of t c) (map (pair 1) lds ++ map (pair 2) sts)) in *.
    injection E as <- <-.
    assert (PS : Forall (port_ok c) ps).
    { unfold ps. rewrite Forall_map. apply Forall_app. split; rewrite Forall_map; apply Forall_forall; intros v _; [apply port_of_ok with (k := Read)|apply port_of_ok with (k := Write)]; auto; [right; left|right; right]; auto. }
    assert (BB : bok b2 /\ b_req b2 = None /\ b_flush b2 = false /\ b_kill b2 = false).
    { unfold b2. destruct got; [destruct C7 as (C7 & C8 & C9)|subst b1; split; [exact B0|]; repeat split; auto].
      cbn [b_req b_ready b_walk b_flush b_kill]. split; [split; cbn [b_refill b_resp b_walk]; [exact C1|rewrite C7; intros ? X; discriminate X]|]. repeat split; auto. }
    destruct BB as (BB1 & BB2 & BB4 & BB5).
    destruct (run_top t b2 c ps _ T BB1 BB2 PS eq_refl) as (R1 & R2 & R3 & R4 & R5 & R6). set (b' := apply_top _ b2) in *.
    split; [split; [exact R1|congruence| |]|].
    + destruct got; [|subst b1; unfold b2 in *; eapply ran_moved; eauto; congruence]. destruct C7 as (C7 & C8 & C9). unfold b2 in R5. destruct R5 as [X1 X2 X3|X0 X1 X2 X3|X1 X2 X3 X4]; cbn [b_ready b_walk b_take] in *.
      * apply md_req; auto; [rewrite <- X1, C6; reflexivity|congruence].
      * apply md_take; auto. congruence.
      * apply md_take; auto; congruence.
    + intros A. destruct (R2 A) as [[X1 X2]|X]; [|right; eauto]. left. unfold b2 in X1, X2. destruct got; [discriminate X1|]. rewrite C2 in *. auto.
    + intros c' l' s' EQ. injection EQ as <- <- <-. split; intros n va r N1 N2.
      * refine (R6 n (port_of t c (1, Some va)) Read r _ eq_refl (or_intror (or_introl (conj eq_refl eq_refl))) N2). unfold ps. apply map_nth_error. rewrite nth_error_app1 by (rewrite map_length; apply nth_error_Some; congruence). apply map_nth_error. exact N1.
      * refine (R6 (length lds + n)%nat (port_of t c (2, Some va)) Write r _ eq_refl (or_intror (or_intror (conj eq_refl eq_refl))) N2). unfold ps. apply map_nth_error. rewrite nth_error_app2 by (rewrite map_length; lia). rewrite map_length. replace (length lds + n - length lds)%nat with n by lia. apply map_nth_error. exact N1.
Qed.

Lemma seq_tab rdy fl rs cs t b : tab_ok t -> cyc rdy fl rs cs t b -> tab_ok (tseq t b).
Proof.
  intros (F & L & R) [C1 C2 C3 C4]. unfold tseq. rewrite C2. destruct fl; [|destruct (f_valid (b_refill b)) eqn:V].
  - split; [|split; [reflexivity|unfold ENTRIES; cbn; lia]]. apply Forall_forall. intros e I. apply repeat_spec in I. subst e. intros X. discriminate X.
  - destruct (C1 V) as (G & S & N). split; cbn [t_tab t_repl]; [|split; [rewrite upd_length; exact L|exact N]]. apply Forall_forall. intros e I. apply In_nth with (d := entry0) in I. destruct I as (n & NL & <-). rewrite upd_length in NL. rewrite Forall_forall in F.
    destruct (Nat.eq_dec n (Z.to_nat (f_slot (b_refill b)))) as [->|D]; [rewrite nth_upd_eq by lia; exact G|rewrite nth_upd_ne by auto; apply F, nth_In; exact NL].
  - split; auto.
Qed.
End lane.
