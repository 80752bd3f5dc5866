(** The store queue of one cycle, at the comparison of the loads and at its end. *)
From Verif Require Import Base BaseLemmas Ring MemModel MemSpec MemProofs LsuModel LsuStq LsuQ LsuRun LsuSpec LsuHist LsuCycle LvStab.
Local Open Scope nat_scope.
Ltac Zify.zify_post_hook ::= Z.div_mod_to_equations.

(** The unit right before comb_stlf. *)
Definition checkpt (cur : lsu) (i : lin) : lsu :=
  let l := Lsu (comb_stq_commit (i_commit i) (i_flush i) (st cur)) (ld cur) (un cur) (lr cur) in
  let l := comb_mmio_in (i_mmio i) (un cur) l in
  let l := Lsu (comb_dcache2lsu_stq (i_ds i) (i_fill i) (st l)) (comb_dcache2lsu_ldq (i_dl i) (i_fill i) (ld l)) (un l) (lr l) in
  let l := fst (comb_lsu2exe (lr cur) l) in
  let s := fold_left handle_store_addr (i_sta i) (fold_left handle_store_data (i_std i) (st l)) in
  let '(d, r) := comb_tlb_in_ldq (i_ml i) (fold_left handle_load_req (i_ldr i) (ld l)) (lr l) in
  let '(s, r) := comb_tlb_in_stq (i_ms i) s r in Lsu s d (un l) r.
(** The data of a store comes once. *)
Definition once (cur : stqs) (i : lin) : Prop := NoDup (map sd_idx (i_std i)) /\ forall r, In r (i_std i) -> s_dv (sq cur (sd_idx r)) = false.
Definition keepV (s s' : stqs) : Prop := forall k, s_dv (sq s k) = false -> s_dv (sq s' k) = false.

Lemma keepV_refl s : keepV s s. Proof. now intros k. Qed.
Lemma keepV_trans a b c : keepV a b -> keepV b c -> keepV a c. Proof. intros A B k K. apply B, A, K. Qed.
Lemma keepV_upd s i f : s_dv (f (sq s i)) = s_dv (sq s i) -> keepV s (upd_s i f s).
Proof. intros H k K. cbn [upd_s set_sq sq]. unfold fupd. destruct (Nat.eqb_spec k i) as [->|]; [congruence|exact K]. Qed.
Lemma keepV_sq s s' : sq s' = sq s -> keepV s s'. Proof. intros E k K. now rewrite E. Qed.
Lemma commits_keepV cs fl s : keepV s (comb_stq_commit cs fl s).
Proof.
  apply (fold_left_inv (fun x => keepV s x)); [|apply keepV_refl]. intros a b _ P. apply (keepV_trans _ _ _ P). unfold commit_one. destruct (_ && _); [|now apply keepV_sq].
  eapply keepV_trans; [|apply keepV_sq; reflexivity]. apply keepV_upd. destruct fl; [reflexivity|]. destruct (_ && _); reflexivity.
Qed.
Lemma mmio_in_keepV resp cur l : keepV (st l) (st (comb_mmio_in resp cur l)).
Proof.
  unfold comb_mmio_in. destruct resp; [|apply keepV_refl]. destruct (negb (u_v cur)); [apply keepV_refl|].
  destruct (u_ld cur); cbn [st]; [destruct (_ <? _); cbn; apply keepV_refl|]. destruct (is_s _ _ _); [|apply keepV_refl]. now apply keepV_upd.
Qed.
Lemma wake_stores_keepV addr ks : forall n s, keepV s (wake_stores addr ks n s).
Proof.
  induction ks as [|k t IH]; intros n s; cbn [wake_stores]; [apply keepV_refl|]. assert (W : keepV s (upd_s k (set_s_wait 0) s)) by now apply keepV_upd.
  destruct (_ || _); [apply IH|]. destruct (s_rep (sq s k)); try apply IH; [destruct (line_match _ _)|destruct (_ <? _)]; try apply IH; eapply keepV_trans; try exact W; apply IH.
Qed.
Lemma dcache_keepV rs fill s : keepV s (comb_dcache2lsu_stq rs fill s).
Proof.
  unfold comb_dcache2lsu_stq. assert (F : keepV s (fold_left store_resp rs s)).
  { apply (fold_left_inv (fun x => keepV s x)); [|apply keepV_refl]. intros a r _ P. apply (keepV_trans _ _ _ P). unfold store_resp. destruct (_ <=? _); [now apply keepV_sq|]. destruct (is_s _ _ _); [|apply keepV_refl]. destruct (ds_rep r); now apply keepV_upd. }
  destruct fill; [|exact F]. eapply keepV_trans; [exact F|apply wake_stores_keepV].
Qed.
Lemma lsu2exe_keepV cur l : keepV (st l) (st (fst (comb_lsu2exe cur l))).
Proof.
  unfold comb_lsu2exe. cbn [fst st]. eapply keepV_trans; [|apply keepV_sq; reflexivity]. set (x0 := LX (st l) (lr l) 0 0 []). change (st l) with (x_s x0) at 1.
  apply (fold_left_inv (fun x => keepV (x_s x0) (x_s x))); [|apply keepV_refl]. intros a k _ P. apply (keepV_trans _ _ _ P). unfold sta_wb. destruct (negb (qv _ k)); [apply keepV_refl|]. destruct (negb _); [apply keepV_refl|].
  destruct (s_lrsc _); (destruct (_ <=? _); [apply keepV_refl|]); cbn [x_s]; (eapply keepV_trans; [|apply keepV_sq; reflexivity]); apply keepV_upd; [destruct (s_pf _)|]; reflexivity.
Qed.

Theorem stores g cur i n : GI g (st cur) -> senv (g_b g) (st cur) i n -> once (st cur) i -> let '(l', o) := lsu_cycle cur i in
  exists r, let hist := g_hist g ++ newly (st cur) i n in let s7 := st (checkpt cur i) in let b := g_b g in
    (GI (gstep (st cur) i n o g r) (st l') /\ r + sn (st l') = length (squash i (scc (st cur) + taken (st cur) n) (g_ord g ++ map galloc (i_sa i))) /\
    r <= scc (st cur) + taken (st cur) n /\ scc (st l') = scc (st cur) + taken (st cur) n - r) /\
    (SInv b s7 /\ sn s7 = sn (st cur) /\ scc s7 = scc (st cur) + taken (st cur) n /\ (forall k, k < scc s7 -> nth (b + k) hist h0 = hof (ent s7 k)) /\ stab (i_flush i) (st cur) s7) /\
    (forall k, k < sn (st cur) -> known (ent s7 k) = true -> stabe (i_flush i) (ent s7 k) (sq (st l') ((b + k) mod STQ_SIZE))) /\
    (forall k, k < scc (st cur) + taken (st cur) n -> nth (b + k) hist h0 = hof (sq (st l') ((b + k) mod STQ_SIZE))).
Proof.
  intros [V OR (acc & H & LG)] [N1 CM PF STD STA ND SA FL MO OLD CLR] [ON1 ON2]. set (b := g_b g) in *. destruct (lsu_cycle cur i) as [l' o] eqn:LC. assert (CP : exists cp, cp = checkpt cur i) by eauto. destruct CP as [cp CP]. rewrite <- CP. unfold checkpt in CP. unfold lsu_cycle in LC. cbv zeta in LC, CP. rewrite CM in LC, CP.
  pose proof (v_C _ _ V) as (C1 & C2 & C3). unfold STQ_SIZE in C2.
  destruct (commits_spec b (i_flush i) acc (g_pend g) n (st cur) (g_hist g) V H N1 PF) as (V1 & H1 & O1 & SN1 & S1 & SH1 & E1 & _ & _).
  pose proof (commit_keepA (i_flush i) (cslots (st cur) n) (st cur)) as K1.
  set (s1 := comb_stq_commit (cslots (st cur) n) (i_flush i) (st cur)) in *. set (t := taken (st cur) n) in *. fold (newly (st cur) i n) in H1. set (hist := g_hist g ++ newly (st cur) i n) in *.
  assert (TN : t <= n) by apply lead_le.
  pose proof (commits_stab (cslots (st cur) n) (i_flush i) (st cur)) as B1. fold s1 in B1. set (l1 := Lsu s1 (ld cur) (un cur) (lr cur)) in *.
  (* mmio_in *)
  pose proof (mmio_in_shape (i_mmio i) (un cur) l1) as SH2. pose proof (SInv_shape b _ _ SH2 (mmio_in_good (i_mmio i) (un cur) l1 (v_good _ _ V1)) V1) as V2.
  pose proof (HI_mmio b hist acc (g_pend g) (i_mmio i) (un cur) l1 V1 H1) as H2. pose proof (mmio_in_keepA (i_mmio i) (un cur) l1) as K2.
  pose proof (mmio_in_stab (i_flush i) (i_mmio i) (un cur) l1) as B2. set (l2 := comb_mmio_in (i_mmio i) (un cur) l1) in *. change (st l1) with s1 in SH2, K2.
  (* cache answers *)
  assert (LG2 : g_log g = map (reqat hist) acc).
  { unfold hist. rewrite reqat_app; [exact LG|]. intros p P. destruct (hi_in _ _ _ _ _ H p P) as [X _]. rewrite (hi_len _ _ _ _ _ H). exact X. }
  destruct (HI_dcache b hist (i_ds i) (i_fill i) acc (g_pend g) (g_log g) (st l2) V2 H2 LG2) as (acc3 & H3 & LG3).
  pose proof (dcache2lsu_stq_shape (i_ds i) (i_fill i) (st l2)) as SH3. pose proof (SInv_shape b _ _ SH3 (dcache2lsu_stq_good (i_ds i) (i_fill i) (st l2) (v_good _ _ V2)) V2) as V3.
  pose proof (dcache_keepA (i_ds i) (i_fill i) (st l2)) as K3. set (al := fold_left answer (i_ds i) (g_pend g, g_log g)) in *.
  pose proof (dcache_stab (i_flush i) (i_ds i) (i_fill i) (st l2)) as B3. set (s3 := comb_dcache2lsu_stq (i_ds i) (i_fill i) (st l2)) in *.
  set (l3 := Lsu s3 (comb_dcache2lsu_ldq (i_dl i) (i_fill i) (ld l2)) (un l2) (lr l2)) in *.
  (* write-back *)
  pose proof (lsu2exe_shape (lr cur) l3) as SH4. pose proof (SInv_shape b _ _ SH4 (lsu2exe_good (lr cur) l3 (v_good _ _ V3)) V3) as V4.
  pose proof (HI_calm b hist acc3 (fst al) _ _ (v_C _ _ V3) (sh_ptrs _ _ SH4) (lsu2exe_calm (lr cur) l3) H3) as H4. pose proof (lsu2exe_keepA (lr cur) l3) as K4.
  pose proof (lsu2exe_stab (i_flush i) (lr cur) l3) as B4. assert (KV : keepV (st cur) (st (fst (comb_lsu2exe (lr cur) l3)))) by (eapply keepV_trans; [apply commits_keepV|]; eapply keepV_trans; [apply (mmio_in_keepV (i_mmio i) (un cur) l1)|]; eapply keepV_trans; [apply (dcache_keepV (i_ds i) (i_fill i) (st l2))|]; apply (lsu2exe_keepV (lr cur) l3)).
  destruct (comb_lsu2exe (lr cur) l3) as [l4 wbs]. cbn [fst] in SH4, V4, H4, K4, B4, KV, CP. change (st l3) with s3 in SH4, K4.
  assert (SH14 : shape s1 (st l4)) by (eapply shape_trans; [exact SH2|eapply shape_trans; [exact SH3|exact SH4]]).
  pose proof (sh_ptrs _ _ SH14) as (P1 & P2 & P3 & P4 & P5).
  (* execution requests *)
  destruct (store_datas b (st cur) i n (st l4) hist acc3 (fst al) V4 H4) as (V5 & H5 & SH5 & K5); [right; split; congruence|lia|exact STD|].
  pose proof (store_datas_stab (i_flush i) (i_std i) (st l4) ON1 (fun r R => KV _ (ON2 r R))) as B5. set (s5 := fold_left handle_store_data (i_std i) (st l4)) in *.
  assert (KA : keepA (st cur) s5).
  { eapply keepA_trans; [exact K1|]. eapply keepA_trans; [exact K2|]. eapply keepA_trans; [exact K3|]. eapply keepA_trans; [exact K4|exact K5]. }
  destruct (store_addrs b (i_sta i) hist acc3 (fst al) s5 V5 H5 ND) as (V6 & H6 & SH6).
  { intros r R _. destruct (STA r R) as (k & K & X & Y). apply KA. rewrite X. exact Y. }
  assert (B6 : stab (i_flush i) s5 (fold_left handle_store_addr (i_sta i) s5)).
  { apply store_addrs_stab; [exact ND|]. intros r R. destruct (STA r R) as (k & K & X & Y). apply KA. rewrite X. exact Y. }
  set (s6 := fold_left handle_store_addr (i_sta i) s5) in *.
  destruct (comb_tlb_in_ldq (i_ml i) (fold_left handle_load_req (i_ldr i) (ld l4)) (lr l4)) as [d7 r7].
  pose proof (tlb_in_stq_shape (i_ms i) s6 r7) as SH7. pose proof (SInv_shape b _ _ SH7 (tlb_in_stq_good (i_ms i) s6 r7 (v_good _ _ V6)) V6) as V7.
  pose proof (HI_calm b hist acc3 (fst al) _ _ (v_C _ _ V6) (sh_ptrs _ _ SH7) (tlb_in_stq_calm (i_ms i) s6 r7) H6) as H7.
  pose proof (tlb_in_stq_stab (i_flush i) (i_ms i) s6 r7) as B7. destruct (comb_tlb_in_stq (i_ms i) s6 r7) as [s7 r7']. cbn [fst] in SH7, V7, H7, B7. assert (S7 : st cp = s7) by (rewrite CP; reflexivity). rewrite S7.
  assert (B17 : stab (i_flush i) (st cur) s7) by (eapply stab_trans; [exact B1|]; eapply stab_trans; [exact B2|]; eapply stab_trans; [exact B3|]; eapply stab_trans; [exact B4|]; eapply stab_trans; [exact B5|]; eapply stab_trans; [exact B6|exact B7]).
  assert (SH17 : shape s1 s7) by (eapply shape_trans; [exact SH14|eapply shape_trans; [exact SH5|eapply shape_trans; [exact SH6|exact SH7]]]).
  clear P1 P2 P3 P4 P5. pose proof (sh_ptrs _ _ SH17) as (P1 & P2 & P3 & P4 & P5).
  set (l8 := comb_stlf (i_head i) (Lsu s7 d7 (un l4) r7')) in *. assert (ST8 : st l8 = s7) by apply stlf_st. rewrite ST8 in LC.
  (* allocation *)
  destruct (allocs_spec b (i_sa i) s7 V7) as (V9 & S9 & SH9 & SN9 & O9 & E9 & _); [rewrite P5, SN1; exact SA| |].
  { intros j r J. rewrite (FL j r J), P5, SN1. reflexivity. }
  set (s9 := fold_left alloc_stq (i_sa i) s7) in *.
  assert (H9 : HI b hist acc3 (fst al) s9).
  { apply (HI_ents b hist acc3 (fst al) s7); auto. intros k K. apply E9. pose proof (v_C _ _ V7) as (D1 & _). lia. }
  assert (O17 : order s7 = order (st cur)) by (rewrite <- O1; apply order_shape; [exact (sh_ptrs _ _ SH17)|exact (sh_ent _ _ SH17)]).
  set (l9 := Lsu s9 (fold_left alloc_ldq (i_la i) (ld l8)) (un l8) (lr l8)) in *.
  (* squash *)
  assert (BR : forall k, k < sn (st cur) -> s_brm (ent s9 k) = s_brm (ent (st cur) k)).
  { intros k K. rewrite E9 by lia. pose proof (f_equal (fun l => nth k l (key stqe0)) O17) as Y. cbv beta in Y. rewrite !order_nth in Y by lia. unfold key in Y. congruence. }
  destruct (flush_spec b i cur l9 hist acc3 (fst al) (scc (st cur) + t)) as (V10 & H10 & O10 & S10 & SH10 & _ & SN10); change (st l9) with s9; auto.
  { congruence. }
  { intros M. rewrite O9, O17. now apply MO. }
  { intros M k K. rewrite BR; [apply OLD; [exact M|]|]; lia. }
  { intros k K1' K2'. assert (X : exists j r, k = sn (st cur) + j /\ nth_error (i_sa i) j = Some r /\ s_brm (ent s9 k) = sl_brm r).
    { assert (JL : k - sn (st cur) < length (i_sa i)) by lia. apply nth_error_Some in JL. destruct (nth_error (i_sa i) (k - sn (st cur))) as [r|] eqn:NE; [|congruence].
      exists (k - sn (st cur)), r. split; [lia|]. split; [exact NE|]. pose proof (order_nth s9 k (key stqe0) K2') as Y. rewrite O9, app_nth2 in Y by (rewrite order_len; lia). rewrite order_len in Y.
      rewrite P5, SN1 in Y. rewrite (nth_indep _ _ (galloc r)) in Y by (rewrite map_length; lia). rewrite map_nth in Y. rewrite (nth_error_nth _ _ r NE) in Y.
      unfold key, galloc in Y. congruence. }
    destruct X as (j & r & _ & NE & ->). apply CLR. eapply nth_error_In. exact NE. }
  { lia. }
  change (st l9) with s9 in O10, S10, SH10, SN10. pose proof (flush_stab (i_flush i) i cur l9) as B10. set (l10 := comb_flush i cur l9) in *. destruct (comb_lsu2dcache_ldq (ld cur) (ld l10)) as [d11 dlq].
  (* issue *)
  destruct (comb_lsu2dcache_stq (st cur) (st l10) (un l10)) as [[s11 u11] dsq] eqn:IS.
  assert (B11 : stab (i_flush i) (st l10) s11) by (pose proof (issue_stab (i_flush i) (st cur) (seq 0 (Nat.min (scc (st l10)) WINDOW)) 0 (st l10) (un l10) []) as X; unfold comb_lsu2dcache_stq in IS; rewrite IS in X; exact X).
  pose proof (HI_issue b hist acc3 (fst al) _ _ _ _ _ _ IS V10 H10) as H11.
  destruct (lsu2dcache_stq_spec _ _ _ _ _ _ IS (v_good _ _ V10) (v_C _ _ V10) (v_J _ _ V10)) as (ISS & _ & _). pose proof (SInv_iss b _ _ ISS V10) as V11.
  assert (O11 : order s11 = order (st l10)) by (apply order_shape; [exact (is_p _ _ ISS)|exact (is_e _ _ ISS)]).
  assert (S11 : scc s11 = scc (st l10)) by (destruct (is_p _ _ ISS) as (_ & _ & _ & X & _); exact X).
  (* retire *)
  injection LC as <- <-. cbn [st o_ds gstep]. unfold comb_check. set (m := Nat.min (Nat.min (scc s11) (sn s11)) WINDOW).
  destruct (retire_spec m b s11 V11 ltac:(unfold m; lia)) as (r & R & V12 & O12 & S12 & Q12 & SN12 & _ & _ & _ & DN & _).
  assert (RS : r <= scc s11) by (unfold m in R; lia).
  assert (SN11 : sn s11 = length (squash i (scc (st cur) + t) (g_ord g ++ map galloc (i_sa i)))) by (rewrite <- (order_len s11), O11, O10, O9, O17, OR; reflexivity).
  pose proof (v_C _ _ V11) as (CC1 & _).
  assert (SHE : forall k, (b + k) mod STQ_SIZE = (sh (st cur) + k) mod STQ_SIZE) by (intros k; rewrite (v_sh _ _ V); unfold STQ_SIZE; lia).
  exists r. cbv zeta. fold t hist. split; [|split; [|split]].
  2:{ split; [exact V7|]. split; [lia|]. split; [lia|]. split; [exact (hi_at _ _ _ _ _ H7)|exact B17]. }
  2:{ intros k K KN. rewrite Q12. assert (EK : ent s9 k = ent s7 k) by (apply E9; lia). apply (stabe_trans _ _ (sq (st l10) ((sh s9 + k) mod STQ_SIZE))).
      - rewrite <- EK. apply B10. change (st l9) with s9. change (known (ent s9 k) = true). now rewrite EK.
      - replace ((b + k) mod STQ_SIZE) with ((sh s9 + k) mod STQ_SIZE) by (rewrite SHE; do 2 f_equal; congruence). apply B11.
        destruct (B10 ((sh s9 + k) mod STQ_SIZE)) as [X _ _ _ _ _ _ _]; [|exact X]. change (known (ent s9 k) = true). now rewrite EK. }
  2:{ intros k K. rewrite Q12, (hi_at _ _ _ _ _ H11 k) by lia. unfold ent. do 2 f_equal. rewrite (v_sh _ _ V11). unfold STQ_SIZE. lia. }
  split; [|split; [fold t; lia|split; [fold t; lia|rewrite S12; fold t; lia]]]. constructor; cbn [g_b g_ord g_hist g_pend g_log gstep o_ds].
  - exact V12.
  - rewrite O12, O11, O10, O9, O17, OR. reflexivity.
  - exists acc3. fold al hist. split; [|exact LG3]. apply HI_retire; auto. exact (v_sh _ _ V12).
Qed.

