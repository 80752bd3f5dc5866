(** C83: an accepted request is withdrawn. *)
From Verif Require Import Base MemModel MemSpec PeriphModel LsuModel PaxModel PaxSpec PaxProofs PbModel DcModel IcModel.
Local Open Scope Z_scope.
#[local] Opaque Z.pow Z.land Z.lor Z.lxor Z.shiftl Z.shiftr Z.ldiff read_load.

(** *** The masters that withdraw *)
(** The miss registers: no entry the bus reports accepted is presented again. *)
Theorem c83_mshr_withdraws s id resp a : me_valid (ms_ent s id) = true -> (id < MSHRS)%nat -> ms_axi_req (snd (ms_inputs_axi (Some id) resp s)) <> Some (id, a).
Proof.
  intros V L H. unfold ms_axi_req in H.
  destruct (find _ (seq 0 MSHRS)) as [i|] eqn:F; [|discriminate H]. apply find_some in F. destruct F as [_ F]. injection H as H _. subst i.
  apply andb_prop in F. destruct F as [_ F]. apply negb_true_iff in F. revert F. unfold ms_inputs_axi. cbn zeta. assert (Nat.ltb id MSHRS = true) as -> by (apply Nat.ltb_lt; exact L). rewrite V. cbn [andb].
  destruct (me_issued (ms_ent s id)) eqn:EI; cbn [negb].
  - destruct (ms_hold s); [cbn [snd]; congruence|]. destruct resp as [[j d]|]; [|cbn [snd]; congruence]. destruct (_ && _); cbn [snd ms_ent]; congruence.
  - cbn [ms_hold ms_ent]. destruct (ms_hold s); [cbn [snd ms_ent]; unfold fupd; rewrite Nat.eqb_refl; cbn [me_issued]; discriminate|].
    destruct resp as [[j d]|]; [|cbn [snd ms_ent]; unfold fupd; rewrite Nat.eqb_refl; cbn [me_issued]; discriminate].
    destruct (_ && _); cbn [snd ms_ent]; unfold fupd; rewrite Nat.eqb_refl; cbn [me_issued]; discriminate.
Qed.
(** The write buffer: after an acceptance it is silent until the answer. *)
Theorem c83_wb_withdraws s : wb_axi_req (wb_inputs_axi true false s) = None.
Proof. reflexivity. Qed.
(** The instruction cache: the request on its wires is not one just accepted. *)
Lemma core_mem i r k a : o_mem (snd (comb_core i r)) = Some (k, a) -> accepts i k = false.
Proof.
  assert (E : e_mem (eval_fsm i r) = Some (k, a) -> accepts i k = false).
  { unfold eval_fsm. cbn [e_mem]. unfold eval0. destruct (r_st r).
    - unfold ev_idle. repeat match goal with |- context[match ?x with _ => _ end] => destruct x end; discriminate.
    - unfold ev_swap. destruct (probe_step i r (pre_clean i r)) as [[[[pd ph] pl] pq] w]. destruct (i_kill i).
      + repeat match goal with |- context[if ?x then mkev _ _ _ _ _ _ _ _ _ _ else _] => destruct x end; discriminate.
      + destruct (negb (r_busy r)); [destruct (accepts i (r_tx r)) eqn:A|].
        * unfold ev_taken. destruct (active i r); [|discriminate]. destruct pd; [|discriminate]. destruct (finish_refill _ _ _ _ _) as [[? ?] ?]. discriminate.
        * cbn [e_mem]. intros H. inversion H; subst. exact A.
        * unfold ev_taken. destruct (active i r); [|discriminate]. destruct pd; [|discriminate]. destruct (finish_refill _ _ _ _ _) as [[? ?] ?]. discriminate.
    - unfold ev_wait. destruct (i_kill i); [discriminate|]. destruct (probe_step i r (pre_clean i r)) as [[[[pd ph] pl] pq] w]. destruct pd; [|discriminate]. destruct (finish_refill _ _ _ _ _) as [[? ?] ?]. discriminate.
    - intros H. unfold ev_drain in H. destruct (i_rsp i); cbn zeta in H; cbn [e_mem] in H; discriminate H.
    - intros H. unfold ev_cancel in H. cbn zeta in H. cbn [e_mem] in H. discriminate H. }
  intros H. apply E. revert H. unfold comb_core. destruct (i_kill i); [exact (fun H => H)|]. destruct (e_fast (eval_fsm i r)); exact (fun H => H).
Qed.
Lemma comb_mem c t r k a : o_mem (snd (fst (ic_comb c t r))) = Some (k, a) -> c_acc c <> Some k.
Proof.
  unfold ic_comb. cbn zeta. destruct (comb_core _ r) as [w1 o1]. destruct (comb_core (with_tr _ _) r) as [w2 o2].
  match goal with |- context[comb_core (with_data ?i ?d) r] => set (i3 := with_data i d); assert (A : i_acc i3 = c_acc c) end.
  { subst i3. unfold with_data, with_tr. cbn [i_acc]. destruct (if c_refetch c then None else _) as [[| |]|]; reflexivity. }
  clearbody i3. pose proof (core_mem i3 r k a) as M. destruct (comb_core i3 r) as [w o]. cbn [fst snd] in *. intros H E. specialize (M H). unfold accepts in M. rewrite A, E, Nat.eqb_refl in M. discriminate M.
Qed.
Theorem c83_icache_withdraws c second s k a : o_mem (snd (ic_cycle c second s)) = Some (k, a) -> c_acc c <> Some k.
Proof.
  unfold ic_cycle, ic_call. pose proof (comb_mem c (ic_t s) (ic_r s) k a) as M1. destruct (ic_comb c (ic_t s) (ic_r s)) as [[w o] tr]. cbn [fst snd] in M1.
  destruct second; [|exact M1]. cbn [ic_t ic_r]. match goal with |- context[ic_comb (inval_inp c) ?t w] => pose proof (comb_mem (inval_inp c) t w k a) as M2; destruct (ic_comb (inval_inp c) t w) as [[w' o'] tr'] end.
  exact M2.
Qed.

(** In the state in which it waits to hear whether a dropped request was accepted
    the instruction cache is ready although it sees no response: for it the proviso
    of c82_early_once about interconnects that go by their own record is needed. *)
Theorem c82_icache_eager i r : r_st r = CANCEL_WAIT -> o_rrdy (snd (comb_core i r)) = true.
Proof. intros H. unfold comb_core, eval_fsm, eval0. rewrite H. destruct (i_kill i); reflexivity. Qed.

(** *** The MMIO bridge does not *)
(** It keeps the request on the wires in the cycle it learns of the acceptance. *)
(** Two acceptances in a row: a store performed twice. *)
Definition ok_any (_ : pax) (_ : bus) (_ : bin) : Prop := True.
Definition dev0 : periph := periph_init pmem_init.
Definition bi (r : option mmioreq) (t : bool) (v : Z) (sr sw : bool) : bin := BI dev0 7 r t v sr sw.
Fixpoint b_all (s : pax) (h : hist) (b : bus) (l : list bin) : pax * hist * bus :=
  match l with [] => (s, h, b) | i :: t => b_all (p_step s (b_pin b i)) (h_step s (b_pin b i) h) (b_step s b i) t end.
(** Checking a run. *)
Definition w32b (x : Z) : bool := (0 <=? x) && (x <? 4294967296).
Definition reqb (r : option mmioreq) : bool :=
  match r with None => true | Some q => w32b (q_maddr q) && w32b (q_mdata q) && existsb (Z.eqb (q_mf3 q)) (if q_wen q then [0; 1; 2] else [0; 1; 2; 4; 5]) end.
Fixpoint chk (okb : pax -> bus -> bin -> bool) (s : pax) (b : bus) (l : list bin) : bool :=
  match l with
  | [] => true
  | i :: t => w32b (hd 0 (b_rq b)) && reqb (n_req i) && w32b (n_val i) && okb s b i && chk okb (p_step s (b_pin b i)) (b_step s b i) t
  end.
Lemma w32b_ok x : w32b x = true -> is_w 32 x.
Proof. unfold w32b, is_w. change (2 ^ 32) with 4294967296. intros H. apply andb_prop in H. destruct H as [A B]. apply Z.leb_le in A. apply Z.ltb_lt in B. lia. Qed.
Lemma reqb_ok r q : reqb r = true -> r = Some q -> req_ok q.
Proof.
  intros H E. subst r. unfold reqb in H. apply andb_prop in H. destruct H as [H F]. apply andb_prop in H. destruct H as [A D]. split; [apply w32b_ok; exact A|]. split; [apply w32b_ok; exact D|].
  apply existsb_exists in F. destruct F as [x [I X]]. apply Z.eqb_eq in X. subst x. destruct (q_wen q); exact I.
Qed.
Lemma b_all_reach (ok : pax -> bus -> bin -> Prop) okb (OK : forall s b i, okb s b i = true -> ok s b i) l : forall s h b, breach ok s h b -> chk okb s b l = true ->
  let '(s', h', b') := b_all s h b l in breach ok s' h' b'.
Proof.
  induction l as [|i t IH]; intros s h b R G; [exact R|]. cbn [chk] in G. apply andb_prop in G. destruct G as [G GT]. apply andb_prop in G. destruct G as [G GO]. apply andb_prop in G. destruct G as [G GV]. apply andb_prop in G. destruct G as [GW GQ].
  cbn [b_all]. apply IH; [|exact GT]. apply brS; [exact R| |apply w32b_ok; exact GV|apply OK; exact GO]. split; [apply w32b_ok; exact GW|intros q Hq; exact (reqb_ok _ _ GQ Hq)].
Qed.
Lemma run_reach (ok : pax -> bus -> bin -> Prop) okb l (OK : forall s b i, okb s b i = true -> ok s b i) : chk okb pax0 bus0 l = true ->
  breach ok (fst (fst (b_all pax0 hist0 bus0 l))) (snd (fst (b_all pax0 hist0 bus0 l))) (snd (b_all pax0 hist0 bus0 l)).
Proof. intros C. pose proof (b_all_reach ok okb OK l pax0 hist0 bus0 (br0 _) C) as R. destruct (b_all pax0 hist0 bus0 l) as [[s h] b]. exact R. Qed.
Definition ex_store : list bin :=
  [bi (Some (MQ true 531628040 5 2)) false 0 false false; bi None true 0 false false; bi None true 0 false false; bi None false 0 false true; bi None false 0 false false].
Theorem c83_store_twice_refuted : exists s h b, breach ok_any s h b /\ map fst (h_ops h) = [MQ true 531628040 5 2] /\ h_ans h = [0] /\
  b_txs b = [AWrite 531628040 3 15 5; AWrite 531628040 3 15 5].
Proof.
  exists (fst (fst (b_all pax0 hist0 bus0 ex_store))), (snd (fst (b_all pax0 hist0 bus0 ex_store))), (snd (b_all pax0 hist0 bus0 ex_store)).
  split; [apply (run_reach _ (fun _ _ _ => true) ex_store); [intros; exact I|vm_compute; reflexivity]|repeat split; vm_compute; reflexivity].
Qed.
(** And a load answered with the word of the load before it, although the device
    keeps its words: the answer to the first load's second transaction is taken by
    the second load. *)
Definition ex_f (a : Z) : Z := if a =? 531628032 then 11 else 22.
Definition ex_loads : list bin :=
  [bi (Some (MQ false 531628032 0 2)) false 0 false false; bi None true 11 false false; bi None true 11 false false; bi None false 0 true false;
   bi None false 0 false false; bi (Some (MQ false 531628036 0 2)) false 0 false false; bi None true 22 false false; bi None false 22 false false; bi None false 0 true false; bi None false 0 false false].
Theorem c83_stale_load_refuted : exists s h b, breach (device ex_f) s h b /\ map fst (h_ops h) = [MQ false 531628032 0 2; MQ false 531628036 0 2] /\
  h_ans h = [11; 11] /\ ex_f 531628032 = 11 /\ ex_f 531628036 = 22.
Proof.
  exists (fst (fst (b_all pax0 hist0 bus0 ex_loads))), (snd (fst (b_all pax0 hist0 bus0 ex_loads))), (snd (b_all pax0 hist0 bus0 ex_loads)).
  split; [apply (run_reach _ (fun s _ i => match pax_out s with ARead a _ => n_val i =? ex_f a | _ => true end) ex_loads); [intros s b i H a n E; rewrite E in H; apply Z.eqb_eq; exact H|vm_compute; reflexivity]|repeat split; vm_compute; reflexivity].
Qed.

(** *** Behind a bus that pauses after an acceptance *)
Definition asked (b : bus) : bool := b_ra b || b_wa b.
Definition J (s : pax) (h : hist) (b : bus) : Prop :=
  b_txs b = h_txs h ++ opt (asked b) (pax_out s) /\
  (b_ra b = true -> is_rd (pax_out s) = true) /\ (b_wa b = true -> is_wr (pax_out s) = true) /\
  b_vals b = h_raws h ++ b_rq b /\
  length (b_rq b) = (if b_ra b || match pax_out s with ARWait => true | _ => false end then 1 else 0)%nat /\
  b_wq b = (if b_wa b || match pax_out s with AWWait => true | _ => false end then 1 else 0)%nat.
Lemma J_reach s h b : breach gap s h b -> J s h b.
Proof.
  intros R. induction R as [|s h b i R IH K V G].
  - repeat split; try reflexivity; discriminate.
  - destruct IH as [T [RA [WA [VL [RQ WQ]]]]]. unfold gap in G. unfold J, asked in *.
    unfold p_step, h_step, b_step, pax_cycle, pax_in, ax_accepted, b_pin, b_ax in *. cbn [fst b_ra b_wa b_txs b_vals b_rq b_wq h_txs h_raws pi_ax pi_dev pi_t pi_req pi_tag a_racc a_wacc a_rrv a_wrv a_rdata] in *.
    destruct (p_busy s) eqn:B.
    2: { assert (O : pax_out s = ANone) by (unfold pax_out; rewrite B; reflexivity). rewrite O in *. cbn [is_rd is_wr negb] in *.
      destruct (b_ra b); [discriminate (RA eq_refl)|]. destruct (b_wa b); [discriminate (WA eq_refl)|]. cbn [orb opt] in *. rewrite !andb_false_r. cbn [orb opt]. rewrite !app_nil_r in *.
      assert (O' : forall n, pax_out n = (if negb (p_busy n) then ANone else if negb (p_acc n) then pax_out n else pax_out n)) by (intros n; unfold pax_out; destruct (p_busy n), (p_acc n); reflexivity).
      split; [exact T|]. split; [discriminate|]. split; [discriminate|]. split; [exact VL|].
      destruct (n_req i) as [q|]; [destruct (is_modeled_mmio (q_maddr q))|]; unfold pax_out; cbn [p_busy p_acc p_write negb]; rewrite ?RQ, ?WQ, ?B; cbn [negb]; try (destruct (q_wen q)); split; reflexivity. }
    cbn [negb]. rewrite (pax_out_busy s B) in *. destruct (p_acc s) eqn:C; cbn [negb] in *.
    + destruct (p_write s) eqn:W; cbn [is_rd is_wr] in *; (destruct (b_ra b); [discriminate (RA eq_refl)|]); (destruct (b_wa b); [discriminate (WA eq_refl)|]); cbn [orb opt] in *; rewrite !andb_false_r; cbn [orb opt]; rewrite !app_nil_r in *.
      * destruct (n_showw i && negb (Nat.eqb (b_wq b) 0)); unfold pax_out; cbn [p_busy p_acc p_write negb]; rewrite ?C, ?W, ?B, ?WQ; cbn [negb pred Nat.add];
          (split; [exact T|]; split; [discriminate|]; split; [discriminate|]; split; [exact VL|]; split; [exact RQ|reflexivity]).
      * destruct (b_rq b) as [|v [|? ?]]; try discriminate RQ. rewrite andb_true_r. destruct (n_showr i); unfold pax_out; cbn [p_busy p_acc p_write negb hd tl opt]; rewrite ?C, ?W, ?B; cbn [negb]; rewrite ?app_nil_r;
          (split; [exact T|]; split; [discriminate|]; split; [discriminate|]; split; [exact VL|]; split; [reflexivity|rewrite WQ; reflexivity]).
    + unfold drive in *. destruct (p_write s) eqn:W; cbn [is_rd is_wr negb andb orb] in *.
      * destruct (b_ra b); [discriminate (RA eq_refl)|]. rewrite andb_false_r. cbn [orb opt] in *. rewrite !app_nil_r in *. rewrite andb_true_r.
        destruct (b_wa b) eqn:EW; cbn [opt orb] in *.
        -- destruct (n_take i); [destruct (G eq_refl); discriminate|]. unfold pax_out. cbn [p_busy p_acc p_write negb opt orb]. rewrite ?B, ?W. cbn [negb]. rewrite !app_nil_r.
           split; [exact T|]. split; [discriminate|]. split; [discriminate|]. split; [exact VL|]. split; [exact RQ|]. rewrite WQ. reflexivity.
        -- unfold pax_out. rewrite app_nil_r in T. destruct (n_take i); cbn [p_busy p_acc p_write p_f3 p_addr p_wd negb opt orb]; rewrite ?B, ?C, ?W; cbn [negb is_wr is_rd]; rewrite ?app_nil_r;
             (split; [rewrite T; reflexivity|]; split; [discriminate|]; split; [first [discriminate|reflexivity]|]; split; [exact VL|]; split; [exact RQ|]; rewrite WQ; reflexivity).
      * destruct (b_wa b); [discriminate (WA eq_refl)|]. rewrite andb_false_r, orb_false_r in *. rewrite andb_true_r. cbn [opt orb] in *.
        destruct (b_ra b) eqn:ER; cbn [opt orb] in *.
        -- destruct (n_take i); [destruct (G eq_refl); discriminate|]. unfold pax_out. cbn [p_busy p_acc p_write negb opt orb]. rewrite ?B, ?W. cbn [negb]. rewrite !app_nil_r in *.
           split; [exact T|]. split; [discriminate|]. split; [discriminate|]. split; [exact VL|]. split; [exact RQ|]. rewrite WQ. reflexivity.
        -- unfold pax_out. rewrite !app_nil_r in *. destruct (n_take i); cbn [p_busy p_acc p_write p_f3 p_addr p_wd negb opt orb]; rewrite ?B, ?C, ?W; cbn [negb is_wr is_rd]; rewrite ?app_nil_r;
             (split; [rewrite T; reflexivity|]; split; [first [discriminate|reflexivity]|]; split; [discriminate|]; split; [rewrite VL, ?app_assoc; reflexivity|]; split; [rewrite ?app_length, RQ; reflexivity|]; rewrite WQ; reflexivity).
Qed.
Lemma breach_preach ok s h b : breach ok s h b -> preach s h.
Proof. intros R. induction R as [|s h b i R IH K V O]; [constructor|]. apply prS; assumption. Qed.
(** Then the bus performs each transaction once, in order; the values it returns go
    to the loads they belong to, and nothing is left over when the bridge is idle.
    Missing: that the interconnect pauses; its code is not in the repository. *)
Theorem c83_mmio_once_partial s h b : breach gap s h b ->
  (exists rest, transactions (h_ops h) = b_txs b ++ rest /\ (length rest <= 1)%nat) /\ b_vals b = h_raws h ++ b_rq b /\
  (p_busy s = false -> transactions (h_ops h) = b_txs b /\ b_rq b = [] /\ b_wq b = 0%nat).
Proof.
  intros R. destruct (J_reach s h b R) as [T [RA [WA [VL [RQ WQ]]]]]. pose proof (preach_inv s h (breach_preach _ _ _ _ R)) as P. unfold asked in T.
  assert (ID : p_busy s = false -> b_ra b = false /\ b_wa b = false /\ b_rq b = [] /\ b_wq b = 0%nat /\ b_txs b = h_txs h).
  { intros B. assert (O : pax_out s = ANone) by (unfold pax_out; rewrite B; reflexivity). rewrite O in *. destruct (b_ra b); [discriminate (RA eq_refl)|]. destruct (b_wa b); [discriminate (WA eq_refl)|].
    cbn [orb opt] in *. rewrite app_nil_r in T. destruct (b_rq b); [|discriminate RQ]. repeat split; assumption. }
  destruct P as [s h B RV L A TX | s h B RV L A TX | s h ops q v B RV O Q M W Ad Wd F L A TX].
  - destruct (ID B) as [_ [_ [I1 [I2 I3]]]]. rewrite I3, TX. split; [exists []; rewrite app_nil_r; split; [reflexivity|cbn; lia]|]. split; [exact VL|]. intros _. repeat split; assumption.
  - destruct (ID B) as [_ [_ [I1 [I2 I3]]]]. rewrite I3, TX. split; [exists []; rewrite app_nil_r; split; [reflexivity|cbn; lia]|]. split; [exact VL|]. intros _. repeat split; assumption.
  - split; [|split; [exact VL|rewrite B; discriminate]]. rewrite O, transactions_app, transactions_one, M. rewrite T, TX, (pax_out_busy s B).
    destruct (p_acc s) eqn:C; cbn [opt].
    + assert (b_ra b || b_wa b = false) as ->.
      { rewrite (pax_out_busy s B), C in RA, WA. destruct (b_ra b), (b_wa b); try reflexivity; exfalso; destruct (p_write s); first [discriminate (RA eq_refl)|discriminate (WA eq_refl)]. }
      cbn [opt]. rewrite app_nil_r. exists []. rewrite app_nil_r. split; [reflexivity|cbn; lia].
    + rewrite W, Ad, Wd, F, (drive_spec q Q), app_nil_r. destruct (b_ra b || b_wa b); cbn [opt]; [exists []; rewrite app_nil_r|exists [transaction q]; rewrite app_nil_r]; split; try reflexivity; cbn; lia.
Qed.
(** A store and two loads over such a bus. *)
Definition ex_slow : list bin :=
  [bi (Some (MQ true 531628040 5 2)) false 0 false false; bi None true 0 false false; bi None false 0 false false; bi None false 0 false true; bi None false 0 false false;
   bi (Some (MQ false 531628032 0 2)) false 0 false false; bi None true 11 false false; bi None false 0 false false; bi None false 0 true false; bi None false 0 false false;
   bi (Some (MQ false 531628036 0 2)) false 0 false false; bi None true 22 false false; bi None false 0 false false; bi None false 0 true false; bi None false 0 false false].
Example c83_slow_ex : exists s h b, breach gap s h b /\ h_ans h = [0; 11; 22] /\ b_txs b = [AWrite 531628040 3 15 5; ARead 531628032 3; ARead 531628036 3].
Proof.
  exists (fst (fst (b_all pax0 hist0 bus0 ex_slow))), (snd (fst (b_all pax0 hist0 bus0 ex_slow))), (snd (b_all pax0 hist0 bus0 ex_slow)).
  split; [apply (run_reach _ (fun _ b i => negb (n_take i) || negb (b_ra b) && negb (b_wa b)) ex_slow); [intros s b i H T; rewrite T in H; cbn [negb orb] in H; apply andb_prop in H; destruct H as [H1 H2]; apply negb_true_iff in H1, H2; split; assumption|vm_compute; reflexivity]|repeat split; vm_compute; reflexivity].
Qed.

Print Assumptions c82_icache_eager.
Print Assumptions c83_mshr_withdraws.
Print Assumptions c83_wb_withdraws.
Print Assumptions c83_icache_withdraws.
Print Assumptions c83_store_twice_refuted.
Print Assumptions c83_stale_load_refuted.
Print Assumptions c83_mmio_once_partial.
