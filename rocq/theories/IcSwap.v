From Verif Require Import Base IcModel IcSpec IcProofs IcInv IcIdle.
Ltac Zify.zify_post_hook ::= Z.div_mod_to_equations.

(** Same registers except the probe's. *)
Definition same_np (a b : regs) : Prop :=
  r_rv a = r_rv b /\ r_pc a = r_pc b /\ r_st a = r_st b /\ r_busy a = r_busy b /\ r_md a = r_md b /\ r_repl a = r_repl b /\
  r_ppn a = r_ppn b /\ r_txv a = r_txv b /\ r_tx a = r_tx b /\ r_seen a = r_seen b /\ r_inf a = r_inf b /\ r_can a = r_can b.

Record pfacts (strict : bool) (P : Z -> Z -> Prop) (r w1 : regs) (pdone phit : bool) (pl : line) (preq : option Z) (pb0 : option (Z * bool)) : Prop := mkpf {
  p_pw : 0 <= r_pw w1 < 16;
  p_pl : forall n, 0 <= n < r_pw w1 -> P (lw r + n) (r_pl w1 n);
  p_pd : r_pd w1 = true -> r_ph w1 = true -> forall n, 0 <= n < 16 -> P (lw r + n) (r_pl w1 n);
  p_pi : r_pi w1 = true -> r_pd w1 = false;
  p_done : r_pd w1 = pdone;
  p_hit : pdone = true -> phit = true -> forall n, 0 <= n < 16 -> P (lw r + n) (pl n);
  p_req : forall x, preq = Some x -> r_pi w1 = true /\ x = la r + r_pw w1 * 4;
  p_pb0 : forall x f, pb0 = Some (x, f) -> r_pi w1 = true -> x = la r + r_pw w1 * 4 /\ f = true;
  p_pil : strict = true -> r_pi w1 = true -> preq <> None \/ pb0 <> None }.

Lemma probe_facts : forall strict P y c second i w0 pdone phit pl preq w1,
  let r := ic_r (y_ic y) in
  Jy strict P y -> env_ok strict P y c second -> refilling r -> i_dc i = c_dc c -> r_rv r = true ->
  r_pi w0 = r_pi r -> r_pd w0 = r_pd r -> r_ph w0 = r_ph r -> r_pw w0 = r_pw r -> r_pl w0 = r_pl r ->
  probe_step i r w0 = (pdone, phit, pl, preq, w1) ->
  same_np w1 w0 /\ pfacts strict P r w1 pdone phit pl preq (y_pb0 y).
Proof.
  intros strict P y c second i w0 pdone phit pl preq w1 r HJ HE HR Hdc Hrv E1 E2 E3 E4 E5 H.
  pose proof (j_pw _ _ _ _ _ _ _ _ _ _ _ _ HJ) as Jpw.
  pose proof (j_pl _ _ _ _ _ _ _ _ _ _ _ _ HJ HR) as Jpl.
  pose proof (j_pd _ _ _ _ _ _ _ _ _ _ _ _ HJ HR) as Jpd.
  pose proof (j_pi _ _ _ _ _ _ _ _ _ _ _ _ HJ) as Jpi.
  pose proof (j_pil _ _ _ _ _ _ _ _ _ _ _ _ HJ) as Jpil.
  pose proof (fun x f h => j_pb0 _ _ _ _ _ _ _ _ _ _ _ _ HJ x f h HR) as Jpb0.
  pose proof (fun x f h => j_pb1 _ _ _ _ _ _ _ _ _ _ _ _ HJ x f h HR) as Jpb1.
  pose proof (j_ppn _ _ _ _ _ _ _ _ _ _ _ _ HJ HR) as [_ Hppn].
  fold r in Jpw, Jpl, Jpd, Jpi, Jpil, Jpb0, Jpb1, Hppn.
  pose proof (en_dc _ _ _ _ _ HE) as Edc. pose proof (en_dcl _ _ _ _ _ HE) as Edl.
  unfold probe_step in H. rewrite Hdc, Hrv, andb_true_r in H.
  destruct (r_pi r) eqn:Hpi.
  - destruct (Jpi eq_refl) as [_ Hpd].
    replace (negb (r_pd r) && negb true && (r_pw r <? WORDS)) with false in H by (rewrite Hpd; reflexivity).
    cbv beta iota zeta in H.
    destruct (c_dc c) as [[d |] |] eqn:Ed.
    + destruct (Edc (Some d) eq_refl) as [x [f [Ex Ef]]]. destruct (Jpb1 x f Ex eq_refl) as [Hx Hf].
      assert (HP : P (lw r + r_pw r) d). { rewrite <- (la_word_p r (r_pw r) Hppn). rewrite <- Hx. apply Ef; auto. }
      assert (HL : forall n, 0 <= n < r_pw r + 1 -> P (lw r + n) (if n =? r_pw r then d else r_pl r n)).
      { intros n Hn. destruct (Z.eqb_spec n (r_pw r)); [subst; auto | apply Jpl; lia]. }
      destruct (WORDS <=? r_pw r + 1) eqn:Ew; inversion H; subst pdone phit pl preq w1; clear H; unfold WORDS in Ew.
      * split; [unfold same_np; cb; sp; reflexivity |]. split; cb; intros; try congruence; try discriminate; auto; try lia.
        -- apply HL. lia.
        -- apply HL. lia.
        -- apply HL. lia.
      * split; [unfold same_np; cb; sp; reflexivity |]. split; cb; intros; try congruence; try discriminate; auto; try lia.
    + inversion H; subst pdone phit pl preq w1; clear H.
      split; [unfold same_np; cb; sp; reflexivity |]. split; cb; intros; try congruence; try discriminate; auto; try lia.
      all: try (apply Jpl; lia). all: rewrite ?E4, ?E5 in *; auto; try lia.
    + inversion H; subst pdone phit pl preq w1; clear H.
      split; [unfold same_np; cb; sp; reflexivity |].
      split; rewrite ?E1, ?E2, ?E3, ?E4, ?E5; intros; try congruence; auto.
      * destruct (Jpb0 _ _ H) as [_ B]. auto.
      * right. destruct (Jpil H eq_refl) as [A | A]; auto. exfalso. apply (Edl H A). auto.
  - assert (N0 : y_pb0 y = None).
    { destruct (y_pb0 y) as [[x f] |] eqn:E; auto. destruct (Jpb0 _ _ eq_refl) as [A _]. discriminate. }
    assert (H' : (r_pd r, r_ph r, r_pl r, if negb (r_pd r) && negb false && (r_pw r <? WORDS) then Some (line_addr (r_ppn r) (r_pc r) + r_pw r * 4) else None,
       if negb (r_pd r) && negb false && (r_pw r <? WORDS) then s_pr true (r_pd w0) (r_ph w0) (r_pw w0) (r_pl w0) w0 else w0) = (pdone, phit, pl, preq, w1))
      by (destruct (c_dc c) as [[]|]; exact H).
    clear H. rewrite N0. destruct (r_pd r) eqn:Hpd; cbn [negb andb] in H'.
    + inversion H'; subst pdone phit pl preq w1; clear H'.
      split; [unfold same_np; cb; sp; reflexivity |].
      split; rewrite ?E1, ?E2, ?E3, ?E4, ?E5; intros; try congruence; auto.
    + destruct (Z.ltb_spec (r_pw r) WORDS); [| unfold WORDS in *; lia].
      inversion H'; subst pdone phit pl preq w1; clear H'.
      split; [unfold same_np; cb; sp; reflexivity |].
      split; cb; rewrite ?E1, ?E2, ?E3, ?E4, ?E5; intros; try congruence; try discriminate; auto.
      * inversion H0. auto.
      * left. discriminate.
Qed.

Lemma J_mk_refill : forall strict P r w1 r' t pend seen pres late out gone pdone phit pl preq pb0,
  refilling r' -> r_rv r' = true -> r_pc r' = r_pc r -> r_ppn r' = r_ppn r ->
  r_pi r' = r_pi w1 -> r_pd r' = r_pd w1 -> r_ph r' = r_ph w1 -> r_pw r' = r_pw w1 -> r_pl r' = r_pl w1 ->
  pfacts strict P r w1 pdone phit pl preq pb0 ->
  pend = Some (r_pc r) -> tab_ok P t -> In (r_ppn r) seen -> is_w 20 (r_ppn r) ->
  (r_st r' = SWAP_IN -> r_txv r' = true /\ (r_tx r' < 16)%nat) ->
  (r_st r' = WAIT_DC -> r_txv r' = false /\ r_busy r' = false /\ forall n, 0 <= n < 16 -> P (lw r + n) (r_md r' n)) ->
  (forall k a f, out k = Some (a, f) -> (k < 16)%nat /\
          (gone k = true \/ (r_inf r' k = true /\
             (r_can r' k = true \/ (r_st r' = SWAP_IN /\ r_busy r' = true /\ r_tx r' = k /\ a = la r /\ f = true))))) ->
  (r_st r' = SWAP_IN -> r_busy r' = true ->
           r_inf r' (r_tx r') = true /\ r_can r' (r_tx r') = false /\ gone (r_tx r') = false /\ out (r_tx r') = Some (la r, true)) ->
  (r_st r' = SWAP_IN -> r_busy r' = false -> r_inf r' (r_tx r') = false /\ r_can r' (r_tx r') = false) ->
  (forall k, r_can r' k = true -> r_inf r' k = true) ->
  (forall k, r_inf r' k = true -> r_can r' k = true \/ (r_st r' = SWAP_IN /\ r_busy r' = true /\ r_tx r' = k)) ->
  (strict = true -> forall k, r_inf r' k = true -> out k <> None /\ gone k = false) ->
  (forall k a, pres = Some (k, a) -> r_st r' = SWAP_IN /\ r_busy r' = false /\ k = r_tx r' /\ a = la r) ->
  (forall k a, late = Some (k, a) -> (r_st r' = SWAP_IN /\ r_busy r' = false /\ r_seen r' = true /\ k = r_tx r' /\ a = la r)) ->
  J strict P r' t pend seen pres late out gone (match preq with Some x => Some (x, true) | None => None end) pb0.
Proof.
  intros strict P r w1 r' t pend seen pres late out gone pdone phit pl preq pb0
    HR Hrv Hpc Hppn E1 E2 E3 E4 E5 [pw plx pd pi pdn ph pq pb pil] Hpe Ht Hin Hw Hs Hwt Ho Hb Hf Hc Hii Hl Hp Hla.
  assert (EL : lw r' = lw r) by (unfold lw; rewrite Hpc, Hppn; auto).
  assert (EA : la r' = la r) by (unfold la; rewrite Hpc, Hppn; auto).
  split; rewrite ?E1, ?E2, ?E3, ?E4, ?E5, ?EL, ?EA, ?Hppn; auto; intros.
  - rewrite Hrv, Hpc; auto.
  - destruct HR; congruence.
  - destruct (Hwt H) as [A [B _]]. auto.
  - destruct HR; congruence.
  - destruct HR; congruence.
  - destruct H as [[A B] | A]; [auto | destruct HR; congruence].
  - destruct preq as [x' |]; [| discriminate]. inversion H; subst. destruct (pq _ eq_refl). auto.
  - destruct (pil H H0) as [A | A]; auto. left. destruct preq; congruence.
  - destruct (Hwt H) as [_ [_ B]]. auto.
Qed.

Section Swap.
Variables (strict : bool) (P : Z -> Z -> Prop) (y : sys) (c : cinp) (second : bool).
Hypothesis HJ : Jy strict P y.
Hypothesis HE : env_ok strict P y c second.
Let r := ic_r (y_ic y).
Let t := ic_t (y_ic y).
Variables (i : minp) (w : regs) (o : mout).
Hypothesis HF : fin c t r i.
Hypothesis HC : comb_core i r = (w, o).

Definition gone0 (c : cinp) (rr : bool) (k : nat) : bool :=
  match c_rsp c with Some (id, _) => Nat.eqb id k && rr | None => false end.

(** The preamble. *)
Lemma pre_facts : exists r0, pre_clean i r = r0 /\
  r_rv r0 = r_rv r /\ r_pc r0 = r_pc r /\ r_st r0 = r_st r /\ r_busy r0 = r_busy r /\ r_md r0 = r_md r /\ r_repl r0 = r_repl r /\
  r_ppn r0 = r_ppn r /\ r_txv r0 = r_txv r /\ r_tx r0 = r_tx r /\ r_seen r0 = r_seen r /\ r_pi r0 = r_pi r /\ r_pd r0 = r_pd r /\
  r_ph r0 = r_ph r /\ r_pw r0 = r_pw r /\ r_pl r0 = r_pl r /\
  (forall k, gone0 c (pre_rdy i r) k = true -> r_inf r0 k = false /\ r_can r0 k = false) /\
  (forall k, gone0 c (pre_rdy i r) k = false -> r_inf r0 k = r_inf r k /\ r_can r0 k = r_can r k).
Proof.
  eexists; split; [reflexivity |].
  unfold pre_clean, gone0. rewrite (f_rsp _ _ _ _ HF).
  destruct (c_rsp c) as [[id l] |]; [destruct (pre_rdy i r) |]; cb; sp; auto; intros k H; try discriminate.
  - unfold fupd. rewrite andb_true_r in H. apply Nat.eqb_eq in H. subst. rewrite Nat.eqb_refl. auto.
  - unfold fupd. rewrite andb_true_r in H. apply Nat.eqb_neq in H. destruct (Nat.eqb_spec k id); [congruence | auto].
  - rewrite andb_false_r in H. discriminate.
Qed.

Lemma pre_can : forall k, r_can (pre_clean i r) k = true -> r_inf (pre_clean i r) k = true.
Proof.
  intros k. destruct pre_facts as [r0 [-> F]]. decompose [and] F.
  destruct (gone0 c (pre_rdy i r) k) eqn:G.
  - destruct (H14 _ G) as [-> ->]. discriminate.
  - destruct (H16 _ G) as [-> ->]. apply (j_ci _ _ _ _ _ _ _ _ _ _ _ _ HJ).
Qed.

Lemma pre_inf : forall k, r_inf (pre_clean i r) k = true -> r_can (pre_clean i r) k = true \/ (r_st r = SWAP_IN /\ r_busy r = true /\ r_tx r = k).
Proof.
  intros k. destruct pre_facts as [r0 [-> F]]. decompose [and] F.
  destruct (gone0 c (pre_rdy i r) k) eqn:G.
  - destruct (H14 _ G) as [-> ->]. discriminate.
  - destruct (H16 _ G) as [-> ->]. apply (j_ii _ _ _ _ _ _ _ _ _ _ _ _ HJ).
Qed.

Lemma gone_of_eq : forall o' rr, o_rrdy o' = rr -> gone_of c o' = gone0 c rr.
Proof. intros. unfold gone_of, gone0. rewrite H. reflexivity. Qed.

(** Accepted in this cycle: the present miss. *)
Lemma acc_facts : forall k, c_acc c = Some k -> k = r_tx r /\
  ((r_st r = SWAP_IN /\ r_busy r = false /\ out_now y c k = Some (la r, true)) \/ r_st r = CANCEL_WAIT).
Proof.
  intros k E. destruct (offered_pres _ _ _ HJ k (en_acc _ _ _ _ _ HE k E)) as [A [[B [C D]] | B]]; fold r in A, B; split; auto.
  left; sp; auto. unfold out_now. rewrite E. unfold fupd. rewrite Nat.eqb_refl, D. auto.
Qed.
Lemma out_other : forall k, c_acc c <> Some k -> out_now y c k = y_out y k.
Proof. intros. unfold out_now. destruct (c_acc c); auto. unfold fupd. destruct (Nat.eqb_spec k n); congruence. Qed.

(** Outstanding reads other than the present miss, after the preamble. *)
Lemma out_pre : forall k a f, out_now y c k = Some (a, f) -> c_acc c <> Some k -> ~ (r_st r = SWAP_IN /\ r_busy r = true /\ r_tx r = k) ->
  (k < 16)%nat /\ (gone0 c (pre_rdy i r) k = true \/ (r_inf (pre_clean i r) k = true /\ r_can (pre_clean i r) k = true)).
Proof.
  intros k a f H N M. rewrite (out_other _ N) in H.
  destruct (j_out _ _ _ _ _ _ _ _ _ _ _ _ HJ _ _ _ H) as [A [B | [B C]]]; [discriminate | split; auto].
  destruct pre_facts as [r0 [-> F]]. decompose [and] F.
  destruct (gone0 c (pre_rdy i r) k) eqn:G; auto. right. destruct (H17 _ G) as [-> ->]. split; auto.
  destruct C as [C | [C1 [C2 [C3 _]]]]; auto.
Qed.
Lemma leak_pre : strict = true -> forall k, r_inf (pre_clean i r) k = true -> c_acc c <> Some k ->
  out_now y c k <> None /\ gone0 c (pre_rdy i r) k = false.
Proof.
  intros S k H N. rewrite (out_other _ N). destruct pre_facts as [r0 [E F]]. rewrite E in H. decompose [and] F.
  destruct (gone0 c (pre_rdy i r) k) eqn:G.
  - destruct (H15 _ G) as [A _]. congruence.
  - split; auto. destruct (H17 _ G) as [A _]. rewrite A in H. apply (j_leak _ _ _ _ _ _ _ _ _ _ _ _ HJ S k H).
Qed.
Lemma gone_active : forall rr k, gone0 c rr k = true -> rr = true /\ exists l, c_rsp c = Some (k, l).
Proof.
  unfold gone0; intros. destruct (c_rsp c) as [[id l] |]; [| discriminate]. apply andb_prop in H. destruct H as [A B].
  apply Nat.eqb_eq in A. subst. split; eauto.
Qed.

Lemma rv_no_v : r_rv r = true -> c_v c = false.
Proof.
  intros Hr. destruct (c_v c) eqn:V; auto. destruct (en_v _ _ _ _ _ HE V) as [_ [h G]]. unfold glue_ready in G. fold r in G.
  rewrite Hr in G. rewrite !andb_false_r in G. discriminate.
Qed.
Lemma pages_old : kill c = false -> r_rv r = true -> forall p, In p (y_seen y) -> In p (pages y c).
Proof.
  intros K Hr p Hp. unfold pages, serving. rewrite K, (rv_no_v Hr). rewrite (j_pend _ _ _ _ _ _ _ _ _ _ _ _ HJ). fold r. rewrite Hr.
  destruct (c_tr c (r_pc r / 4096)); try right; auto.
Qed.
Lemma serving_old : kill c = false -> r_rv r = true -> serving y c = Some (r_pc r).
Proof. intros K Hr. unfold serving. rewrite K, (rv_no_v Hr), (j_pend _ _ _ _ _ _ _ _ _ _ _ _ HJ). fold r. rewrite Hr. auto. Qed.

(** The end of the call when the slot is taken. *)
Lemma core_busy : slot_idle r = false -> forall e, eval0 i r = e -> e_fast e = false ->
  let w0 := match r_st r, e_gnt e with SWAP_IN, Some k => s_md (resp_line i) k (e_w e) | _, _ => e_w e end in
  (exists d, w = s_rdy d (s_req (if kill c then false else if e_rdy e then false else r_rv r) (r_pc w0) w0)) /\
  o_rsp o = e_rsp e /\ o_mem o = e_mem e /\ o_rrdy o = e_rrdy e /\ o_probe o = e_probe e /\ o_tw o = e_tw e.
Proof.
  intros Hs e He Hf w0. unfold comb_core, eval_fsm in HC. rewrite He in HC. cbn [e_w e_rdy e_fast e_rsp e_mem e_rrdy e_probe e_lreq e_tw] in HC.
  rewrite (f_kill _ _ _ _ HF), Hf, Hs in HC. rewrite andb_false_r in HC.
  assert (Hpc : forall A (k : nat) (f : regs -> A), (forall d k x, f (s_md d k x) = f x) -> True) by auto. clear Hpc.
  destruct (kill c).
  - inversion HC; subst w o; clear HC. cbn [o_rsp o_mem o_rrdy o_probe o_tw]. sp; auto.
    exists false. unfold w0. destruct (r_st r), (e_gnt e); reflexivity.
  - inversion HC; subst w o; clear HC. cbn [o_rsp o_mem o_rrdy o_probe o_tw]. sp; auto.
    eexists. unfold w0. destruct (r_st r), (e_gnt e); reflexivity.
Qed.

Ltac np H := destruct H as [Nrv [Npc [Nst [Nbu [Nmd [Nrp [Npp [Ntv [Ntx [Nsn [Nif Ncn]]]]]]]]]]].

Lemma mid_swap : r_st r = SWAP_IN -> mid strict P y c w (tab_write (c_fencei c) (o_tw o) t) o.
Proof.
  intros Hst.
  destruct (j_swap _ _ _ _ _ _ _ _ _ _ _ _ HJ Hst) as [Hrv [Htv Htx]]. fold r in Hrv, Htv, Htx.
  assert (HR : refilling r) by (left; auto).
  destruct (j_ppn _ _ _ _ _ _ _ _ _ _ _ _ HJ HR) as [Hin Hw20]. fold r in Hin, Hw20.
  pose proof (j_tab _ _ _ _ _ _ _ _ _ _ _ _ HJ) as Htab. fold t in Htab.
  pose proof (j_pw _ _ _ _ _ _ _ _ _ _ _ _ HJ) as Jpw. fold r in Jpw.
  assert (Hsl : slot_idle r = false) by (unfold slot_idle; rewrite Hrv; auto).
  destruct pre_facts as [r0 [Er0 F0]].
  pose proof pre_can as Hcan. pose proof out_pre as Hout. pose proof leak_pre as Hleak. pose proof pre_inf as Hii0. rewrite Er0 in Hcan, Hout, Hleak, Hii0.
  destruct F0 as [Frv [Fpc [Fst [Fbu [Fmd [Frp [Fpp [Ftv [Ftx [Fsn [Fpi [Fpd [Fph [Fpw [Fpl [Fg Fn]]]]]]]]]]]]]]]].
  set (rr := pre_rdy i r) in *.
  destruct (probe_step i r r0) as [[[[pdone phit] pl] preq] w1] eqn:Hps.
  destruct (probe_facts _ _ _ _ _ _ _ _ _ _ _ _ HJ HE HR (f_dc _ _ _ _ HF) Hrv Fpi Fpd Fph Fpw Fpl Hps) as [NP PF]. fold r in PF.
  np NP.
  assert (He : eval0 i r = ev_swap i r r0 rr) by (unfold eval0; rewrite Hst, Er0; reflexivity).
  unfold ev_swap in He. rewrite Hps in He. cbv zeta in He.
  rewrite (f_kill _ _ _ _ HF), (f_ready _ _ _ _ HF), Htv in He. rewrite ?andb_true_r in He. cbn [andb] in He.
  (* the present miss *)
  assert (Acc : accepts i (r_tx r) = match c_acc c with Some _ => true | None => false end).
  { unfold accepts. rewrite (f_acc _ _ _ _ HF). destruct (c_acc c) as [k |] eqn:E; auto.
    destruct (acc_facts k E) as [-> _]. rewrite Nat.eqb_refl. auto. }
  rewrite Acc in He.
  assert (Nbusy_acc : r_busy r = true -> c_acc c = None).
  { intros Hb. destruct (c_acc c) as [k |] eqn:E; auto. destruct (acc_facts k E) as [_ [[_ [A _]] | A]]; congruence. }
  assert (Hoth : forall k a f, out_now y c k = Some (a, f) -> k <> r_tx r ->
     (k < 16)%nat /\ (gone0 c rr k = true \/ (r_inf w1 k = true /\ r_can w1 k = true))).
  { intros k a f H N. rewrite Nif, Ncn. eapply Hout; eauto.
    - intros E. destruct (acc_facts k E). auto.
    - intros [_ [_ A]]. auto. }
  assert (Hlk : strict = true -> forall k, r_inf w1 k = true -> k <> r_tx r -> out_now y c k <> None /\ gone0 c rr k = false).
  { intros S k H N. rewrite Nif in H. apply Hleak; auto. intros E. destruct (acc_facts k E). auto. }
  assert (Hcw : forall k, r_can w1 k = true -> r_inf w1 k = true) by (intros k; rewrite Nif, Ncn; auto).
  assert (Hii : forall k, r_inf w1 k = true -> k <> r_tx r -> r_can w1 k = true).
  { intros k H N. rewrite Nif in H. rewrite Ncn. destruct (Hii0 _ H) as [A | [_ [_ A]]]; [auto | congruence]. }
  (* when it is outstanding *)
  assert (Hb1 : r_busy r = true -> r_inf r (r_tx r) = true /\ r_can r (r_tx r) = false /\ out_now y c (r_tx r) = Some (la r, true)).
  { intros Hb. destruct (j_busy _ _ _ _ _ _ _ _ _ _ _ _ HJ Hst Hb) as [A [B [_ D]]]. fold r in A, B, D. sp; auto.
    rewrite out_other; auto. rewrite (Nbusy_acc Hb). discriminate. }
  assert (Hb2 : r_busy r = false -> r_inf r (r_tx r) = false /\ r_can r (r_tx r) = false).
  { intros Hb. apply (j_free _ _ _ _ _ _ _ _ _ _ _ _ HJ). left; auto. }
  assert (Hno_out : r_busy r = false -> c_acc c = None -> out_now y c (r_tx r) = None).
  { intros Hb A. rewrite out_other by (rewrite A; discriminate). destruct (y_out y (r_tx r)) as [[a f] |] eqn:E; auto. exfalso.
    destruct (j_out _ _ _ _ _ _ _ _ _ _ _ _ HJ _ _ _ E) as [_ [B | [B _]]]; [discriminate |]. fold r in B. destruct (Hb2 Hb). congruence. }
  assert (Hg1 : r_busy r = true -> gone0 c rr (r_tx r) = false /\ r_inf w1 (r_tx r) = true /\ r_can w1 (r_tx r) = false).
  { intros Hb. destruct (Hb1 Hb) as [A [B D]].
    assert (G : gone0 c rr (r_tx r) = false).
    { destruct (gone0 c rr (r_tx r)) eqn:G; auto. destruct (gone_active _ _ G) as [R [l E]]. exfalso.
      unfold rr, pre_rdy, orphan, active, canceled, inflight, same_cycle, resp_id_is in R. rewrite (f_rsp _ _ _ _ HF), E in R.
      rewrite A, B in R. rewrite !andb_false_r in R. discriminate. }
    split; auto. rewrite Nif, Ncn. destruct (Fn _ G) as [-> ->]. auto. }
  assert (Hg2 : r_busy r = false -> r_inf w1 (r_tx r) = false /\ r_can w1 (r_tx r) = false).
  { intros Hb. rewrite Nif, Ncn. destruct (gone0 c rr (r_tx r)) eqn:G; [apply (Fg _ G) |]. destruct (Fn _ G) as [-> ->]. auto. }
  assert (Hact : forall l, c_rsp c = Some (r_tx r, l) -> (r_busy r = true \/ c_acc c <> None) -> active i r = true).
  { intros l E D. unfold active, inflight, canceled, same_cycle, resp_id_is. rewrite (f_rsp _ _ _ _ HF), E, Htv, Hst, Nat.eqb_refl. cbn [andb].
    destruct (r_busy r) eqn:Hb.
    - destruct (Hb1 eq_refl) as [-> [-> _]]. reflexivity.
    - destruct D as [D | D]; [discriminate |]. rewrite Acc. destruct (Hb2 eq_refl) as [-> ->]. destruct (c_acc c); [reflexivity | congruence]. }
  assert (Hacto : out_now y c (r_tx r) = Some (la r, true) -> forall l, c_rsp c = Some (r_tx r, l) -> forall n, 0 <= n < 16 -> P (lw r + n) (l n)).
  { intros A l E n Hn. destruct (en_rsp _ _ _ _ _ HE _ _ E) as [a [f [B D]]]. rewrite A in B. inversion B; subst.
    rewrite <- (la_word r n Hw20). apply D; auto. }
  assert (Hact' : active i r = true -> exists l, c_rsp c = Some (r_tx r, l) /\ resp_line i = l).
  { intros A. unfold active, resp_id_is in A. unfold resp_line. rewrite (f_rsp _ _ _ _ HF) in *. destruct (c_rsp c) as [[id l] |]; [| rewrite andb_false_r in A; discriminate].
    apply andb_prop in A. destruct A as [A _]. apply andb_prop in A. destruct A as [A _]. apply andb_prop in A. destruct A as [_ A].
    apply Nat.eqb_eq in A. subst. eauto. }
  clear Hout Hleak.
  set (w2 := if negb (r_busy r) && c_ready c then s_tx true (r_tx w1) true w1 else w1).
  assert (Ew2 : (if negb (r_busy r) && c_ready c then s_tx (r_txv w1) (r_tx w1) true w1 else w1) = w2)
    by (unfold w2; rewrite Ntv, Ftv, Htv; reflexivity).
  rewrite Ew2 in He. clear Ew2.
  assert (W2 : r_rv w2 = r_rv w1 /\ r_pc w2 = r_pc w1 /\ r_st w2 = r_st w1 /\ r_busy w2 = r_busy w1 /\ r_md w2 = r_md w1 /\ r_ppn w2 = r_ppn w1 /\
     r_txv w2 = true /\ r_tx w2 = r_tx w1 /\ r_inf w2 = r_inf w1 /\ r_can w2 = r_can w1 /\ r_pi w2 = r_pi w1 /\ r_pd w2 = r_pd w1 /\ r_ph w2 = r_ph w1 /\
     r_pw w2 = r_pw w1 /\ r_pl w2 = r_pl w1).
  { unfold w2. destruct (negb (r_busy r) && c_ready c); cb; sp; auto. rewrite Ntv, Ftv. auto. }
  assert (W2s : r_busy r = false -> c_ready c = true -> r_seen w2 = true).
  { intros A B. unfold w2. rewrite A, B. reflexivity. }
  destruct W2 as [Wrv [Wpc [Wst [Wbu [Wmd [Wpp [Wtv [Wtx [Wif [Wcn [Wpi [Wpd [Wph [Wpw Wpl]]]]]]]]]]]]]].
  assert (Xtx : r_tx w2 = r_tx r) by congruence.
  assert (Xpc : r_pc w2 = r_pc r) by congruence.
  assert (Xpp : r_ppn w2 = r_ppn r) by congruence.
  rewrite <- Wif, <- Wcn in *.
  assert (Lat : forall k a, late_of y c = Some (k, a) -> r_busy r = false /\ c_ready c = true /\ c_acc c = None /\ k = r_tx r /\ a = la r).
  { intros k a. unfold late_of. destruct (c_ready c); [| discriminate]. destruct (c_acc c); [discriminate |]. intros E.
    destruct (j_pres _ _ _ _ _ _ _ _ _ _ _ _ HJ _ _ E) as [_ [A [B D]]]. fold r in A, B, D. sp; auto. }
  assert (Outs : forall inf can gone, (forall k, k <> r_tx r -> inf k = r_inf w2 k) -> (forall k, k <> r_tx r -> can k = r_can w2 k) ->
     (forall k, k <> r_tx r -> gone k = gone0 c rr k) ->
     (out_now y c (r_tx r) <> None -> gone (r_tx r) = true \/ (inf (r_tx r) = true /\ can (r_tx r) = true)) ->
     forall k a f, out_now y c k = Some (a, f) -> (k < 16)%nat /\ (gone k = true \/ (inf k = true /\ can k = true))).
  { intros inf can gone A B D F k a f H. destruct (Nat.eq_dec k (r_tx r)) as [-> | N].
    - split; auto. apply F. congruence.
    - rewrite (A _ N), (B _ N), (D _ N). eapply Hoth; eauto. }
  assert (Lks : forall inf gone, (forall k, k <> r_tx r -> inf k = r_inf w2 k) -> (forall k, k <> r_tx r -> gone k = gone0 c rr k) ->
     (strict = true -> inf (r_tx r) = true -> out_now y c (r_tx r) <> None /\ gone (r_tx r) = false) ->
     strict = true -> forall k, inf k = true -> out_now y c k <> None /\ gone k = false).
  { intros inf gone A B F S k H. destruct (Nat.eq_dec k (r_tx r)) as [-> | N]; [apply F; auto |].
    rewrite (A _ N) in H. rewrite (B _ N). apply Hlk; auto. }
  assert (Fo : forall f b k, k <> r_tx r -> @fupd bool f (r_tx r) b k = f k).
  { intros. unfold fupd. destruct (Nat.eqb_spec k (r_tx r)); [congruence | auto]. }
  assert (Fe : forall f b, @fupd bool f (r_tx r) b (r_tx r) = b) by (intros; unfold fupd; rewrite Nat.eqb_refl; auto).
  destruct (kill c) eqn:K.
  - (* killed *)
    assert (Es : serving y c = None) by (unfold serving; rewrite K; auto).
    destruct (r_busy r || (negb (r_busy r) && match c_acc c with Some _ => true | None => false end)) eqn:Hfl.
    + assert (Hon : out_now y c (r_tx r) = Some (la r, true)).
      { destruct (r_busy r) eqn:Hb; [apply Hb1; auto |]. destruct (c_acc c) as [k |] eqn:E; [| discriminate].
        destruct (acc_facts k E) as [-> [[_ [_ A]] | A]]; [auto | congruence]. }
      assert (Hgn : strict = true -> gone0 c rr (r_tx r) = false).
      { intros S. destruct (r_busy r) eqn:Hb; [apply Hg1; auto |]. destruct (c_acc c) as [k |] eqn:E; [| discriminate].
        destruct (acc_facts k E) as [-> _]. destruct (gone0 c rr (r_tx r)) eqn:G; auto. destruct (gone_active _ _ G) as [_ [l E']].
        exfalso. apply (en_sep _ _ _ _ _ HE S _ _ E'). auto. }
      assert (Hl : late_of y c = None).
      { destruct (late_of y c) as [[k a] |] eqn:E; auto. destruct (Lat _ _ eq_refl) as [A [_ [B _]]]. rewrite A, B in Hfl. discriminate. }
      destruct (core_busy Hsl _ He eq_refl) as [[d Ew] [E1 [E2 [E3 [E4 E5]]]]]. rewrite Hst, K in Ew. cb.
      unfold mid. rewrite E1, E2, E5, (gone_of_eq _ _ E3), Hl. split; [| split; [discriminate | split; [subst w; cb; discriminate | auto]]].
      subst w. apply J_mk_idle; cb; auto; try lia.
      * apply (Outs _ _ _ (Fo _ _) (Fo _ _) (fun k _ => eq_refl)). rewrite !Fe. auto.
      * intros k. unfold fupd. destruct (Nat.eqb k (r_tx r)); auto.
      * intros k H. destruct (Nat.eq_dec k (r_tx r)) as [-> | N]; [apply Fe |]. rewrite (Fo _ _ _ N) in H. rewrite (Fo _ _ _ N). auto.
      * apply (Lks _ _ (Fo _ _) (fun k _ => eq_refl)). intros. split; [congruence | auto].
      * apply tab_keep; auto.
    + assert (Hb : r_busy r = false) by (destruct (r_busy r); auto; discriminate).
      assert (Ha : c_acc c = None) by (rewrite Hb in Hfl; destruct (c_acc c); auto; discriminate).
      cbn [negb andb] in He. destruct (Hg2 Hb) as [G1 G2].
      assert (Hlate : (r_seen r || negb (r_busy r) && c_ready c) = false -> late_of y c = None).
      { intros A. destruct (late_of y c) as [[k a] |] eqn:E; auto. destruct (Lat _ _ eq_refl) as [_ [B _]]. rewrite B, Hb, orb_true_r in A. discriminate. }
      destruct (r_seen r || negb (r_busy r) && c_ready c) eqn:Hsn.
      * destruct (core_busy Hsl _ He eq_refl) as [[d Ew] [E1 [E2 [E3 [E4 E5]]]]]. rewrite Hst, K in Ew. cb.
        unfold mid. rewrite E1, E2, E5, (gone_of_eq _ _ E3). split; [| split; [discriminate | split; [subst w; cb; discriminate | auto]]].
        subst w. apply J_mk_canc; cb; auto; try lia; rewrite ?Xtx; auto.
        -- intros k a E. destruct (Lat _ _ E) as [_ [_ [_ [B _]]]]. auto.
        -- apply (Outs _ _ _ (fun k _ => eq_refl) (fun k _ => eq_refl) (fun k _ => eq_refl)). rewrite (Hno_out Hb Ha). congruence.
        -- intros k H. destruct (Nat.eq_dec k (r_tx r)) as [-> | N]; [congruence | auto].
        -- apply (Lks _ _ (fun k _ => eq_refl) (fun k _ => eq_refl)). intros. congruence.
        -- apply tab_keep; auto.
      * destruct (core_busy Hsl _ He eq_refl) as [[d Ew] [E1 [E2 [E3 [E4 E5]]]]]. rewrite Hst, K in Ew. cb.
        unfold mid. rewrite E1, E2, E5, (gone_of_eq _ _ E3), (Hlate eq_refl). split; [| split; [discriminate | split; [subst w; cb; discriminate | auto]]].
        subst w. apply J_mk_idle; cb; auto; try lia.
        -- apply (Outs _ _ _ (fun k _ => eq_refl) (fun k _ => eq_refl) (fun k _ => eq_refl)). rewrite (Hno_out Hb Ha). congruence.
        -- intros k H. destruct (Nat.eq_dec k (r_tx r)) as [-> | N]; [congruence | auto].
        -- apply (Lks _ _ (fun k _ => eq_refl) (fun k _ => eq_refl)). intros. congruence.
        -- apply tab_keep; auto.
  - (* not killed *)
    assert (Es : serving y c = Some (r_pc r)) by (apply serving_old; auto).
    assert (Hin' : In (r_ppn r) (pages y c)) by (apply pages_old; auto).
    assert (Hff : c_fencei c = false) by (unfold kill in K; destruct (c_fencei c); auto; rewrite orb_true_r in K; discriminate).
    (* an answer taken *)
    assert (Tk : active i r = true -> out_now y c (r_tx r) = Some (la r, true) ->
                 eval0 i r = ev_taken i r w2 pdone phit pl preq ->
                 mid strict P y c w (tab_write (c_fencei c) (o_tw o) t) o).
    { intros Ac Hon Ev. destruct (Hact' Ac) as [l [El Er]]. unfold ev_taken in Ev. rewrite Er in Ev.
      assert (Hl : late_of y c = None).
      { destruct (late_of y c) as [[k a] |] eqn:E; auto. destruct (Lat _ _ eq_refl) as [A [_ [B _]]]. rewrite (Hno_out A B) in Hon. discriminate. }
      assert (HPl : forall n, 0 <= n < 16 -> P (lw r + n) (l n)) by (apply Hacto; auto).
      assert (Gt : gone0 c true (r_tx r) = true) by (unfold gone0; rewrite El, Nat.eqb_refl; auto).
      assert (Go : forall k, k <> r_tx r -> gone0 c true k = gone0 c rr k).
      { intros k N. unfold gone0. rewrite El. destruct (Nat.eqb_spec (r_tx r) k); [congruence | auto]. }
      destruct pdone eqn:Hpd.
      - unfold finish_refill in Ev. rewrite Htv, (f_kill _ _ _ _ HF), (f_flush _ _ _ _ HF), K, Hff in Ev. cbn [negb andb] in Ev.
        destruct (core_busy Hsl _ Ev eq_refl) as [[d Ew] [E1 [E2 [E3 [E4 E5]]]]]. rewrite Hst, K in Ew. cb.
        assert (Hans : forall n, 0 <= n < 16 -> P (lw r + n) ((if phit then pl else l) n)).
        { intros n Hn. destruct phit; [apply (p_hit _ _ _ _ _ _ _ _ _ PF); auto | auto]. }
        unfold mid. rewrite E1, E2, E5, (gone_of_eq _ _ E3), Hl. split; [| split; [| split; [subst w; cb; discriminate | subst w; cb; discriminate]]].
        + subst w. apply J_mk_idle; cb; auto; try lia.
          * apply (Outs _ _ _ (Fo _ _) (fun k _ => eq_refl) Go). auto.
          * intros k H. destruct (Nat.eq_dec k (r_tx r)) as [-> | N]; [| rewrite (Fo _ _ _ N); auto].
            exfalso. destruct (r_busy r) eqn:Hb; [destruct (Hg1 eq_refl) as [_ [_ A]] | destruct (Hg2 eq_refl) as [_ A]]; congruence.
          * intros k H. destruct (Nat.eq_dec k (r_tx r)) as [-> | N]; [rewrite Fe in H; discriminate | rewrite (Fo _ _ _ N) in H; auto].
          * apply (Lks _ _ (Fo _ _) Go). intros _ A. rewrite Fe in A. discriminate.
          * rewrite Hff. apply tab_new; auto.
        + intros rs E. inversion E; subst rs. exists (r_pc r). split; auto. cbn. split; auto. exists (r_ppn r). split; auto.
          intros n Hn. rewrite <- (idx_page (r_pc r)). apply Hans; auto.
      - destruct (core_busy Hsl _ Ev eq_refl) as [[d Ew] [E1 [E2 [E3 [E4 E5]]]]]. rewrite Hst, K in Ew. cb.
        unfold mid. unfold pb_of. rewrite E1, E2, E4, E5, (gone_of_eq _ _ E3), Hl. split; [| split; [discriminate | split; [subst w; cb; discriminate | subst w; cb; discriminate]]].
        subst w. refine (J_mk_refill strict P r w1 _ _ _ _ _ _ _ _ _ _ _ preq _ _ _ _ _ _ _ _ _ _ PF _ _ _ _ _ _ _ _ _ _ _ _ _ _); cb; auto; try discriminate.
        + right; auto.
        + apply tab_keep; auto.
        + rewrite Er. auto.
        + intros k a f H. destruct (Outs _ _ (gone0 c true) (Fo (r_inf w2) false) (fun k _ => eq_refl) Go (fun _ => or_introl Gt) k a f H) as [A [B | [B D]]]; auto.
        + intros k H. destruct (Nat.eq_dec k (r_tx r)) as [-> | N]; [| rewrite (Fo _ _ _ N); auto].
          exfalso. destruct (r_busy r) eqn:Hb; [destruct (Hg1 eq_refl) as [_ [_ A]] | destruct (Hg2 eq_refl) as [_ A]]; congruence.
        + intros k H. left. destruct (Nat.eq_dec k (r_tx r)) as [-> | N]; [rewrite Fe in H; discriminate | rewrite (Fo _ _ _ N) in H; auto].
        + apply (Lks _ _ (Fo _ _) Go). intros _ A. rewrite Fe in A. discriminate. }
    destruct (r_busy r) eqn:Hb; cbn [negb] in He.
    + destruct (Hb1 eq_refl) as [B1 [B2 B3]]. destruct (Hg1 eq_refl) as [G1 [G2 G3]].
      destruct (active i r) eqn:Ac; [apply Tk; auto |].
      destruct (core_busy Hsl _ He eq_refl) as [[d Ew] [E1 [E2 [E3 [E4 E5]]]]]. rewrite Hst, K in Ew. cb.
      unfold mid. unfold pb_of. rewrite E1, E2, E4, E5, (gone_of_eq _ _ E3). split; [| split; [discriminate | split; [subst w; cb; discriminate | subst w; cb; discriminate]]].
      subst w. refine (J_mk_refill strict P r w1 _ _ _ _ _ _ _ _ _ _ _ preq _ _ _ _ _ _ _ _ _ _ PF _ _ _ _ _ _ _ _ _ _ _ _ _ _); cb; auto; try discriminate.
      * left; auto.
      * apply tab_keep; auto.
      * rewrite Xtx. auto.
      * intros k a f H. destruct (Nat.eq_dec k (r_tx r)) as [-> | N].
        -- rewrite B3 in H. inversion H; subst. split; auto. right. split; auto. right. sp; auto.
        -- destruct (Hoth _ _ _ H N) as [A [B | [B D]]]; auto.
      * rewrite Xtx. intros. sp; auto.
      * rewrite Xtx. intros k H. destruct (Nat.eq_dec k (r_tx r)) as [-> | N]; [right; sp; auto | left; auto].
      * apply (Lks _ _ (fun k _ => eq_refl) (fun k _ => eq_refl)). intros. split; [congruence | auto].
      * intros k a E. destruct (Lat _ _ E) as [A _]. discriminate.
    + destruct (Hg2 eq_refl) as [G2 G3].
      destruct (c_acc c) as [k0 |] eqn:Ea.
      * destruct (acc_facts k0 Ea) as [E0 [[_ [_ B3]] | B3]]; [| congruence]. subst k0.
        destruct (active i r) eqn:Ac; [apply Tk; auto |].
        assert (G1 : gone0 c rr (r_tx r) = false).
        { destruct (gone0 c rr (r_tx r)) eqn:G; auto. destruct (gone_active _ _ G) as [_ [l E]].
          enough (X : false = true) by discriminate X. apply (Hact l E). right. discriminate. }
        destruct (core_busy Hsl _ He eq_refl) as [[d Ew] [E1 [E2 [E3 [E4 E5]]]]]. rewrite Hst, K in Ew. cb.
        unfold mid. unfold pb_of. rewrite E1, E2, E4, E5, (gone_of_eq _ _ E3). split; [| split; [discriminate | split; [subst w; cb; discriminate | subst w; cb; discriminate]]].
        subst w. refine (J_mk_refill strict P r w1 _ _ _ _ _ _ _ _ _ _ _ preq _ _ _ _ _ _ _ _ _ _ PF _ _ _ _ _ _ _ _ _ _ _ _ _ _); cb; auto; try discriminate.
        -- left; auto.
        -- apply tab_keep; auto.
        -- rewrite Xtx. auto.
        -- intros k a f H. destruct (Nat.eq_dec k (r_tx r)) as [-> | N].
           ++ rewrite B3 in H. inversion H; subst. split; auto. right. rewrite Fe. split; auto. right. sp; auto.
           ++ rewrite (Fo _ _ _ N). destruct (Hoth _ _ _ H N) as [A [B | [B D]]]; auto.
        -- rewrite Xtx. intros. rewrite Fe. sp; auto.
        -- intros k H. destruct (Nat.eq_dec k (r_tx r)) as [-> | N]; [apply Fe | rewrite (Fo _ _ _ N); auto].
        -- rewrite Xtx. intros k H. destruct (Nat.eq_dec k (r_tx r)) as [-> | N]; [right; sp; auto | left; rewrite (Fo _ _ _ N) in H; auto].
        -- apply (Lks _ _ (Fo _ _) (fun k _ => eq_refl)). intros. split; [congruence | auto].
        -- intros k a E. destruct (Lat _ _ E) as [_ [_ [A _]]]. discriminate.
      * destruct (core_busy Hsl _ He eq_refl) as [[d Ew] [E1 [E2 [E3 [E4 E5]]]]]. rewrite Hst, K in Ew. cb.
        unfold mid. unfold pb_of. rewrite E1, E2, E4, E5, (gone_of_eq _ _ E3). split; [| split; [discriminate | split; [subst w; cb; congruence | subst w; cb; discriminate]]].
        subst w. refine (J_mk_refill strict P r w1 _ _ _ _ _ _ _ _ _ _ _ preq _ _ _ _ _ _ _ _ _ _ PF _ _ _ _ _ _ _ _ _ _ _ _ _ _); cb; auto; try discriminate.
        -- left; auto.
        -- apply tab_keep; auto.
        -- rewrite Xtx. auto.
        -- intros k a f H. destruct (Nat.eq_dec k (r_tx r)) as [-> | N].
           ++ rewrite (Hno_out eq_refl eq_refl) in H. discriminate.
           ++ destruct (Hoth _ _ _ H N) as [A [B | [B D]]]; auto.
        -- rewrite Xtx. intros. auto.
        -- intros k H. destruct (Nat.eq_dec k (r_tx r)) as [-> | N]; [congruence | left; auto].
        -- apply (Lks _ _ (fun k _ => eq_refl) (fun k _ => eq_refl)). intros. congruence.
        -- intros k a E. inversion E; subst. rewrite Xtx. sp; auto.
        -- intros k a E. destruct (Lat _ _ E) as [_ [A [_ [B D]]]]. rewrite Xtx. sp; auto.
Qed.


(** Outside SWAP_IN nothing is offered, and every outstanding read is a canceled one. *)
Lemma quiet_acc : r_st r <> SWAP_IN -> r_st r <> CANCEL_WAIT -> c_acc c = None /\ y_pres y = None /\ late_of y c = None.
Proof.
  intros N M. assert (A : c_acc c = None).
  { destruct (c_acc c) as [k |] eqn:E; auto. destruct (acc_facts k E) as [_ [[B _] | B]]; congruence. }
  assert (B : y_pres y = None).
  { destruct (y_pres y) as [[k a] |] eqn:E; auto. destruct (j_pres _ _ _ _ _ _ _ _ _ _ _ _ HJ _ _ E) as [B _]. fold r in B. congruence. }
  sp; auto. unfold late_of. rewrite A, B. destruct (c_ready c); auto.
Qed.

Lemma mid_wait : r_st r = WAIT_DC -> mid strict P y c w (tab_write (c_fencei c) (o_tw o) t) o.
Proof.
  intros Hst.
  destruct (j_wait _ _ _ _ _ _ _ _ _ _ _ _ HJ Hst) as [Hrv [Htv Hbu]]. fold r in Hrv, Htv, Hbu.
  assert (HR : refilling r) by (right; auto).
  destruct (j_ppn _ _ _ _ _ _ _ _ _ _ _ _ HJ HR) as [Hin Hw20]. fold r in Hin, Hw20.
  pose proof (j_tab _ _ _ _ _ _ _ _ _ _ _ _ HJ) as Htab. fold t in Htab.
  pose proof (j_pw _ _ _ _ _ _ _ _ _ _ _ _ HJ) as Jpw. fold r in Jpw.
  pose proof (j_md _ _ _ _ _ _ _ _ _ _ _ _ HJ Hst) as Jmd. fold r in Jmd.
  assert (Hsl : slot_idle r = false) by (unfold slot_idle; rewrite Hrv; auto).
  destruct (quiet_acc) as [Ha [Hp Hl]]; [congruence | congruence |].
  destruct pre_facts as [r0 [Er0 F0]].
  pose proof pre_can as Hcan. pose proof out_pre as Hout0. pose proof leak_pre as Hleak0. pose proof pre_inf as Hii0. rewrite Er0 in Hcan, Hout0, Hleak0, Hii0.
  assert (Hii : forall k, r_inf r0 k = true -> r_can r0 k = true) by (intros k H; destruct (Hii0 _ H) as [A | [A _]]; [auto | congruence]).
  assert (Hout : forall k a f, out_now y c k = Some (a, f) -> (k < 16)%nat /\ (gone0 c (pre_rdy i r) k = true \/ (r_inf r0 k = true /\ r_can r0 k = true))).
  { intros k a f H. apply (Hout0 _ _ _ H); [congruence | intros [A _]; congruence]. }
  assert (Hleak : strict = true -> forall k, r_inf r0 k = true -> out_now y c k <> None /\ gone0 c (pre_rdy i r) k = false).
  { intros S k H. apply Hleak0; [auto | auto | congruence]. }
  clear Hout0 Hleak0 Hii0.
  destruct F0 as [Frv [Fpc [Fst [Fbu [Fmd [Frp [Fpp [Ftv [Ftx [Fsn [Fpi [Fpd [Fph [Fpw [Fpl [Fg Fn]]]]]]]]]]]]]]]].
  set (rr := pre_rdy i r) in *.
  assert (He : eval0 i r = ev_wait i r r0 rr) by (unfold eval0; rewrite Hst, Er0; reflexivity).
  unfold ev_wait in He. rewrite (f_kill _ _ _ _ HF) in He.
  destruct (kill c) eqn:K.
  - assert (Es : serving y c = None) by (unfold serving; rewrite K; auto).
    destruct (core_busy Hsl _ He eq_refl) as [[d Ew] [E1 [E2 [E3 [E4 E5]]]]]. rewrite Hst, K in Ew. cb.
    unfold mid. rewrite E1, E2, E5, (gone_of_eq _ _ E3), Hl. split; [| split; [discriminate | split; [subst w; cb; discriminate | auto]]].
    subst w. apply J_mk_idle; cb; auto; try lia. apply tab_keep; auto.
  - assert (Es : serving y c = Some (r_pc r)) by (apply serving_old; auto).
    assert (Hin' : In (r_ppn r) (pages y c)) by (apply pages_old; auto).
    assert (Hff : c_fencei c = false) by (unfold kill in K; destruct (c_fencei c); auto; rewrite orb_true_r in K; discriminate).
    destruct (probe_step i r r0) as [[[[pdone phit] pl] preq] w1] eqn:Hps.
    destruct (probe_facts _ _ _ _ _ _ _ _ _ _ _ _ HJ HE HR (f_dc _ _ _ _ HF) Hrv Fpi Fpd Fph Fpw Fpl Hps) as [NP PF]. fold r in PF.
    np NP. rewrite <- Nif, <- Ncn in *.
    destruct pdone eqn:Hpd.
    + unfold finish_refill in He. rewrite Htv, (f_kill _ _ _ _ HF), (f_flush _ _ _ _ HF), K, Hff in He. cbn [negb andb] in He.
      destruct (core_busy Hsl _ He eq_refl) as [[d Ew] [E1 [E2 [E3 [E4 E5]]]]]. rewrite Hst, K in Ew. cb.
      assert (Hans : forall n, 0 <= n < 16 -> P (lw r + n) ((if phit then pl else r_md r) n)).
      { intros n Hn. destruct phit; [apply (p_hit _ _ _ _ _ _ _ _ _ PF); auto | auto]. }
      unfold mid. rewrite E1, E2, E5, (gone_of_eq _ _ E3), Hl. split; [| split; [| split; [subst w; cb; discriminate | subst w; cb; discriminate]]].
      * subst w. apply J_mk_idle; cb; auto; try lia. rewrite Hff. apply tab_new; auto.
      * intros rs E. inversion E; subst rs. exists (r_pc r). split; auto. cbn. split; auto. exists (r_ppn r). split; auto.
        intros n Hn. rewrite <- (idx_page (r_pc r)). apply Hans; auto.
    + destruct (core_busy Hsl _ He eq_refl) as [[d Ew] [E1 [E2 [E3 [E4 E5]]]]]. rewrite Hst, K in Ew. cb.
      unfold mid. unfold pb_of. rewrite E1, E2, E4, E5, (gone_of_eq _ _ E3), Hl. split; [| split; [discriminate | split; [subst w; cb; discriminate | subst w; cb; discriminate]]].
      subst w. refine (J_mk_refill strict P r w1 _ _ _ _ _ _ _ _ _ _ _ preq _ _ _ _ _ _ _ _ _ _ PF _ _ _ _ _ _ _ _ _ _ _ _ _ _); cb; auto; try discriminate.
      * right; auto.
      * congruence.
      * congruence.
      * apply tab_keep; auto.
      * intros _. sp; try congruence. rewrite Nmd, Fmd. auto.
      * intros k a f H. destruct (Hout _ _ _ H) as [A [B | [B D]]]; auto.
Qed.

Lemma mid_canc : r_st r = CANCEL_WAIT -> mid strict P y c w (tab_write (c_fencei c) (o_tw o) t) o.
Proof.
  intros Hst.
  destruct (j_canc _ _ _ _ _ _ _ _ _ _ _ _ HJ Hst) as [Hrv [Htv [Hbu Htx]]]. fold r in Hrv, Htv, Hbu, Htx.
  pose proof (j_tab _ _ _ _ _ _ _ _ _ _ _ _ HJ) as Htab. fold t in Htab.
  pose proof (j_pw _ _ _ _ _ _ _ _ _ _ _ _ HJ) as Jpw. fold r in Jpw.
  destruct (j_free _ _ _ _ _ _ _ _ _ _ _ _ HJ (or_intror Hst)) as [Hf1 Hf2]. fold r in Hf1, Hf2.
  assert (Hsl : slot_idle r = false) by (unfold slot_idle; rewrite Hst, andb_false_r; auto).
  assert (Hv : c_v c = false).
  { destruct (c_v c) eqn:V; auto. destruct (en_v _ _ _ _ _ HE V) as [_ [h G]]. unfold glue_ready in G. fold r in G.
    rewrite Hst in G. cbn [negb] in G. rewrite orb_true_r in G. cbn [orb negb] in G. rewrite andb_false_r in G. discriminate. }
  assert (Es : serving y c = None).
  { unfold serving. rewrite Hv, (j_pend _ _ _ _ _ _ _ _ _ _ _ _ HJ). fold r. rewrite Hrv. destruct (kill c); auto. }
  assert (Hp : y_pres y = None).
  { destruct (y_pres y) as [[k a] |] eqn:E; auto. destruct (j_pres _ _ _ _ _ _ _ _ _ _ _ _ HJ _ _ E) as [B _]. fold r in B. congruence. }
  assert (Hl : late_of y c = None) by (unfold late_of; rewrite Hp; destruct (c_ready c), (c_acc c); auto).
  destruct pre_facts as [r0 [Er0 F0]].
  pose proof pre_can as Hcan. pose proof out_pre as Hout0. pose proof leak_pre as Hleak0. pose proof pre_inf as Hii0. rewrite Er0 in Hcan, Hout0, Hleak0, Hii0.
  assert (Hii : forall k, r_inf r0 k = true -> r_can r0 k = true) by (intros k H; destruct (Hii0 _ H) as [A | [A _]]; [auto | congruence]).
  destruct F0 as [Frv [Fpc [Fst [Fbu [Fmd [Frp [Fpp [Ftv [Ftx [Fsn [Fpi [Fpd [Fph [Fpw [Fpl [Fg Fn]]]]]]]]]]]]]]]].
  assert (He : eval0 i r = ev_cancel i r r0) by (unfold eval0; rewrite Hst, Er0; reflexivity).
  unfold ev_cancel in He. rewrite Htv in He. cbn [andb] in He.
  (* the answers taken: all of them *)
  assert (Hgt : forall k a f, out_now y c k = Some (a, f) -> c_acc c <> Some k ->
     (k < 16)%nat /\ (gone0 c true k = true \/ (r_inf r0 k = true /\ r_can r0 k = true))).
  { intros k a f H N. destruct (Hout0 _ _ _ H N) as [A B]; [intros [A _]; congruence |]. split; auto. destruct B as [B | B]; auto. left.
    destruct (gone_active _ _ B) as [_ [l E]]. unfold gone0. rewrite E, Nat.eqb_refl. auto. }
  assert (Hlk : strict = true -> forall k, r_inf r0 k = true -> c_acc c <> Some k -> out_now y c k <> None /\ gone0 c true k = false).
  { intros S k H N. destruct (Hleak0 S k H N) as [A B]. split; auto. unfold gone0 in *. destruct (c_rsp c) as [[id l] |] eqn:E; auto.
    destruct (Nat.eqb_spec id k); auto. subst id. exfalso. cbn [andb] in B.
    pose proof (Hii _ H) as D. destruct (Fn k) as [I1 I2].
    { rewrite ?E, Nat.eqb_refl. exact B. }
    unfold pre_rdy, canceled in B. rewrite (f_rsp _ _ _ _ HF), E in B. rewrite <- I2, D in B. discriminate. }
  unfold accepts in He. rewrite (f_acc _ _ _ _ HF) in He.
  destruct (core_busy Hsl _ He eq_refl) as [[d Ew] [E1 [E2 [E3 [E4 E5]]]]]. rewrite Hst in Ew. cb.
  unfold mid. rewrite E1, E2, E5, (gone_of_eq _ _ E3), Hl, Es. split; [| split; [discriminate |]].
  - destruct (c_acc c) as [k0 |] eqn:Ea.
    + destruct (acc_facts k0 Ea) as [-> _]. rewrite Nat.eqb_refl in Ew.
      assert (Fo : forall f b k, k <> r_tx r -> @fupd bool f (r_tx r) b k = f k).
      { intros. unfold fupd. destruct (Nat.eqb_spec k (r_tx r)); [congruence | auto]. }
      assert (Fe : forall f b, @fupd bool f (r_tx r) b (r_tx r) = b) by (intros; unfold fupd; rewrite Nat.eqb_refl; auto).
      subst w. cb. apply J_mk_idle; cb; auto; try lia.
      * destruct (kill c); auto.
      * intros k a f H. destruct (Nat.eq_dec k (r_tx r)) as [-> | N]; [rewrite !Fe; auto | rewrite !(Fo _ _ _ N)]. eapply Hgt; [eauto | congruence].
      * intros k H. destruct (Nat.eq_dec k (r_tx r)) as [-> | N]; [apply Fe |]. rewrite (Fo _ _ _ N) in H. rewrite (Fo _ _ _ N). auto.
      * intros k H. destruct (Nat.eq_dec k (r_tx r)) as [-> | N]; [apply Fe |]. rewrite (Fo _ _ _ N) in H. rewrite (Fo _ _ _ N). auto.
      * intros S k H. destruct (Nat.eq_dec k (r_tx r)) as [-> | N]; [| rewrite (Fo _ _ _ N) in H; apply Hlk; [auto | auto | congruence]].
        split.
        -- unfold out_now. rewrite Ea. unfold fupd. rewrite Nat.eqb_refl. pose proof (en_acc _ _ _ _ _ HE _ Ea) as A.
           destruct (offered y (r_tx r)); congruence.
        -- unfold gone0. destruct (c_rsp c) as [[id l] |] eqn:E; auto. destruct (Nat.eqb_spec id (r_tx r)); auto. subst id.
           exfalso. apply (en_sep _ _ _ _ _ HE S _ _ E Ea).
      * apply tab_keep; auto.
    + subst w. cb. apply J_mk_idle; cb; auto; try lia.
      * destruct (kill c); auto.
      * intros k a f H. eapply Hgt; [eauto | discriminate].
      * intros S k H. apply Hlk; [auto | auto | discriminate].
      * apply tab_keep; auto.
  - subst w; cb. split; discriminate.
Qed.
End Swap.
