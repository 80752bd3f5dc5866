From Verif Require Import Base IcModel IcSpec IcProofs IcInv.
Ltac Zify.zify_post_hook ::= Z.div_mod_to_equations.

Definition mid strict P (y : sys) (c : cinp) (r' : regs) (t' : tabs) (o : mout) : Prop :=
  J strict P r' t' (match o_rsp o with Some _ => None | None => serving y c end) (pages y c) (o_mem o) (late_of y c)
    (out_now y c) (gone_of c o) (pb_of o) (y_pb0 y) /\
  (forall rs, o_rsp o = Some rs -> exists pc, serving y c = Some pc /\ answer_ok P pc (pages y c) (c_tr c (pc / 4096)) rs) /\
  (r_st r' = SWAP_IN -> r_busy r' = false -> c_acc c <> Some (r_tx r')) /\
  (r_st r' = CANCEL_WAIT -> kill c = true).

(** A hit in the tables. *)
Lemma hit_tag : forall m tag way, hit_way m tag = Some way -> exists s, m = Some s /\ fst (s way) = true /\ snd (s way) = tag.
Proof.
  unfold hit_way; intros. destruct m as [s |]; [| discriminate]. apply find_way_spec in H. destruct H as [H _].
  apply andb_prop in H. destruct H as [A B]. apply Z.eqb_eq in B. exists s; auto.
Qed.
Lemma idx_page : forall pc, idx_of pc = pc mod 4096 / 64.
Proof. unfold idx_of; intros. lia. Qed.

Ltac leaf_of HC HEv K V Rv Hst Hsl :=
  unfold comb_core, eval_fsm in HC; rewrite HEv, ?Hst, ?Hsl in HC;
  match goal with I := mkminp _ _ _ _ _ _ _ _ _ _ _ _ _ |- _ => unfold I in HC end;
  cbn [i_pc i_v i_kill i_pv] in HC; rewrite ?K in HC; cb; rewrite ?V, ?Rv in HC; cbn [negb andb] in HC; inversion HC; clear HC HEv.
Section Idle.
Variables (strict : bool) (P : Z -> Z -> Prop) (y : sys) (c : cinp) (second : bool).
Hypothesis HJ : Jy strict P y.
Hypothesis HE : env_ok strict P y c second.
Let r := ic_r (y_ic y).
Let t := ic_t (y_ic y).
Variables (i : minp) (w : regs) (o : mout).
Hypothesis HF : fin c t r i.
Hypothesis HC : comb_core i r = (w, o).

Lemma mid_idle : r_st r = IDLE -> mid strict P y c w (tab_write (c_fencei c) (o_tw o) t) o.
Proof.
  intros Hst.
  destruct HJ as [Jpend Jidle Jswap Jwait Jcanc Jdrain Jout Jbusy Jfree Jci Jii Jleak Jpres Jlate Jpb0 Jpb1 Jpi Jpil Jpw Jpl Jpd Jmd Jtab Jppn].
  fold r in Jpend, Jidle, Jswap, Jwait, Jcanc, Jdrain, Jout, Jbusy, Jfree, Jci, Jii, Jleak, Jpres, Jlate, Jpb0, Jpb1, Jpi, Jpil, Jpw, Jpl, Jpd, Jmd, Jppn.
  fold t in Jtab.
  destruct (Jidle Hst) as [Htx Hbu].
  assert (Hacc : c_acc c = None).
  { destruct (c_acc c) as [k |] eqn:E; auto. exfalso.
    destruct (offered_pres _ _ _ HJ k (en_acc _ _ _ _ _ HE k E)) as [_ [[A _] | A]]; fold r in A; congruence. }
  assert (Hout : out_now y c = y_out y) by (unfold out_now; rewrite Hacc; auto).
  assert (Hpr : y_pres y = None).
  { destruct (y_pres y) as [[k a] |] eqn:E; auto. destruct (Jpres k a eq_refl). congruence. }
  assert (Hla : late_of y c = None) by (unfold late_of; rewrite Hpr; destruct (c_ready c), (c_acc c); auto).
  assert (Hpi : r_pi r = false).
  { destruct (r_pi r) eqn:E; auto. destruct (Jpi eq_refl) as [[A | A] _]; congruence. }
  assert (Hrs : forall id l, c_rsp c = Some (id, l) -> r_can r id = true /\ r_inf r id = true /\ y_out y id <> None).
  { intros id l E. destruct (en_rsp _ _ _ _ _ HE id l E) as [a [f [A _]]]. rewrite Hout in A.
    destruct (Jout id a f A) as [_ [B | [B [C | [C _]]]]]; try congruence. sp; congruence. }
  assert (Ht : trq c r = match serving y c with Some pc => Some (c_tr c (pc / 4096)) | None => None end).
  { unfold trq, serving, slot_idle. rewrite Hst, Htx, Hbu, Jpend. destruct (kill c) eqn:K; auto.
    destruct (c_v c) eqn:V.
    - destruct (en_v _ _ _ _ _ HE V) as [_ [h G]]. unfold glue_ready in G. fold r in G.
      destruct (r_rv r); [rewrite !andb_false_r in G; discriminate | reflexivity].
    - destruct (r_rv r); reflexivity. }
  assert (Hvr : c_v c = true -> r_rv r = false).
  { intros V. destruct (en_v _ _ _ _ _ HE V) as [_ [h G]]. unfold glue_ready in G. fold r in G.
    destruct (r_rv r); [rewrite !andb_false_r in G; discriminate | reflexivity]. }
  destruct i as [ipc iv ik ifl ippn ipv ipf irdy iac irs idc imeta idata].
  pose proof (f_tr _ _ _ _ HF) as Htr. rewrite Ht in Htr.
  pose proof (f_data _ _ _ _ HF Hst) as Hdat.
  pose proof (f_pc _ _ _ _ HF) as F1. pose proof (f_v _ _ _ _ HF) as F2. pose proof (f_kill _ _ _ _ HF) as F3.
  pose proof (f_flush _ _ _ _ HF) as F4. pose proof (f_acc _ _ _ _ HF) as F5. pose proof (f_rsp _ _ _ _ HF) as F6.
  pose proof (f_meta _ _ _ _ HF) as F7. pose proof (f_dc _ _ _ _ HF) as F8.
  cbn [i_pc i_v i_kill i_flush i_ppn i_pv i_pf i_ready i_acc i_rsp i_dc i_meta i_data] in *.
  subst ipc iv ik ifl iac irs idc. clear HF.
  set (I := mkminp _ _ _ _ _ _ _ _ _ _ _ _ _) in *.
  set (r0 := match c_rsp c with Some (id, _) => s_id id false false r | None => r end).
  set (rr := match c_rsp c with Some _ => true | None => false end).
  assert (Hr0 : pre_clean I r = r0).
  { unfold pre_clean, r0, pre_rdy, canceled. cbn [I i_rsp]. destruct (c_rsp c) as [[id l] |] eqn:E; auto.
    destruct (Hrs id l eq_refl) as [-> _]. reflexivity. }
  assert (Hrr : pre_rdy I r = rr).
  { unfold rr, pre_rdy, orphan, canceled. cbn [I i_rsp]. destruct (c_rsp c) as [[id l] |] eqn:E; auto.
    destruct (Hrs id l eq_refl) as [-> _]. reflexivity. }
  assert (HEv : eval0 I r = ev_idle I r r0 rr) by (unfold eval0; rewrite Hst, Hr0, Hrr; reflexivity).
  assert (Hsl : slot_idle r = negb (r_rv r)) by (unfold slot_idle; rewrite Hst, Htx, Hbu, !andb_true_r; reflexivity).
  unfold ev_idle in HEv. cbv zeta in HEv.
  cbn [I i_pc i_v i_kill i_flush i_ppn i_pv i_pf i_ready i_acc i_rsp i_dc i_meta] in HEv. rewrite Htx, Hbu in HEv.
  assert (G : forall o', o_rrdy o' = rr -> forall k, gone_of c o' k = true -> r_inf r0 k = false).
  { intros o' E k. unfold gone_of, r0, rr in *. destruct (c_rsp c) as [[id l] |]; [| discriminate].
    rewrite E, andb_true_r. intros Q. apply Nat.eqb_eq in Q. subst. cb. unfold fupd. rewrite Nat.eqb_refl. auto. }
  assert (G' : forall o', o_rrdy o' = rr -> forall k, gone_of c o' k = false -> r_inf r0 k = r_inf r k /\ r_can r0 k = r_can r k).
  { intros o' E k. unfold gone_of, r0, rr in *. destruct (c_rsp c) as [[id l] |]; [| auto].
    rewrite E, andb_true_r. intros Q. apply Nat.eqb_neq in Q. cb. unfold fupd.
    destruct (Nat.eqb_spec k id); [congruence | auto]. }
  assert (R0 : forall A (p : regs -> A), (forall id, p (s_id id false false r) = p r) -> p r0 = p r).
  { intros. unfold r0. destruct (c_rsp c) as [[] |]; auto. }
  assert (Ero : r_pc r0 = r_pc r /\ r_pw r0 = r_pw r /\ r_rv r0 = r_rv r /\ r_tx r0 = r_tx r /\ r_txv r0 = false /\ r_pi r0 = false)
    by (sp; unfold r0; destruct (c_rsp c) as [[] |]; auto).
  assert (C0 : forall k, r_can r0 k = true -> r_inf r0 k = true).
  { intros k. unfold r0. destruct (c_rsp c) as [[id l] |]; [| auto]. cb. unfold fupd. destruct (Nat.eqb k id); auto. }
  assert (I0 : forall k, r_inf r0 k = true -> r_can r0 k = true).
  { assert (I1 : forall k, r_inf r k = true -> r_can r k = true) by (intros k Q; destruct (Jii k Q) as [? | [? _]]; [auto | congruence]).
    intros k. unfold r0. destruct (c_rsp c) as [[id l] |]; [| auto]. cb. unfold fupd. destruct (Nat.eqb k id); auto. }
  clearbody r0 rr. clear Hr0 Hrr.
  destruct Ero as [Epc [Epw [Erv [Etx [Etv Epi]]]]].
  assert (O0 : forall o', o_rrdy o' = rr -> forall k a f, out_now y c k = Some (a, f) ->
     (k < 16)%nat /\ (gone_of c o' k = true \/ (r_inf r0 k = true /\ r_can r0 k = true))).
  { intros o' E k a f Q. rewrite Hout in Q. destruct (Jout _ _ _ Q) as [A [B | [B B']]]; [discriminate |].
    split; auto. destruct (gone_of c o' k) eqn:Gk; auto. right. destruct (G' _ E _ Gk) as [-> ->]. split; auto.
    destruct B' as [B' | [B' _]]; [auto | congruence]. }
  assert (L0 : forall o', o_rrdy o' = rr -> strict = true -> forall k, r_inf r0 k = true -> out_now y c k <> None /\ gone_of c o' k = false).
  { intros o' E S k Q. rewrite Hout. destruct (gone_of c o' k) eqn:Gk.
    - rewrite (G _ E _ Gk) in Q. discriminate.
    - split; auto. destruct (G' _ E _ Gk) as [A _]. rewrite A in Q. apply (Jleak S k Q). }
  assert (Trivial : forall r' o', r_st r' = IDLE -> r_txv r' = false -> r_busy r' = false -> r_pi r' = false -> r_pw r' = r_pw r0 ->
     r_inf r' = r_inf r0 -> r_can r' = r_can r0 ->
     (match o_rsp o' with Some _ => None | None => serving y c end) = (if r_rv r' then Some (r_pc r') else None) ->
     o_rrdy o' = rr -> o_tw o' = None -> o_mem o' = None ->
     (forall rs, o_rsp o' = Some rs -> exists pc, serving y c = Some pc /\ answer_ok P pc (pages y c) (c_tr c (pc / 4096)) rs) ->
     mid strict P y c r' (tab_write (c_fencei c) (o_tw o') t) o').
  { intros r' o' A1 A2 A3 A4 A5 A6 A7 A8 A9 A10 A11 A12. unfold mid. split; [| split; [auto | split; intros; congruence]].
    rewrite A10, A11, Hla. apply J_mk_idle; auto.
    - rewrite A5, Epw. auto.
    - intros. rewrite A6, A7. eapply O0; eauto.
    - rewrite A6, A7. auto.
    - rewrite A6, A7. auto.
    - intros. rewrite A6 in H0. eapply L0; eauto.
    - apply tab_keep; auto. }
  assert (Hser : kill c = false -> serving y c = if c_v c then Some (c_pc c) else if r_rv r then Some (r_pc r) else None).
  { intros K. unfold serving. rewrite K. rewrite Jpend. auto. }
  assert (Hpg : forall pc p, serving y c = Some pc -> c_tr c (pc / 4096) = TOk p -> In p (pages y c)).
  { intros pc p A B. unfold pages. rewrite A, B. left; auto. }
  assert (Hhit : forall pc way l, kill c = false -> serving y c = Some pc -> look_pc c r = pc -> hit_way imeta ippn = Some way ->
     ipv = true -> ipf = false -> (r_rv r = true \/ c_v c = true) -> hit_data I way = Some l ->
     answer_ok P pc (pages y c) (c_tr c (pc / 4096)) (pc, false, l)).
  { clear HC. intros pc way l K Hs Hl Hh Hp Hf Hv Hd. cbn. split; auto.
    rewrite Hs in Htr. destruct (c_tr c (pc / 4096)) as [ | | p] eqn:Ec;
      [rewrite Hp in Htr; discriminate Htr | destruct Htr as [_ Q]; rewrite Hf in Q; discriminate Q |].
    destruct Htr as [_ [_ ->]]. exists p. split; [apply (Hpg pc p); auto |].
    rewrite (Hdat K Hp Hf Hv way Hh) in Hd. inversion Hd. rewrite Hl. clear Hd H0.
    destruct (hit_tag _ _ _ Hh) as [s [A [B C]]]. rewrite F7 in A. unfold meta_of in A.
    destruct (read_en c r); [| discriminate]. inversion A. rewrite Hl in H0. subst s.
    intros n Hn. rewrite <- (idx_page pc). rewrite <- C. apply Jtab; auto. }
  destruct (kill c) eqn:K.
  { leaf_of HC HEv K K K Hst Hsl; subst w o. apply Trivial; cb; auto; try discriminate.
    unfold serving. rewrite K. auto. }
  specialize (Hser eq_refl).
  destruct (r_rv r) eqn:Rv; cbn [negb andb] in HEv.
  - (* a registered request *)
    assert (V : c_v c = false) by (destruct (c_v c); auto; specialize (Hvr eq_refl); discriminate).
    rewrite V in Hser. rewrite Hser in Htr. cbn [andb] in HEv.
    assert (Lk : look_pc c r = r_pc r) by (unfold look_pc; rewrite Rv; auto).
    destruct ipv eqn:Hp; cbn [andb] in HEv.
    + destruct ipf eqn:Hf.
      * leaf_of HC HEv K V Rv Hst Hsl; subst w o. apply Trivial; cb; auto.
        intros rs Q. inversion Q; subst rs. exists (r_pc r). split; auto. cbn. split; auto.
        destruct (c_tr c (r_pc r / 4096)); [discriminate Htr | auto | destruct Htr as [_ [Q' _]]; discriminate Q'].
      * destruct (hit_way imeta ippn) as [way |] eqn:Hw.
        -- destruct (hit_data I way) as [l |] eqn:Hd.
           ++ leaf_of HC HEv K V Rv Hst Hsl; subst w o. apply Trivial; cb; auto.
              intros rs Q. inversion Q; subst rs. exists (r_pc r). split; auto. eapply Hhit; eauto.
           ++ rewrite (Hdat eq_refl eq_refl eq_refl (or_introl eq_refl) way eq_refl) in Hd. discriminate.
        -- destruct (alloc_txid r) as [tx |] eqn:Ha.
           ++ destruct (alloc_spec _ _ Ha) as [Hi0 Hi1].
              assert (Hi2 : r_inf r0 tx = false).
              { destruct (r_inf r0 tx) eqn:Q; auto. exfalso.
                set (o' := mkmout None false None None rr None None None).
                destruct (gone_of c o' tx) eqn:Gk.
                - rewrite (G o' eq_refl _ Gk) in Q. discriminate.
                - destruct (G' o' eq_refl _ Gk). congruence. }
              assert (Hc2 : r_can r0 tx = false) by (destruct (r_can r0 tx) eqn:Q; auto; rewrite (C0 _ Q) in Hi2; discriminate).
              destruct (c_tr c (r_pc r / 4096)) as [ | | p] eqn:Ec; [discriminate Htr | destruct Htr as [_ Q]; discriminate Q |].
              destruct Htr as [_ [_ Hpp]]. subst ippn.
              leaf_of HC HEv K V Rv Hst Hsl; subst w o.
              unfold mid. cb. split; [| split; [intros; discriminate | split; [congruence | intros; discriminate]]].
              rewrite Hla. cbn [pb_of o_probe].
              split; cb; intros; try discriminate; try congruence; auto.
              ** match goal with |- _ /\ (gone_of c ?o' _ = true \/ _) => destruct (O0 o' eq_refl _ _ _ H) as [A [B | [B B']]]; tauto end.
              ** lia.
              ** lia.
              ** apply tab_keep; auto.
              ** split; [eapply Hpg; eauto | eapply (en_tr _ _ _ _ _ HE); eauto].
           ++ leaf_of HC HEv K V Rv Hst Hsl; subst w o. apply Trivial; cb; auto; try discriminate.
              rewrite Epc. auto.
    + leaf_of HC HEv K V Rv Hst Hsl; subst w o. apply Trivial; cb; auto; try discriminate. rewrite Epc. auto.
  - (* the slot is empty *)
    destruct (c_v c) eqn:V.
    + rewrite Hser in Htr. cbn [andb] in HEv.
      assert (Lk : look_pc c r = c_pc c) by (unfold look_pc; rewrite Rv; auto).
      destruct ipv eqn:Hp; cbn [andb] in HEv.
      * destruct ipf eqn:Hf.
        -- leaf_of HC HEv K V Rv Hst Hsl; subst w o. apply Trivial; cb; auto.
           intros rs Q. inversion Q; subst rs. exists (c_pc c). split; auto. cbn. split; auto.
           destruct (c_tr c (c_pc c / 4096)); [discriminate Htr | auto | destruct Htr as [_ [Q' _]]; discriminate Q'].
        -- destruct (hit_way imeta ippn) as [way |] eqn:Hw.
           ++ destruct (hit_data I way) as [l |] eqn:Hd.
              ** leaf_of HC HEv K V Rv Hst Hsl; subst w o. apply Trivial; cb; auto.
                 intros rs Q. inversion Q; subst rs. exists (c_pc c). split; auto. eapply Hhit; eauto.
              ** rewrite (Hdat eq_refl eq_refl eq_refl (or_intror eq_refl) way eq_refl) in Hd. discriminate.
           ++ leaf_of HC HEv K V Rv Hst Hsl; subst w o. apply Trivial; cb; auto; try discriminate.
      * leaf_of HC HEv K V Rv Hst Hsl; subst w o. apply Trivial; cb; auto; try discriminate.
    + leaf_of HC HEv K V Rv Hst Hsl; subst w o. apply Trivial; cb; auto; try discriminate.
Qed.
End Idle.
