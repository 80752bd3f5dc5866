(** One tick after the AXI phase preserves the invariant. *)
From Verif Require Import Base BaseLemmas MemSpec MemModel MemProofs DcModel DcSpec DcLemmas DcInv DcStage DcMiss DcFill.
Ltac Zify.zify_post_hook ::= Z.div_mod_to_equations.
#[local] Opaque Z.pow Z.land Z.lor Z.shiftl Z.shiftr.

Lemma Bl_after B N l w k : wk w k -> Bl (after_stores B N) l w k = effs N l w k (Bl B l w k).
Proof. intros [W K]. unfold Bl. now apply after_effs. Qed.

(** ms_done *)
Lemma done_spec B M c wb ms sf f id : Core B M c wb ms sf -> ms_hold ms = true -> id = ms_hid ms -> fw_valid sf = true ->
  let msd := ms_done (Some id) ms in
  (forall l i, hasM ms l i -> ~ held ms l -> hasM msd l i) /\ (forall l i, hasM msd l i -> hasM ms l i /\ ~ held ms l) /\ ms_hold msd = false /\
  ((f = 8 - ms_count ms)%nat -> MC B M (busy c wb ms) msd msd [] f).
Proof.
  intros K H -> FV. cbv zeta. destruct K as [Kw Kc Km Kf Kx Kv]. destruct (mo_h _ _ Km H) as (I & V & IS).
  unfold ms_done. rewrite H, V, IS, Nat.eqb_refl. unfold MSHRS. replace (Nat.ltb (ms_hid ms) 8) with true by (symmetry; now apply Nat.ltb_lt).
  cbn [andb]. set (msd := mkms _ _ _ _ _).
  assert (EN : forall i, i <> ms_hid ms -> ms_ent msd i = ms_ent ms i). { intros i NE. unfold msd; cbn [ms_ent]. unfold fupd. destruct (Nat.eqb_spec i (ms_hid ms)); congruence. }
  assert (EH : me_valid (ms_ent msd (ms_hid ms)) = false). { unfold msd; cbn [ms_ent]. unfold fupd. rewrite Nat.eqb_refl. reflexivity. }
  assert (HN : forall l i, hasM msd l i -> i <> ms_hid ms). { intros l i (_ & X & _) ->. congruence. }
  assert (M1 : forall l i, hasM ms l i -> ~ held ms l -> hasM msd l i).
  { intros l i HM NH. assert (i <> ms_hid ms). { intros ->. apply NH. split; auto. apply HM. } unfold hasM. rewrite EN; auto. }
  assert (M2 : forall l i, hasM msd l i -> hasM ms l i /\ ~ held ms l).
  { intros l i HM. pose proof (HN _ _ HM) as NE. assert (HM' : hasM ms l i) by (unfold hasM in *; rewrite EN in HM; auto). split; auto.
    intros HH. apply NE. apply (mo_u _ _ Km l); auto. eapply held_M; eauto. }
  assert (CN : cnt ms = S (cnt msd)).
  { unfold cnt. apply cntf_set with (j := ms_hid ms); auto. intros i NE. rewrite EN; auto. }
  sp; auto. intros ->. pose proof (cntf_le (fun i => me_valid (ms_ent ms i)) 8) as LE. fold (cnt ms) in LE. apply MC_base.
  - intros i Hi Vi. destruct (Nat.eq_dec i (ms_hid ms)) as [->|NE]; [congruence|]. rewrite EN in * by auto. apply (mo_a _ _ Km); auto.
  - intros l i j HI HJ. apply M2 in HI, HJ. eapply (mo_u _ _ Km); [apply HI|apply HJ].
  - unfold msd at 1; cbn [ms_count]. rewrite (mo_c _ _ Km). lia.
  - rewrite (mo_c _ _ Km). lia.
  - intros l i HI D w W. pose proof (HN _ _ HI). rewrite EN in * by auto. apply M2 in HI. eapply (mo_cl _ _ Km); [apply HI|auto|auto].
  - intros l i HI _ w k WK. pose proof (HN _ _ HI) as NE. rewrite EN by auto. apply M2 in HI. apply (v_m _ _ _ _ _ _ Kv); try tauto.
    + destruct HI as [(X1 & X2 & X3) _]. destruct (mo_a _ _ Km _ X1 X2) as (l' & L' & A'). replace l with l' by lia. auto.
    + intros [_ X]. congruence.
Qed.
Lemma hasM_isl M ms l i : Mok M ms -> hasM ms l i -> isl l.
Proof. intros Km (X1 & X2 & X3). destruct (mo_a _ _ Km _ X1 X2) as (l' & L' & A'). replace l with l' by lia. auto. Qed.
Lemma hasW_isl wb l j : Wok wb -> hasW wb l j -> isl l.
Proof. intros Kw (X1 & X2). destruct (wo_a _ Kw _ X1) as (l' & L' & A'). replace l with l' by lia. auto. Qed.
Lemma nodone_spec B M c wb ms sf f : Core B M c wb ms sf -> (fw_valid sf = true -> ms_hold ms = true) -> (f = 8 - ms_count ms)%nat -> MC B M (busy c wb ms) ms ms [] f.
Proof.
  intros [Kw Kc Km Kf Kx Kv] FH ->. pose proof (cntf_le (fun i => me_valid (ms_ent ms i)) 8) as LE. fold (cnt ms) in LE. apply MC_base; try apply Km.
  - rewrite (mo_c _ _ Km). lia.
  - intros l i HI NH w k WK. apply (v_m _ _ _ _ _ _ Kv); auto. eapply hasM_isl; eauto. intros [X Y]. apply NH. auto.
Qed.

Section Comb.
  Variables (B M : Z -> Z) (c : cache) (wb : wbst) (ms : mshr) (sf : fillw).
  Variables (L0 L1 : option (loadreq * bool)) (T0 T1 : option (storereq * bool)) (ic0 ic1 : bool) (fo : option Z).
  Hypothesis K : Core B M c wb ms sf.
  Hypotheses (AL0 : lslot_ok L0) (AL1 : lslot_ok L1) (AT0 : slot_ok T0) (AT1 : slot_ok T1).
  Hypothesis FO : fw_valid sf = true -> fo = Some (fw_set sf).

  Definition g_m0 := wb_merge wb (st_mg T0).
  Definition g_wb2 := snd g_m0.
  Definition g_m1 := wb_merge g_wb2 (st_mg T1).
  Definition g_wb3 := snd g_m1.
  Definition g_F := s2_fill sf (read_fill c fo) (WBS - wb_count wb).
  Definition g_fw0 := fst (fst g_F).
  Definition g_dirty := snd (fst g_F).
  Definition g_done := snd g_F.
  Definition g_l0 := s2_load c L0 (ld_set L0) (wb_bypass wb (ld_by L0)) (ms_find ms (ld_fd L0)) ic0 (MSHRS - ms_count ms).
  Definition g_l1 := s2_load c L1 (ld_set L1) (wb_bypass wb (ld_by L1)) (ms_find ms (ld_fd L1)) ic1 (l_free g_l0).
  Definition g_t0 := s2_store c T0 (st_set T0) (fst g_m0) (ms_find ms (st_fd T0)) (ms_fill_req ms) sf g_fw0 (l_free g_l1).
  Definition g_t1 := s2_store c T1 (st_set T1) (fst g_m1) (ms_find ms (st_fd T1)) (ms_fill_req ms) sf (t_fw g_t0) (t_free g_t0).
  Definition g_c4 := dcache_write_slot None (t_lru g_t1) (dcache_write_slot None (t_lru g_t0)
                       (dcache_write_slot (t_pw g_t1) (l_lru g_l1) (dcache_write_slot (t_pw g_t0) (l_lru g_l0) c))).
  Definition g_c5 := dcache_write_fill (t_fw g_t1) g_c4.
  Definition g_msd := ms_done g_done ms.
  Definition g_ms2 := ms_alloc (t_req g_t1) (ms_alloc (t_req g_t0) (ms_alloc (l_req g_l1) (ms_alloc (l_req g_l0) g_msd))).
  Definition g_wb4 := wb_push g_dirty g_wb3.
  Definition g_N := raw_done T0 (t_resp g_t0) ++ raw_done T1 (t_resp g_t1).

  Lemma gW : Wok g_wb3 /\ (forall l k, hasW g_wb3 l k <-> hasW wb l k) /\ wb_head g_wb3 = wb_head wb /\ wb_count g_wb3 = wb_count wb /\
    wb_send g_wb3 = wb_send wb /\ (wb_send wb = true -> (0 < wb_count wb)%nat -> went g_wb3 0 = went wb 0) /\
    mg_ok wb T0 (fst g_m0) /\ mg_ok wb T1 (fst g_m1) /\
    (forall l j w k, hasW wb l j -> wk w k -> bsel (we_data (went g_wb3 j) w) k = effs (mg_done T0 (fst g_m0) ++ mg_done T1 (fst g_m1)) l w k (bsel (we_data (went wb j) w) k)).
  Proof.
    unfold g_wb3, g_m1, g_wb2, g_m0. pose proof (wb_merge_spec wb T0 (k_w _ _ _ _ _ _ K) AT0) as P0.
    destruct (wb_merge wb (st_mg T0)) as [r0 wb2]. cbn [fst snd]. destruct P0 as ((H1 & H2 & H3) & A1 & S1 & D1 & G1).
    destruct (Wok_same wb wb2 (k_w _ _ _ _ _ _ K) H1 H2 A1) as [W2 HW2].
    pose proof (wb_merge_spec wb2 T1 W2 AT1) as P1. destruct (wb_merge wb2 (st_mg T1)) as [r1 wb3]. cbn [fst snd].
    destruct P1 as ((H1' & H2' & H3') & A1' & S1' & D1' & G1'). destruct (Wok_same wb2 wb3 W2 H1' H2' A1') as [W3 HW3].
    sp; auto; try congruence.
    - intros l k. rewrite HW3. apply HW2.
    - intros S P. rewrite S1' by congruence. auto.
    - destruct T1 as [[q [|]]|]; cbn; auto. destruct G1' as [X Y]. split.
      + intros k Hk. apply X with (k := k). now apply HW2.
      + intros N. apply Y. intros k Hk. apply (N k). now apply HW2.
    - intros l j w k HW WK. rewrite effs_app. rewrite (D1' l) by (auto; now apply HW2). f_equal. auto.
  Qed.
  Lemma gF : fview c sf (8 - wb_count wb) (g_fw0, g_dirty, g_done).
  Proof. unfold g_fw0, g_dirty, g_done, g_F. pose proof (s2_fill_view c sf fo (8 - wb_count wb) FO) as P. destruct (s2_fill _ _ _) as [[a b] d]. exact P. Qed.
  Lemma gL0 : lview c wb ms ic0 (8 - ms_count ms) L0 g_l0.
  Proof. eapply s2_load_view; eauto; apply K. Qed.
  Lemma gL1 : lview c wb ms ic1 (l_free g_l0) L1 g_l1.
  Proof. eapply s2_load_view; eauto; apply K. Qed.
  Lemma gT0 : sview c wb ms sf g_fw0 (l_free g_l1) (fst g_m0) T0 g_t0.
  Proof. eapply s2_store_view; eauto; try apply K. apply gW. Qed.
  Lemma gT1 : sview c wb ms sf (t_fw g_t0) (t_free g_t0) (fst g_m1) T1 g_t1.
  Proof. eapply s2_store_view; eauto; try apply K. apply gW. Qed.
  Lemma gC : same_tv c g_c4 /\
    (forall l v, isl l -> hasC c l v -> forall w k, wk w k -> bsel (c_data g_c4 (l mod 256) v w) k = effs g_N l w k (bsel (c_data c (l mod 256) v w) k)) /\
    (forall l v, isl l -> hasC c l v -> c_dirty g_c4 (l mod 256) v = false -> c_dirty c (l mod 256) v = false /\ forall s, In s g_N -> ds_addr s / 64 <> l).
  Proof.
    unfold g_c4. set (c1 := dcache_write_slot (t_pw g_t0) (l_lru g_l0) c). set (c2 := dcache_write_slot (t_pw g_t1) (l_lru g_l1) c1).
    destruct K as [Kw Kc Km Kf Kx Kv].
    destruct (pw_step M c wb ms sf Kc Km Kx _ _ _ _ _ (l_lru g_l0) c AT0 gT0 ltac:(split; auto)) as (S1 & D1 & Y1).
    destruct (pw_step M c wb ms sf Kc Km Kx _ _ _ _ _ (l_lru g_l1) c1 AT1 gT1 S1) as (S2 & D2 & Y2). fold c1 in S1, D1, Y1. fold c2 in S2, D2, Y2.
    destruct (dws_fields None (t_lru g_t0) c2) as ([T3 V3] & D3 & Y3). set (c3 := dcache_write_slot None (t_lru g_t0) c2) in *.
    destruct (dws_fields None (t_lru g_t1) c3) as ([T4 V4] & D4 & Y4). set (c4 := dcache_write_slot None (t_lru g_t1) c3) in *.
    rewrite D4, D3, Y4, Y3. sp.
    - destruct S2. split; congruence.
    - intros l v L H w k WK. rewrite D2, D1 by auto. unfold g_N. now rewrite effs_app.
    - intros l v L H E. destruct (Y2 _ _ L H E) as [E1 N1]. destruct (Y1 _ _ L H E1) as [E0 N0]. split; auto. intros s S. unfold g_N in S. apply in_app_iff in S. destruct S; auto.
  Qed.
  Lemma gWd l j w k : isl l -> hasW wb l j -> wk w k -> bsel (we_data (went g_wb3 j) w) k = effs g_N l w k (bsel (we_data (went wb j) w) k).
  Proof.
    intros L HW WK. destruct gW as (_ & _ & _ & _ & _ & _ & G0 & G1 & D). rewrite (D l) by auto. unfold g_N. rewrite !effs_app.
    destruct K as [Kw Kc Km Kf Kx Kv].
    rewrite (wb_same M c wb ms sf Km Kx _ _ _ _ _ l j w k _ AT0 gT0 G0 L HW).
    rewrite (wb_same M c wb ms sf Km Kx _ _ _ _ _ l j w k _ AT1 gT1 G1 L HW). reflexivity.
  Qed.
  Lemma gN_isl s : In s g_N -> isl (ds_addr s / 64).
  Proof. unfold g_N. intros S. apply in_app_iff in S. destruct S as [S|S]; [exact (raw_isl _ _ _ AT0 S)|exact (raw_isl _ _ _ AT1 S)]. Qed.

  (** the miss registers *)
  Lemma gM : (fw_valid sf = true -> ms_hold ms = true) ->
    MC B M (busy c wb ms) g_msd g_ms2 g_N (t_free g_t1) /\
    (forall l i, hasM ms l i -> ~ held ms l -> hasM g_msd l i) /\ (forall l i, hasM g_msd l i -> hasM ms l i) /\
    (g_done = None -> g_msd = ms) /\
    (g_done <> None -> fw_valid sf = true /\ ms_hold g_msd = false /\ (forall l i, hasM g_msd l i -> ~ held ms l)).
  Proof.
    intros FH. pose proof gF as F. destruct K as [Kw Kc Km Kf Kx Kv].
    assert (BASE : (forall l i, hasM ms l i -> ~ held ms l -> hasM g_msd l i) /\ (forall l i, hasM g_msd l i -> hasM ms l i) /\
      (g_done = None -> g_msd = ms) /\ (g_done <> None -> fw_valid sf = true /\ ms_hold g_msd = false /\ (forall l i, hasM g_msd l i -> ~ held ms l)) /\
      MC B M (busy c wb ms) g_msd g_msd [] (8 - ms_count ms)).
    { unfold g_msd. assert (SD : fw_valid sf = true -> g_done = Some (fw_id sf) ->
        (forall l i, hasM ms l i -> ~ held ms l -> hasM (ms_done g_done ms) l i) /\ (forall l i, hasM (ms_done g_done ms) l i -> hasM ms l i) /\
      (g_done = None -> ms_done g_done ms = ms) /\ (g_done <> None -> fw_valid sf = true /\ ms_hold (ms_done g_done ms) = false /\ (forall l i, hasM (ms_done g_done ms) l i -> ~ held ms l)) /\
      MC B M (busy c wb ms) (ms_done g_done ms) (ms_done g_done ms) [] (8 - ms_count ms)).
      { intros FV ->. destruct (done_spec B M c wb ms sf (8 - ms_count ms) (fw_id sf) K (FH FV) ltac:(apply (Kf FV)) FV) as (D1 & D2 & D3 & D4).
        split; auto. split. { intros l i H. apply D2 in H. tauto. } split; [discriminate|]. split; auto. intros _. sp; auto. intros l i H. apply D2 in H. tauto. }
      assert (SN : g_done = None -> (forall l i, hasM ms l i -> ~ held ms l -> hasM (ms_done g_done ms) l i) /\ (forall l i, hasM (ms_done g_done ms) l i -> hasM ms l i) /\
      (g_done = None -> ms_done g_done ms = ms) /\ (g_done <> None -> fw_valid sf = true /\ ms_hold (ms_done g_done ms) = false /\ (forall l i, hasM (ms_done g_done ms) l i -> ~ held ms l)) /\
      MC B M (busy c wb ms) (ms_done g_done ms) (ms_done g_done ms) [] (8 - ms_count ms)).
      { intros ->. cbn [ms_done]. split; auto. split; auto. split; auto. split; [congruence|]. eapply nodone_spec; eauto. }
      assert (FD : g_done = None \/ (fw_valid sf = true /\ g_done = Some (fw_id sf))) by (inversion F; auto).
      destruct FD as [E|[E1 E2]]; auto. }
    destruct BASE as (D1 & D2 & D3 & D4 & D5). sp; auto.
    assert (Dh : ms_hold g_msd = true -> (ms_hid g_msd < 8)%nat /\ me_valid (ms_ent g_msd (ms_hid g_msd)) = true).
    { destruct g_done eqn:E; [destruct D4 as (_ & X & _); [discriminate|congruence]|]. rewrite D3 by auto. intros H. destruct (mo_h _ _ Km H) as (X & Y & _). auto. }
    assert (Dheld : forall l, held g_msd l -> held ms l).
    { intros l [H A]. destruct g_done eqn:E; [destruct D4 as (_ & X & _); [discriminate|congruence]|]. rewrite D3 in * by auto. split; auto. }
    assert (Db : forall l i, isl l -> hasM g_msd l i -> held ms l -> ms_hold g_msd = true /\ ms_hid g_msd = i).
    { intros l i L H HH. destruct g_done eqn:E; [destruct D4 as (_ & _ & X); [discriminate|exfalso; eapply X; eauto]|]. rewrite D3 in * by auto. split; [apply HH|]. apply (mo_u _ _ Km l); auto. eapply held_M; eauto. }
    assert (Dn : forall l, isl l -> ~ busy c wb ms l -> (forall i, ~ hasM g_msd l i) -> forall w k, wk w k -> bsel (Ml M l w) k = Bl B l w k).
    { intros l L NB NM. apply (v_0 _ _ _ _ _ _ Kv); auto.
      - intros v H. apply NB. left. eauto.
      - intros j H. apply NB. right; left. eauto.
      - intros i H. apply (NM i). apply D1; auto. intros HH. apply NB. right; right; auto. }
    destruct gW as (_ & _ & _ & _ & _ & _ & G0 & G1 & _).
    assert (X0 : MC B M (busy c wb ms) g_msd (ms_alloc (l_req g_l0) g_msd) [] (l_free g_l0)).
    { eapply MC_load; [..|exact AL0|exact gL0|exact D5]; eauto. }
    assert (X1 : MC B M (busy c wb ms) g_msd (ms_alloc (l_req g_l1) (ms_alloc (l_req g_l0) g_msd)) [] (l_free g_l1)).
    { eapply MC_load; [..|exact AL1|exact gL1|exact X0]; eauto. }
    pose proof (MC_store M c wb ms sf Km Kx B g_msd D1 D2 Dh Dheld Db Dn _ _ _ _ _ _ _ AT0 gT0 G0 X1) as X2.
    exact (MC_store M c wb ms sf Km Kx B g_msd D1 D2 Dh Dheld Db Dn _ _ _ _ _ _ _ AT1 gT1 G1 X2).
  Qed.

  Lemma fw_keep f fw mg slot t : sview c wb ms sf fw f mg slot t -> fw_valid fw = false -> t_fw t = fw.
  Proof. intros V F. inversion V; subst; auto. congruence. Qed.
  Lemma M_cond (P : Prop) : (g_done = None -> P) -> (g_done <> None -> P) -> P.
  Proof. intros A1 A2. destruct g_done; [apply A2; discriminate|apply A1; reflexivity]. Qed.

  Lemma core_nowrite Nf nf : g_fw0 = fillw0 -> g_dirty = None -> g_done = None -> (fw_valid sf = true -> ms_hold ms = true) ->
    (ms_hold ms = false /\ fw_valid nf = false /\ Nf = []) \/
    (exists lh, isl lh /\ held ms lh /\ fw_valid nf = true /\ fw_id nf = ms_hid ms /\ fw_set nf = lh mod 256 /\ fw_tag nf = lh / 256 /\
      (forall s, In s Nf -> ds_addr s / 64 = lh) /\
      (forall w k, wk w k -> bsel (fw_data nf w) k = effs (Nf ++ g_N) lh w k (Bl B lh w k)) /\
      (fw_dirty nf = false -> forall w k, wk w k -> bsel (Ml M lh w) k = effs (Nf ++ g_N) lh w k (Bl B lh w k))) ->
    Core (after_stores B (Nf ++ g_N)) M g_c5 g_wb4 g_ms2 nf.
  Proof.
    intros F0 DN DD FH NFH.
    destruct (gM FH) as (MCk & _ & _ & MD & _). specialize (MD DD). rewrite MD in MCk.
    destruct gC as (TV & CD & CY). destruct gW as (W3 & HW3 & _ & CT3 & _).
    assert (C5 : g_c5 = g_c4).
    { unfold g_c5. assert (E0 : t_fw g_t0 = fillw0) by (rewrite (fw_keep _ _ _ _ _ gT0); auto; rewrite F0; reflexivity).
      assert (E1 : t_fw g_t1 = fillw0) by (rewrite (fw_keep _ _ _ _ _ gT1); auto; rewrite E0; reflexivity). rewrite E1. reflexivity. }
    assert (W4 : g_wb4 = g_wb3) by (unfold g_wb4; rewrite DN; reflexivity).
    rewrite C5, W4. destruct K as [Kw Kc Km Kf Kx Kv]. destruct MCk as [m1 m2 m3 m4 m5 m6 m7 m8 m9 m10 m11]. destruct m1 as (h1 & h2 & h3).
    assert (HC : forall l v, hasC g_c4 l v <-> hasC c l v) by (intros; now apply same_tv_has).
    assert (MO : forall l i, hasM ms l i -> hasM g_ms2 l i).
    { intros l i (X1 & X2 & X3). destruct (m2 i X1 X2) as (Y1 & Y2 & _). split; auto. split; congruence. }
    assert (HE : forall l, held g_ms2 l <-> held ms l).
    { intros l. unfold held. rewrite h1, h2. split; intros [H A]; split; auto; rewrite m10 in * by auto; auto. }
    assert (OFF : forall l w k o, ~ held ms l -> effs (Nf ++ g_N) l w k o = effs g_N l w k o).
    { intros l w k o NH. rewrite effs_app. f_equal. apply effs_off. intros s S E. destruct NFH as [(_ & _ & X)|(lh & _ & HH & _ & _ & _ & _ & X & _)].
      - rewrite X in S. destruct S.
      - rewrite (X s S) in E. subst. auto. }
    assert (MX : forall l i, isl l -> hasM g_ms2 l i -> busy c wb ms l -> held ms l).
    { intros l i L H Bs. destruct (m3 _ _ H) as [H'|(X & _)]; [|tauto]. destruct Bs as [[v X]|[[j X]|X]]; auto; exfalso; [eapply (x_cm _ _ _ Kx)|eapply (x_wm _ _ _ Kx)]; eauto. }
    assert (NHC : forall l v, isl l -> hasC c l v -> ~ held ms l). { intros l v L H HH. eapply (x_cm _ _ _ Kx); eauto. eapply held_M; eauto. }
    assert (NHW : forall l j, isl l -> hasW wb l j -> ~ held ms l). { intros l j L H HH. eapply (x_wm _ _ _ Kx); eauto. eapply held_M; eauto. }
    constructor.
    - exact W3.
    - destruct TV as [T V]. destruct Kc. constructor.
      + intros s v S Hv. rewrite T, V. auto.
      + intros l v v' H H'. apply HC in H, H'. eauto.
    - constructor; auto.
      + rewrite h1, h2. intros H. rewrite m10 by auto. exact (mo_h _ _ Km H).
      + intros l H w k WK. apply HE in H. rewrite h3. apply (mo_hd _ _ Km); auto.
    - intros V. destruct NFH as [(_ & X & _)|(lh & L & HH & _ & I & S & T & _)]; [congruence|]. sp.
      + rewrite h1. apply HH.
      + congruence.
      + intros l H. apply HE in H. assert (l = lh) by (eapply held_inj; eauto). subst. auto.
    - constructor.
      + intros l v k L H H'. apply HC in H. apply HW3 in H'. eapply (x_cw _ _ _ Kx); eauto.
      + intros l v i L H H'. apply HC in H. apply (NHC l v L H). eapply MX; eauto. left; eauto.
      + intros l k i L H H'. apply HW3 in H. apply (NHW l k L H). eapply MX; eauto. right; left; eauto.
    - constructor.
      + intros l v L H w k WK. apply HC in H. rewrite Bl_after, OFF by eauto. rewrite CD by auto. f_equal. apply (v_c _ _ _ _ _ _ Kv); auto.
      + intros l v L H D w k WK. apply HC in H. destruct (CY _ _ L H D) as [D' N]. rewrite Bl_after, OFF, effs_off by eauto. eapply (v_cc _ _ _ _ _ _ Kv); eauto.
      + intros l j L H w k WK. apply HW3 in H. rewrite Bl_after, OFF by eauto. rewrite (gWd l) by auto. f_equal. apply (v_w _ _ _ _ _ _ Kv); auto.
      + intros l i L H NX w k WK. rewrite h2 in NX.
        assert (NH : ~ (ms_hold ms = true /\ ms_hid ms = i)). { intros [X Y]. apply NX. split; auto. destruct NFH as [(Z1 & _)|(lh & _ & _ & Z1 & _)]; [congruence|auto]. }
        rewrite Bl_after, OFF; auto. intros HH. apply NH. split; [apply HH|]. apply (m5 l); auto. apply MO. eapply held_M; eauto.
      + intros V l L H w k WK. apply HE in H. destruct NFH as [(_ & X & _)|(lh & _ & HH & _ & _ & _ & _ & _ & X & _)]; [congruence|].
        assert (l = lh) by (eapply held_inj; eauto). subst. rewrite Bl_after by auto. auto.
      + intros V D l L H w k WK. apply HE in H. destruct NFH as [(_ & X & _)|(lh & _ & HH & _ & _ & _ & _ & _ & _ & X)]; [congruence|].
        assert (l = lh) by (eapply held_inj; eauto). subst. rewrite Bl_after by auto. auto.
      + intros l L N1 N2 N3 w k WK.
        assert (NH : ~ held ms l). { intros HH. apply (N3 (ms_hid ms)). apply MO. eapply held_M; eauto. }
        assert (NB : ~ busy c wb ms l). { intros [[v X]|[[j X]|X]]; auto; [apply (N1 v); now apply HC|apply (N2 j); now apply HW3]. }
        rewrite Bl_after, OFF, effs_off by eauto. apply (v_0 _ _ _ _ _ _ Kv); auto.
        * intros v X. apply (N1 v). now apply HC.
        * intros j X. apply (N2 j). now apply HW3.
        * intros i X. apply (N3 i). now apply MO.
  Qed.

  Lemma core_write v nf : fw_valid sf = true -> g_fw0 = wr sf v -> (v < 4)%nat -> g_done = Some (fw_id sf) -> ms_hold ms = true -> fw_valid nf = false ->
    (g_dirty = None /\ (c_valid c (fw_set sf) v = true -> c_dirty c (fw_set sf) v = false)) \/
    (g_dirty = Some (mkwbe (get_addr (fw_set sf) (c_tag c (fw_set sf) v) 0) (c_data c (fw_set sf) v)) /\ c_valid c (fw_set sf) v = true /\ (wb_count wb < 8)%nat) ->
    Core (after_stores B g_N) M g_c5 g_wb4 g_ms2 nf.
  Proof.
    intros FV F0 VL DD HO NV EV.
    destruct (gM (fun _ => HO)) as (MCk & _ & MD' & _ & MD). destruct MD as (_ & HOd & MDH); [rewrite DD; discriminate|].
    destruct gC as (TV & CD & CY). destruct gW as (W3 & HW3 & HD3 & CT3 & _).
    destruct K as [Kw Kc Km Kf Kx Kv].
    destruct (held_ex _ _ Km HO) as (lh & LH & HH). destruct (Kf FV) as (_ & FI & FS). destruct (FS lh HH) as [FSet FTag].
    destruct (now_step M c wb ms sf Km Kx _ _ _ _ _ lh AT0 gT0 LH HH FV ltac:(rewrite F0; reflexivity)) as (P1 & P2 & P3 & P4 & _ & P5 & P6).
    destruct (now_step M c wb ms sf Km Kx _ _ _ _ _ lh AT1 gT1 LH HH FV P1) as (Q1 & Q2 & Q3 & Q4 & _ & Q5 & Q6).
    rewrite F0 in P2, P3, P4, P5, P6. cbn [wr fw_set fw_tag fw_way fw_data fw_dirty] in P2, P3, P4, P5, P6. rewrite P2 in Q2. rewrite P3 in Q3. rewrite P4 in Q4.
    assert (NC : forall v', ~ hasC c lh v'). { intros v' H. eapply (x_cm _ _ _ Kx); eauto. eapply held_M; eauto. }
    assert (HC4 : forall l v, hasC g_c4 l v <-> hasC c l v) by (intros; now apply same_tv_has).
    destruct (fill_write g_c4 (t_fw g_t1) lh Q1 LH ltac:(congruence) ltac:(congruence)) as (R1 & R2 & R3 & R4). { intros v' H. apply HC4 in H. exact (NC _ H). }
    fold g_c5 in R1, R2, R3, R4. rewrite Q2 in *. rewrite Q3, Q4 in *. destruct TV as [T4 V4].
    set (S := fw_set sf) in *.
    (* presence in the cache afterwards *)
    assert (HC5 : forall l v', hasC g_c5 l v' <-> (l = lh /\ v' = v) \/ (hasC c l v' /\ ~ (l mod 256 = S /\ v' = v))).
    { intros l v'. unfold hasC. rewrite R1, R2, T4, V4. unfold zupd, fupd. destruct (Z.eqb_spec (l mod 256) S) as [E|NE].
      - destruct (Nat.eqb_spec v' v) as [->|NE].
        + split; [intros (_ & _ & X); left; split; auto; rewrite FTag in X; rewrite FSet in E; lia|]. intros [[-> _]|[_ X]]; [|exfalso; apply X; auto]. auto.
        + rewrite <- E. split; [intros X; right; split; auto; intros [_ ?]; congruence|]. intros [[_ ?]|[X _]]; [congruence|auto].
      - split; [intros X; right; split; auto; intros [? _]; congruence|]. intros [[-> _]|[X _]]; [|auto]. congruence. }
    (* the victim *)
    set (lv := c_tag c S v * 256 + S).
    assert (SR : 0 <= S < 256) by (rewrite FSet; lia).
    assert (LVm : lv mod 256 = S). { unfold lv. clearbody S. lia. }
    assert (LVd : lv / 256 = c_tag c S v). { unfold lv. clearbody S. lia. }
    assert (LV : c_valid c S v = true -> isl lv /\ hasC c lv v).
    { intros X. assert (TG : 0 <= c_tag c S v < 2 ^ 18) by (apply (co_t _ Kc); auto). split.
      - unfold isl. rewrite LN_eq. change (2 ^ 18) with 262144 in TG. unfold lv. clearbody S. lia.
      - unfold hasC. rewrite LVm, LVd. auto. }
    assert (VQ : forall l, isl l -> hasC c l v -> l mod 256 = S -> forall s, In s g_N -> ds_addr s / 64 <> l).
    { intros l L H E s SS. unfold g_N in SS. apply in_app_iff in SS. destruct SS as [SS|SS].
      - eapply (victim_quiet M c wb ms sf Kc Km Kx _ _ _ _ _ l v AT0 gT0); eauto. rewrite F0. reflexivity.
      - eapply (victim_quiet M c wb ms sf Kc Km Kx _ _ _ _ _ l v AT1 gT1); eauto. }
    assert (VU : forall l, hasC c l v -> l mod 256 = S -> l = lv).
    { intros l (_ & _ & X) E. rewrite E in X. unfold lv. lia. }
    destruct MCk as [m1 m2 m3 m4 m5 m6 m7 m8 m9 m10 m11]. destruct m1 as (h1 & h2 & h3).
    assert (H2 : ms_hold g_ms2 = false) by congruence.
    (* presence in the write buffer afterwards *)
    assert (WB : Wok g_wb4 /\ (forall l k, hasW wb l k -> hasW g_wb4 l k /\ went g_wb4 k = went g_wb3 k) /\
                 (forall l k, hasW g_wb4 l k -> hasW wb l k \/ (l = lv /\ c_valid c S v = true /\ we_data (went g_wb4 k) = c_data c S v)) /\
                 (c_valid c S v = true -> c_dirty c S v = true -> exists k, hasW g_wb4 lv k)).
    { unfold g_wb4. destruct EV as [[-> CL]|(-> & CV & CT)]; cbn [wb_push].
      - sp; auto.
        + intros l k H. split; auto. now apply HW3.
        + intros l k H. left. now apply HW3.
        + intros X Y. rewrite CL in Y; congruence.
      - destruct (LV CV) as [LVi LVc]. rewrite CT3, HD3. unfold WBS. replace (Nat.ltb (wb_count wb) 8) with true by (symmetry; now apply Nat.ltb_lt).
        assert (GA : get_addr S (c_tag c S v) 0 = lv * 64). { rewrite <- LVm at 1. rewrite <- LVd. apply get_addr_line. exact LVi. }
        rewrite GA. set (wb4 := mkwb _ _ _ _). pose proof (wo_c _ W3) as W3c. pose proof (wo_h _ W3) as W3h.
        assert (WS : forall k, wslot wb4 k = wslot g_wb3 k). { intros k. unfold wslot, wb4. cbn [wb_head]. rewrite HD3. reflexivity. }
        assert (WEo : forall k, (k < wb_count wb)%nat -> went wb4 k = went g_wb3 k).
        { intros k Hk. unfold went. rewrite WS. unfold wb4; cbn [wb_buf]. unfold fupd.
          destruct (Nat.eqb_spec (wslot g_wb3 k) (Nat.modulo (wb_head wb + wb_count wb) 8)) as [E|]; [|reflexivity]. exfalso.
          rewrite <- HD3 in E. fold (wslot g_wb3 (wb_count wb)) in E. apply wslot_inj in E; lia. }
        assert (WEn : went wb4 (wb_count wb) = mkwbe (lv * 64) (c_data c S v)).
        { unfold went. rewrite WS. unfold wb4; cbn [wb_buf]. unfold fupd. unfold wslot. rewrite HD3, Nat.eqb_refl. reflexivity. }
        assert (HWn : forall l k, hasW wb4 l k <-> hasW wb l k \/ (k = wb_count wb /\ l = lv)).
        { intros l k. rewrite <- HW3. unfold hasW. unfold wb4 at 1; cbn [wb_count]. rewrite CT3. split.
          - intros [Kk A]. destruct (Nat.eq_dec k (wb_count wb)) as [->|].
            + right. rewrite WEn in A. cbn in A. split; auto. lia.
            + left. rewrite WEo in A by lia. split; auto. lia.
          - intros [[Kk A]|[-> ->]].
            + rewrite WEo by lia. split; auto. lia.
            + rewrite WEn. split; auto. lia. }
        assert (NW : forall k, ~ hasW wb lv k). { intros k H. eapply (x_cw _ _ _ Kx); eauto. }
        sp.
        + constructor.
          * unfold wb4; cbn. lia.
          * unfold wb4; cbn. congruence.
          * intros k Hk. unfold wb4 in Hk; cbn in Hk. destruct (Nat.eq_dec k (wb_count wb)) as [->|].
            -- exists lv. rewrite WEn. auto.
            -- rewrite WEo by lia. apply (wo_a _ W3). lia.
          * intros l k k' A1 A2. apply HWn in A1, A2. destruct A1 as [A1|[-> ->]]; destruct A2 as [A2|[-> A3]]; auto; subst; try (exfalso; eapply NW; eauto; fail). eapply (wo_u _ Kw); eauto.
        + intros l k H. split; [apply HWn; auto|]. apply WEo. apply H.
        + intros l k H. apply HWn in H. destruct H as [H|[-> ->]]; auto. right. sp; auto. rewrite WEn. reflexivity.
        + intros _ _. exists (wb_count wb). apply HWn. auto. }
    destruct WB as (W4 & HW4 & HW4' & HWv).
    assert (MX : forall l i, isl l -> hasM g_ms2 l i -> ~ busy c wb ms l).
    { intros l i L H Bs. destruct (m3 _ _ H) as [H'|(X & _)]; [|tauto]. pose proof (MDH _ _ H') as NH. apply MD' in H'. destruct Bs as [[v' X]|[[j X]|X]]; auto; [eapply (x_cm _ _ _ Kx)|eapply (x_wm _ _ _ Kx)]; eauto. }
    assert (NN : forall l, ~ held g_ms2 l) by (intros l [X _]; congruence).
    assert (DF : forall w k, wk w k -> bsel (fw_data (t_fw g_t1) w) k = effs g_N lh w k (Bl B lh w k)).
    { intros w k WK. rewrite Q5, P5 by auto. unfold g_N. rewrite effs_app. f_equal. f_equal. apply (v_f _ _ _ _ _ _ Kv); auto. }
    assert (DFC : fw_dirty (t_fw g_t1) = false -> forall w k, wk w k -> bsel (Ml M lh w) k = effs g_N lh w k (Bl B lh w k)).
    { intros D w k WK. destruct (Q6 D) as [D1 N1]. destruct (P6 D1) as [D0 N0]. rewrite effs_off.
      - apply (v_fc _ _ _ _ _ _ Kv); auto.
      - intros s SS. unfold g_N in SS. apply in_app_iff in SS. destruct SS; auto. }
    constructor.
    - exact W4.
    - constructor.
      + intros s v' Ss Vv. rewrite R1, R2, T4, V4. unfold zupd, fupd. destruct (Z.eqb_spec s S) as [->|]; [|apply (co_t _ Kc); auto].
        destruct (Nat.eqb_spec v' v) as [->|]; [|apply (co_t _ Kc); auto]. intros _. rewrite FTag. unfold isl in LH. rewrite LN_eq in LH. change (2 ^ 18) with 262144. lia.
      + intros l v1 v2 A1 A2. apply HC5 in A1, A2. destruct A1 as [[-> ->]|[A1 _]]; destruct A2 as [[E ->]|[A2 _]]; auto; try (subst; exfalso; eapply NC; eauto; fail). eapply (co_u _ Kc); eauto.
    - constructor; auto; try congruence. intros l H. exfalso. exact (NN _ H).
    - intros V. congruence.
    - constructor.
      + intros l v' k L A1 A2. apply HC5 in A1. apply HW4' in A2. destruct A1 as [[-> ->]|[A1 A1']]; destruct A2 as [A2|(-> & CV & _)].
        * eapply (x_wm _ _ _ Kx); eauto. eapply held_M; eauto.
        * apply (NC v). apply LV; auto.
        * eapply (x_cw _ _ _ Kx); eauto.
        * apply A1'. split; auto. eapply (co_u _ Kc); eauto. apply LV; auto.
      + intros l v' i L A1 A2. apply (MX l i L A2). apply HC5 in A1. destruct A1 as [[-> ->]|[A1 _]]; [right; right; auto|left; eauto].
      + intros l k i L A1 A2. apply (MX l i L A2). apply HW4' in A1. destruct A1 as [A1|(-> & CV & _)]; [right; left; eauto|left; exists v; apply LV; auto].
    - constructor.
      + intros l v' L A1 w k WK. rewrite Bl_after by auto. rewrite R3. unfold zupd, fupd. apply HC5 in A1. destruct A1 as [[-> ->]|[A1 A1']].
        * rewrite FSet, Z.eqb_refl, Nat.eqb_refl. auto.
        * destruct (Z.eqb_spec (l mod 256) S) as [E|]; [destruct (Nat.eqb_spec v' v) as [E'|]; [exfalso; auto|rewrite <- E]|]; rewrite CD by auto; f_equal; apply (v_c _ _ _ _ _ _ Kv); auto.
      + intros l v' L A1 D w k WK. rewrite Bl_after by auto. rewrite R4 in D. apply HC5 in A1. destruct A1 as [[-> ->]|[A1 A1']].
        * rewrite FSet, Z.eqb_refl, Nat.eqb_refl in D. cbn [andb] in D. auto.
        * assert (D' : c_dirty g_c4 (l mod 256) v' = false).
          { destruct (Z.eqb_spec (l mod 256) S) as [E|]; [|exact D]. destruct (Nat.eqb_spec v' v) as [E'|]; [exfalso; auto|exact D]. }
          destruct (CY _ _ L A1 D') as [D0 N]. rewrite effs_off by auto. eapply (v_cc _ _ _ _ _ _ Kv); eauto.
      + intros l j L A1 w k WK. rewrite Bl_after by auto. destruct (HW4' _ _ A1) as [A2|(-> & CV & ED)].
        * destruct (HW4 _ _ A2) as [_ ->]. rewrite (gWd l) by auto. f_equal. apply (v_w _ _ _ _ _ _ Kv); auto.
        * rewrite ED. destruct (LV CV) as [L1' C1]. rewrite effs_off by (apply VQ; auto). pose proof (v_c _ _ _ _ _ _ Kv lv v L1' C1 w k WK) as X. rewrite LVm in X. exact X.
      + intros l i L A1 _ w k WK. rewrite Bl_after by auto. apply m9; auto. intros [X _]. congruence.
      + congruence.
      + congruence.
      + intros l L N1 N2 N3 w k WK. rewrite Bl_after by auto.
        destruct (hasC_dec c l) as [[v' A1]|NCl].
        * assert (E : l mod 256 = S /\ v' = v).
          { destruct (Z.eq_dec (l mod 256) S) as [E|NE]; [destruct (Nat.eq_dec v' v); auto|]; exfalso; apply (N1 v'); apply HC5; right; split; auto; intros [? ?]; auto. }
          destruct E as [E ->]. rewrite effs_off by (apply VQ; auto). eapply (v_cc _ _ _ _ _ _ Kv); eauto. rewrite E.
          destruct (c_dirty c S v) eqn:DV; auto. exfalso. assert (l = lv) by (apply VU; auto). subst l. destruct HWv as [k' X]; auto; [destruct A1 as (_ & X & _); rewrite E in X; exact X|]. exact (N2 k' X).
        * assert (NW : forall j, ~ hasW wb l j). { intros j X. apply (N2 j). apply HW4. auto. }
          assert (NH : ~ held ms l). { intros X. assert (E : l = lh) by (eapply held_inj; eauto). rewrite E in *. apply (N1 v). apply HC5. auto. }
          assert (NB : ~ busy c wb ms l). { intros [[v' X]|[[j X]|X]]; auto; [eapply NCl|eapply NW]; eauto. }
          rewrite effs_off by (intros s SS; apply m11 with (l := l); auto). apply (v_0 _ _ _ _ _ _ Kv); auto.
          intros i X. destruct (gM (fun _ => HO)) as (_ & D1 & _). destruct (D1 _ _ X NH) as (Y1 & Y2 & Y3). destruct (m2 _ Y1 Y2) as (Z1 & Z2 & _). apply (N3 i). split; auto. split; congruence.
  Qed.
End Comb.
