(** The invariant of the data-cache domain over all executions. *)
From Verif Require Import Base BaseLemmas MemSpec MemModel MemProofs DcModel DcSpec DcLemmas DcInv DcStage DcMiss DcFill DcTick.
Ltac Zify.zify_post_hook ::= Z.div_mod_to_equations.
#[local] Opaque Z.pow Z.land Z.lor Z.shiftl Z.shiftr.

Definition laddr (s : option (loadreq * bool)) : option Z := match s with Some (q, _) => Some (lq_addr q) | None => None end.
Definition sargs (s : option (storereq * bool)) : option (Z * Z * Z) := match s with Some (q, _) => Some (sq_addr q, sq_data q, sq_strb q) | None => None end.
Definition meta_slots (sr : s1s2) : meta := mkmeta (laddr (s_ld0 sr)) (laddr (s_ld1 sr)) (sargs (s_st0 sr)) (sargs (s_st1 sr)).
Definition wires_slots (sr : s1s2) (fo : option Z) : s1wires :=
  mks1w (ld_set (s_ld0 sr)) (ld_set (s_ld1 sr)) (st_set (s_st0 sr)) (st_set (s_st1 sr)) (ld_by (s_ld0 sr)) (ld_by (s_ld1 sr))
        (st_mg (s_st0 sr)) (st_mg (s_st1 sr)) (ld_fd (s_ld0 sr)) (ld_fd (s_ld1 sr)) (st_fd (s_st0 sr)) (st_fd (s_st1 sr)) fo.
Definition slots_ok (sr : s1s2) : Prop := lslot_ok (s_ld0 sr) /\ lslot_ok (s_ld1 sr) /\ slot_ok (s_st0 sr) /\ slot_ok (s_st1 sr).
(** a latched store answer comes with its request, and does not wait for the line in the fill register *)
Definition Pnd (ms : mshr) (r : option storeresp) (m : option (Z * Z * Z)) : Prop :=
  match r with Some p => exists a d st, m = Some (a, d, st) /\ (waits (sp_replay p) = true -> ~ held ms (a / 64)) | None => True end.
Definition Lpd (r : option loadresp) (m : option Z) : Prop := match r with Some _ => m <> None | None => True end.

Record Inv (m0 : Z -> Z) (y : sys) : Prop := mkInv {
  i_core : Core (view m0 y) (y_mem y) (d_cache (y_d y)) (d_wb (y_d y)) (d_ms (y_d y)) (s_fill (d_s (y_d y)));
  i_wenv : Wenv (d_wb (y_d y)) (y_wr y);
  i_renv : Renv (d_ms (y_d y)) (y_rd y);
  i_hold : fw_valid (s_fill (d_s (y_d y))) = ms_hold (d_ms (y_d y));
  i_w : exists fo, d_w (y_d y) = wires_slots (d_s (y_d y)) fo /\ (fw_valid (s_fill (d_s (y_d y))) = true -> fo = Some (fw_set (s_fill (d_s (y_d y)))));
  i_sl : slots_ok (d_s (y_d y));
  i_meta : d_meta (y_d y) = meta_slots (d_s (y_d y));
  i_p0 : Pnd (d_ms (y_d y)) (la_st0 (d_pend (y_d y))) (la_ms0 (d_pend (y_d y)));
  i_p1 : Pnd (d_ms (y_d y)) (la_st1 (d_pend (y_d y))) (la_ms1 (d_pend (y_d y)));
  i_l0 : Lpd (la_ld0 (d_pend (y_d y))) (la_ml0 (d_pend (y_d y)));
  i_l1 : Lpd (la_ld1 (d_pend (y_d y))) (la_ml1 (d_pend (y_d y)));
  i_arr : (y_arr y <= length (y_hist y))%nat /\
          forall l, held (d_ms (y_d y)) l -> forall w k, wk w k ->
            bsel (fr_data (ms_fill_req (d_ms (y_d y))) w) k = Bl (after_stores (bytes_of m0) (firstn (y_arr y) (y_hist y))) l w k }.

(** ** The tick in terms of the stage functions *)
Section Open.
  Variables (i : tick_in) (s : dst).
  Definition o_wb := wb_inputs_axi (ti_wacc i) (ti_wresp i) (d_wb s).
  Definition o_ms := snd (ms_inputs_axi (ti_racc i) (ti_rresp i) (d_ms s)).
  Definition o_acc := fst (ms_inputs_axi (ti_racc i) (ti_rresp i) (d_ms s)).
  Definition o_sf := s_fill (d_s s).
  Definition o_L0 := s_ld0 (d_s s). Definition o_L1 := s_ld1 (d_s s). Definition o_T0 := s_st0 (d_s s). Definition o_T1 := s_st1 (d_s s).
  Definition o_i0 := Nat.eqb (s_icache (d_s s)) 0. Definition o_i1 := Nat.eqb (s_icache (d_s s)) 1.
  Definition o_l0 := g_l0 (d_cache s) o_wb o_ms o_L0 o_i0.
  Definition o_l1 := g_l1 (d_cache s) o_wb o_ms o_L0 o_L1 o_i0 o_i1.
  Definition o_t0 fo := g_t0 (d_cache s) o_wb o_ms o_sf o_L0 o_L1 o_T0 o_i0 o_i1 fo.
  Definition o_t1 fo := g_t1 (d_cache s) o_wb o_ms o_sf o_L0 o_L1 o_T0 o_T1 o_i0 o_i1 fo.
  Definition o_c5 fo := g_c5 (d_cache s) o_wb o_ms o_sf o_L0 o_L1 o_T0 o_T1 o_i0 o_i1 fo.
  Definition o_ms2 fo := g_ms2 (d_cache s) o_wb o_ms o_sf o_L0 o_L1 o_T0 o_T1 o_i0 o_i1 fo.
  Definition o_wb4 fo := g_wb4 (d_cache s) o_wb o_sf o_T0 o_T1 fo.
  Definition o_fa fo := if fw_valid (t_fw (o_t1 fo)) then Some (get_addr (fw_set (t_fw (o_t1 fo))) (fw_tag (t_fw (o_t1 fo))) 0) else None.
  Definition o_p1 fo := capture (l_resp o_l0) (l_resp o_l1) (t_resp (o_t0 fo)) (t_resp (o_t1 fo)) (o_fa fo) (meta_slots (d_s s)) (d_pend s).
  Definition o_p2 fo := fst (forward (ms_fill_req o_ms) (o_p1 fo)).
  Definition o_fr fo := snd (forward (ms_fill_req o_ms) (o_p1 fo)).
  Definition o_st fo := stage1 (ti_rq i) (o_fr fo) o_sf (t_fw (o_t1 fo)) (t_wire (o_t0 fo)) (t_wire (o_t1 fo)).
  Lemma tick_open fo : d_w s = wires_slots (d_s s) fo -> d_meta s = meta_slots (d_s s) ->
    tick i s = (mkdst (o_c5 fo) (o_wb4 fo) (o_ms2 fo) (fst (o_st fo)) (snd (o_st fo)) (meta_of (ti_rq i)) (if ti_clear i then latch0 else o_p2 fo),
                mkto (l_resp o_l0) (l_resp o_l1) (t_resp (o_t0 fo)) (t_resp (o_t1 fo)) (o_p2 fo)
                     (match ti_rresp i with Some _ => o_acc | None => negb (ms_hold (o_ms2 fo)) end)).
  Proof.
    intros W MT.
    assert (X : comb_outputs i s = mkmid (g_wb3 o_wb o_T0 o_T1) o_ms o_acc (ms_fill_req o_ms) (o_c5 fo) (t_fw (o_t1 fo))
                 (g_dirty (d_cache s) o_wb o_sf fo) (g_done (d_cache s) o_wb o_sf fo) o_l0 o_l1 (o_t0 fo) (o_t1 fo)).
    { unfold comb_outputs. rewrite W. unfold wires_slots. cbn [w_rd0 w_rd1 w_rd2 w_rd3 w_by0 w_by1 w_mg0 w_mg1 w_fd0 w_fd1 w_fd2 w_fd3 w_fo].
      unfold o_c5, o_t0, o_t1, o_l0, o_l1, g_c5, g_c4, g_t1, g_t0, g_l1, g_l0, g_dirty, g_done, g_fw0, g_F, g_wb3, g_m1, g_wb2, g_m0, o_ms, o_acc, o_wb, o_sf, o_L0, o_L1, o_T0, o_T1, o_i0, o_i1.
      destruct (ms_inputs_axi _ _ _) as [acc ms1]. cbn [fst snd].
      destruct (wb_merge (wb_inputs_axi _ _ _) _) as [mg0 wb2]. cbn [fst snd]. destruct (wb_merge wb2 _) as [mg1 wb3]. cbn [fst snd].
      destruct (s2_fill _ _ _) as [[fw0 dirty] done]. reflexivity. }
    unfold tick. rewrite X. cbn [x_wb x_ms x_acc x_fr x_cache x_fw x_dirty x_done x_l0 x_l1 x_t0 x_t1]. rewrite MT.
    fold (o_fa fo). fold (o_p1 fo). unfold o_st, o_fr, o_p2. destruct (forward _ (o_p1 fo)) as [p2 fr]. cbn [fst snd].
    destruct (stage1 _ _ _ _ _ _) as [s12 w]. reflexivity.
  Qed.
End Open.

(** ** Stage 1 *)
Lemma s1_load_spec q bk : laddr (fst (s1_load q bk)) = match q with Some r => Some (lq_addr r) | None => None end /\ (lrq_ok q -> lslot_ok (fst (s1_load q bk))).
Proof. unfold s1_load. destruct q as [r|]; [|cbn; auto]. destruct (try_grant bk (lq_addr r)) as [g bk']. cbn. auto. Qed.
Lemma s1_store_spec q bk : sargs (fst (s1_store q bk)) = match q with Some r => Some (sq_addr r, sq_data r, sq_strb r) | None => None end /\ (srq_ok q -> slot_ok (fst (s1_store q bk))).
Proof. unfold s1_store. destruct q as [r|]; [|cbn; auto]. destruct (try_grant bk (sq_addr r)) as [g bk']. cbn. auto. Qed.
Lemma stage1_spec rq fr sf fw w0 w1 : rq_ok rq ->
  let st := stage1 rq fr sf fw w0 w1 in
  slots_ok (fst st) /\ snd st = wires_slots (fst st) (snd (s1_fill fr sf fw w0 w1)) /\ meta_of rq = meta_slots (fst st) /\ s_fill (fst st) = fst (s1_fill fr sf fw w0 w1).
Proof.
  intros (A0 & A1 & A2 & A3). cbv zeta. unfold stage1. destruct (s1_fill fr sf fw w0 w1) as [nf fo].
  set (bk0 := match fo with Some _ => _ | None => _ end).
  destruct (s1_load_spec (rq_ld0 rq) bk0) as [E0 O0]. destruct (s1_load (rq_ld0 rq) bk0) as [l0 bk1].
  destruct (s1_load_spec (rq_ld1 rq) bk1) as [E1 O1]. destruct (s1_load (rq_ld1 rq) bk1) as [l1 bk2].
  destruct (s1_store_spec (rq_st0 rq) bk2) as [E2 O2]. destruct (s1_store (rq_st0 rq) bk2) as [t0 bk3].
  destruct (s1_store_spec (rq_st1 rq) bk3) as [E3 O3]. destruct (s1_store (rq_st1 rq) bk3) as [t1 bk4]. cbn [fst snd] in *.
  sp; auto.
  - split; [auto|split; [auto|split; auto]].
  - unfold meta_of, meta_slots. cbn [s_ld0 s_ld1 s_st0 s_st1]. rewrite E0, E1, E2, E3. reflexivity.
Qed.

Lemma wire_off w f : fw_valid f = false -> apply_wire w f = f.
Proof. unfold apply_wire. destruct w as [[[o d] m]|]; auto. intros ->. reflexivity. Qed.
Lemma s1_none fr sf fw w0 w1 : fr_valid fr = false -> fst (s1_fill fr sf fw w0 w1) = fillw0.
Proof.
  intros V. unfold s1_fill. cbv zeta. assert (S : s1_same fr sf = false) by (unfold s1_same; rewrite V; now rewrite andb_false_r). rewrite S, V. cbn [andb negb fst].
  rewrite (wire_off w0), (wire_off w1) by reflexivity. reflexivity.
Qed.
Lemma s1_new fr sf fw w0 w1 lh : isl lh -> fr_valid fr = true -> fr_addr fr = lh * 64 -> fw_valid sf = false ->
  s1_fill fr sf fw w0 w1 = (apply_wire w1 (apply_wire w0 (mkfw true (fr_id fr) (fr_dirty fr) (lh mod 256) (lh / 256) 0 (fr_data fr))), Some (lh mod 256)).
Proof.
  intros L V A S. unfold s1_fill. cbv zeta. assert (SM : s1_same fr sf = false) by (unfold s1_same; now rewrite S). rewrite SM, V. cbn [andb negb].
  rewrite A, f_set_eq, f_tag_eq. replace (lh * 64 / 64) with lh by lia. reflexivity.
Qed.
Lemma s1_same_true fr sf lh : isl lh -> fr_valid fr = true -> fr_addr fr = lh * 64 -> fw_valid sf = true -> fw_set sf = lh mod 256 -> fw_tag sf = lh / 256 -> s1_same fr sf = true.
Proof.
  intros L V A S E1 E2. unfold s1_same. rewrite S, V, A, f_set_eq, f_tag_eq. replace (lh * 64 / 64) with lh by lia. now rewrite E1, E2, !Z.eqb_refl.
Qed.
Lemma s1_hold fr sf fw w0 w1 lh : isl lh -> fr_valid fr = true -> fr_addr fr = lh * 64 -> fw_valid sf = true -> fw_set sf = lh mod 256 -> fw_tag sf = lh / 256 ->
  fw_valid fw = false -> s1_fill fr sf fw w0 w1 = (apply_wire w1 (apply_wire w0 sf), Some (lh mod 256)).
Proof.
  intros L V A S E1 E2 F. unfold s1_fill. cbv zeta. rewrite (s1_same_true fr sf lh), V, F by auto. cbn [andb negb]. rewrite A, f_set_eq. replace (lh * 64 / 64) with lh by lia. reflexivity.
Qed.
Lemma s1_written fr sf fw w0 w1 lh : isl lh -> fr_valid fr = true -> fr_addr fr = lh * 64 -> fw_valid sf = true -> fw_set sf = lh mod 256 -> fw_tag sf = lh / 256 ->
  fw_valid fw = true -> fst (s1_fill fr sf fw w0 w1) = fillw0.
Proof.
  intros L V A S E1 E2 F. unfold s1_fill. cbv zeta. rewrite (s1_same_true fr sf lh), V, F by auto. cbn [andb negb fst]. rewrite (wire_off w0), (wire_off w1) by reflexivity. reflexivity.
Qed.

(** ** The latch *)
Lemma raw_Pnd c wb ms sf fw f mg slot t M : Mok M ms -> sview c wb ms sf fw f mg slot t -> Pnd ms (t_resp t) (sargs slot).
Proof.
  intros Km V. unfold Pnd. inversion V; subst; cbn [t_resp sargs sp_replay waits]; auto; try (do 3 eexists; split; [reflexivity|discriminate]).
  do 3 eexists. split; [reflexivity|]. intros _ HH. apply (H1 (ms_hid ms)). eapply held_M; eauto.
Qed.
Lemma resp_none c wb ms sf fw f mg slot t : sview c wb ms sf fw f mg slot t -> t_resp t = None -> slot = None.
Proof. intros V E. inversion V; subst; auto; discriminate. Qed.
Definition pickm {A B} (a : option A) (x y : option B) : option B := match a with Some _ => x | None => y end.
Lemma cap_Pnd ms raw rm h hm : Pnd ms raw rm -> Pnd ms h hm -> Pnd ms (pre raw h) (pickm raw rm hm).
Proof. unfold pre, pickm. destruct raw; auto. Qed.
Lemma fwd_same r m : fwd_done r r m = [].
Proof. unfold fwd_done. destruct r as [p|]; auto. destruct m as [[[a d] st]|]; auto. destruct (sp_replay p); auto. Qed.
(** a store whose line is not the arriving one is left alone *)
Lemma fwd_other ms r m fr lh : isl lh -> held ms lh -> fr_addr fr = lh * 64 -> Pnd ms r m -> forward_store r m fr = (r, fr).
Proof.
  intros L HH A P. unfold forward_store. destruct r as [p|]; auto. destruct P as (a & d & st & -> & W). rewrite line_match, A.
  replace (lh * 64 / 64) with lh by lia. destruct (waits (sp_replay p)) eqn:E; cbn [andb]; auto. destruct (Z.eqb_spec (a / 64) lh) as [<-|]; auto. exfalso. apply W; auto.
Qed.
(** afterwards none waits for it *)
Lemma fwd_Pnd ms r m fr lh : isl lh -> held ms lh -> fr_addr fr = lh * 64 -> (r <> None -> exists a d st, m = Some (a, d, st)) -> Pnd ms (fst (forward_store r m fr)) m.
Proof.
  intros L HH A X. unfold forward_store. destruct r as [p|]; [|exact I]. destruct X as (a & d & st & ->); [discriminate|]. rewrite line_match, A.
  replace (lh * 64 / 64) with lh by lia. destruct (waits (sp_replay p)) eqn:E; cbn [andb].
  - destruct (Z.eqb_spec (a / 64) lh) as [E'|N]; cbn [fst].
    + do 3 eexists. split; [reflexivity|]. discriminate.
    + do 3 eexists. split; [reflexivity|]. intros _ H. apply N. eapply held_inj; eauto.
  - cbn [fst]. do 3 eexists. split; [reflexivity|]. congruence.
Qed.
Lemma Pnd_shape ms r m : Pnd ms r m -> r <> None -> exists a d st, m = Some (a, d, st).
Proof. destruct r; [|congruence]. intros (a & d & st & -> & _) _. eauto. Qed.
Lemma Pnd_mono ms ms' r m : (forall l, held ms' l -> held ms l) -> Pnd ms r m -> Pnd ms' r m.
Proof. intros H. unfold Pnd. destruct r; auto. intros (a & d & st & E & W). exists a, d, st. split; auto. intros Wt X. exact (W Wt (H _ X)). Qed.
Lemma Pnd_nohold ms r m : ms_hold ms = false -> (r <> None -> exists a d st, m = Some (a, d, st)) -> Pnd ms r m.
Proof. intros H X. destruct r; [|exact I]. destruct X as (a & d & st & ->); [discriminate|]. do 3 eexists. split; [reflexivity|]. intros _ [Y _]. congruence. Qed.

(** ** After the AXI phase *)
Lemma mid_core m0 y i m' : Inv m0 y -> axi_ok y i m' ->
  Core (view m0 y) m' (d_cache (y_d y)) (o_wb i (y_d y)) (o_ms i (y_d y)) (o_sf (y_d y)) /\
  Wenv (o_wb i (y_d y)) (if ti_wresp i then None else wr_now i y) /\
  Renv (o_ms i (y_d y)) (match ti_rresp i with Some (id, _) => if o_acc i (y_d y) then fupd (rd_now i y) id None else rd_now i y | None => rd_now i y end) /\
  (forall j, same_ent (ms_ent (d_ms (y_d y)) j) (ms_ent (o_ms i (y_d y)) j)) /\
  (o_acc i (y_d y) = true -> ms_hold (d_ms (y_d y)) = false /\ ms_hold (o_ms i (y_d y)) = true /\ ti_rresp i <> None) /\
  (o_acc i (y_d y) = false -> ms_hold (o_ms i (y_d y)) = ms_hold (d_ms (y_d y)) /\ ms_hid (o_ms i (y_d y)) = ms_hid (d_ms (y_d y)) /\ ms_hdata (o_ms i (y_d y)) = ms_hdata (d_ms (y_d y))).
Proof.
  intros I AX. destruct (wb_axi_core _ _ m' _ _ _ _ _ i y (i_core _ _ I) (i_wenv _ _ I) eq_refl eq_refl eq_refl AX) as (K1 & W1 & _).
  pose proof (ms_axi_core _ (y_mem y) m' _ _ _ _ i y K1 (i_renv _ _ I) eq_refl eq_refl AX) as K2.
  unfold o_ms, o_acc. destruct (ms_inputs_axi _ _ _) as [acc ms1]. cbn [fst snd]. destruct K2 as (A1 & A2 & A3 & A4 & A5). sp; auto.
Qed.

Lemma fr_held M ms lh : Mok M ms -> held ms lh ->
  fr_valid (ms_fill_req ms) = true /\ fr_id (ms_fill_req ms) = ms_hid ms /\ fr_addr (ms_fill_req ms) = lh * 64 /\ fr_dirty (ms_fill_req ms) = me_dirty (ms_ent ms (ms_hid ms)) /\
  (forall w k, wk w k -> bsel (fr_data (ms_fill_req ms) w) k = bsel (ovl (ms_ent ms (ms_hid ms)) (Ml M lh) w) k).
Proof.
  intros Km [H A]. unfold ms_fill_req. rewrite H. cbn [fr_valid fr_id fr_addr fr_dirty fr_data]. sp; auto. intros w k WK.
  change (if nz (me_strb (ms_ent ms (ms_hid ms)) w) then apply_strobe (ms_hdata ms w) (me_data (ms_ent ms (ms_hid ms)) w) (me_strb (ms_ent ms (ms_hid ms)) w) else ms_hdata ms w)
    with (ovl (ms_ent ms (ms_hid ms)) (ms_hdata ms) w).
  rewrite !bsel_ovl by apply WK. destruct (Z.testbit _ _); auto. apply (mo_hd _ _ Km); auto. split; auto.
Qed.
Lemma fr_none ms : ms_hold ms = false -> ms_fill_req ms = mkfr false 0 false 0 (fun _ => 0).
Proof. intros H. unfold ms_fill_req. now rewrite H. Qed.

Section Step.
  Variables (m0 : Z -> Z) (y : sys) (i : tick_in) (m' : Z -> Z) (fo : option Z).
  Notation s := (y_d y).
  Hypothesis II : Inv m0 y.
  Hypothesis AX : axi_ok y i m'.
  Hypothesis FO : fw_valid (o_sf s) = true -> fo = Some (fw_set (o_sf s)).
  Hypothesis DW : d_w s = wires_slots (d_s s) fo.
  Notation ms1 := (o_ms i s).
  Notation wb1 := (o_wb i s).
  Notation c := (d_cache s).
  Notation sf := (o_sf s).
  Notation p1 := (o_p1 i s fo).
  Notation p2 := (o_p2 i s fo).
  Notation nf := (fst (s1_fill (o_fr i s fo) sf (t_fw (o_t1 i s fo)) (t_wire (o_t0 i s fo)) (t_wire (o_t1 i s fo)))).
  Notation nfo := (snd (s1_fill (o_fr i s fo) sf (t_fw (o_t1 i s fo)) (t_wire (o_t0 i s fo)) (t_wire (o_t1 i s fo)))).
  Notation Nf := (fwd_done (la_st0 p1) (la_st0 p2) (la_ms0 p2) ++ fwd_done (la_st1 p1) (la_st1 p2) (la_ms1 p2)).
  Notation NN := (raw_done (o_T0 s) (t_resp (o_t0 i s fo)) ++ raw_done (o_T1 s) (t_resp (o_t1 i s fo))).

  Lemma fill_hold : fw_valid sf = true -> ms_hold ms1 = true /\ ms_hold (d_ms s) = true /\ ms_hid ms1 = ms_hid (d_ms s) /\ o_acc i s = false /\ (forall l, held ms1 l <-> held (d_ms s) l) /\
    fr_data (ms_fill_req ms1) = fr_data (ms_fill_req (d_ms s)).
  Proof.
    intros V. destruct (mid_core m0 y i m' II AX) as (_ & _ & _ & SE & A1 & A2). pose proof (i_hold _ _ II) as H. fold (o_sf s) in H. rewrite V in H.
    destruct (o_acc i s) eqn:E; [destruct (A1 eq_refl); congruence|]. destruct (A2 eq_refl) as (H1 & H2 & H3). sp; auto; try congruence.
    - intros l. unfold held. rewrite H1, H2. destruct (SE (ms_hid (d_ms s))) as (_ & -> & _). tauto.
    - unfold ms_fill_req. rewrite H1, H2, H3, <- H. cbn [fr_data]. destruct (SE (ms_hid (d_ms s))) as (_ & _ & _ & -> & ->). reflexivity.
  Qed.
  Lemma slots_here : slots_ok (d_s s). Proof. apply (i_sl _ _ II). Qed.
  Lemma P0raw : Pnd ms1 (t_resp (o_t0 i s fo)) (sargs (o_T0 s)) /\ Pnd ms1 (t_resp (o_t1 i s fo)) (sargs (o_T1 s)).
  Proof.
    destruct (mid_core m0 y i m' II AX) as (K & _). destruct slots_here as (A0 & A1 & A2 & A3).
    split; eapply raw_Pnd; try apply K; [eapply gT0 | eapply gT1]; eauto.
  Qed.
  Lemma shapes : (la_st0 p1 <> None -> exists a d st, la_ms0 p1 = Some (a, d, st)) /\ (la_st1 p1 <> None -> exists a d st, la_ms1 p1 = Some (a, d, st)) /\
    (fw_valid sf = true -> Pnd ms1 (la_st0 p1) (la_ms0 p1) /\ Pnd ms1 (la_st1 p1) (la_ms1 p1)).
  Proof.
    destruct P0raw as [R0 R1]. pose proof (i_p0 _ _ II) as Q0. pose proof (i_p1 _ _ II) as Q1.
    assert (E0 : la_st0 p1 = pre (t_resp (o_t0 i s fo)) (la_st0 (d_pend s)) /\ la_ms0 p1 = pickm (t_resp (o_t0 i s fo)) (sargs (o_T0 s)) (la_ms0 (d_pend s))) by (split; reflexivity).
    assert (E1 : la_st1 p1 = pre (t_resp (o_t1 i s fo)) (la_st1 (d_pend s)) /\ la_ms1 p1 = pickm (t_resp (o_t1 i s fo)) (sargs (o_T1 s)) (la_ms1 (d_pend s))) by (split; reflexivity).
    destruct E0 as [-> ->]. destruct E1 as [-> ->]. sp.
    - unfold pre, pickm. destruct (t_resp (o_t0 i s fo)); intros X; eapply Pnd_shape; eauto.
    - unfold pre, pickm. destruct (t_resp (o_t1 i s fo)); intros X; eapply Pnd_shape; eauto.
    - intros V. destruct (fill_hold V) as (_ & _ & _ & _ & HE & _).
      split; apply cap_Pnd; auto; (eapply Pnd_mono; [|eassumption]); intros l X; now apply HE.
  Qed.
  (** forwarding *)
  Lemma p2_fields : la_ms0 p2 = la_ms0 p1 /\ la_ms1 p2 = la_ms1 p1 /\ la_ml0 p2 = la_ml0 p1 /\ la_ml1 p2 = la_ml1 p1.
  Proof.
    unfold o_p2, forward. destruct (negb _); [auto|]. cbv zeta.
    destruct (forward_store (la_st0 _) _ _) as [t0 fr1]. destruct (forward_store (la_st1 _) _ _) as [t1 fr2]. cbn. auto.
  Qed.
  Lemma fwd_off : ms_hold ms1 = false -> p2 = p1 /\ o_fr i s fo = ms_fill_req ms1 /\ fr_valid (ms_fill_req ms1) = false.
  Proof. intros H. unfold o_p2, o_fr, forward. rewrite fr_none by auto. cbn [fr_valid negb fst snd]. auto. Qed.
  Lemma fwd_on lh : isl lh -> held ms1 lh ->
    fr_valid (o_fr i s fo) = true /\ fr_id (o_fr i s fo) = ms_hid ms1 /\ fr_addr (o_fr i s fo) = lh * 64 /\
    (forall d, In d Nf -> ds_addr d / 64 = lh) /\
    (forall w k, wk w k -> bsel (fr_data (o_fr i s fo) w) k = effs Nf lh w k (bsel (fr_data (ms_fill_req ms1) w) k)) /\
    (fr_dirty (o_fr i s fo) = false -> me_dirty (ms_ent ms1 (ms_hid ms1)) = false /\ Nf = []) /\
    Pnd ms1 (la_st0 p2) (la_ms0 p2) /\ Pnd ms1 (la_st1 p2) (la_ms1 p2) /\
    (fw_valid sf = true -> Nf = [] /\ o_fr i s fo = ms_fill_req ms1).
  Proof.
    intros L HH. destruct (mid_core m0 y i m' II AX) as (K & _). destruct (fr_held _ _ _ (k_m _ _ _ _ _ _ K) HH) as (V & ID & A & D & _).
    destruct shapes as (S0 & S1 & SF). destruct p2_fields as (M0 & M1 & _). rewrite M0, M1.
    pose proof (fwd_step (la_st0 p1) (la_ms0 p1) (ms_fill_req ms1) lh L V A) as X0.
    assert (P2E : la_st0 p2 = fst (forward_store (la_st0 p1) (la_ms0 p1) (ms_fill_req ms1)) /\
                  la_st1 p2 = fst (forward_store (la_st1 p1) (la_ms1 p1) (snd (forward_store (la_st0 p1) (la_ms0 p1) (ms_fill_req ms1)))) /\
                  o_fr i s fo = snd (forward_store (la_st1 p1) (la_ms1 p1) (snd (forward_store (la_st0 p1) (la_ms0 p1) (ms_fill_req ms1))))).
    { unfold o_p2, o_fr, forward. rewrite V. cbn [negb]. destruct (forward_store (la_st0 p1) (la_ms0 p1) (ms_fill_req ms1)) as [t0 fr1]. cbn [fst snd].
      destruct (forward_store (la_st1 p1) (la_ms1 p1) fr1) as [t1 fr2]. auto. }
    destruct P2E as (E0 & E1 & E2).
    assert (PN : Pnd ms1 (la_st0 p2) (la_ms0 p1)) by (rewrite E0; eapply fwd_Pnd; eauto).
    destruct (forward_store (la_st0 p1) (la_ms0 p1) (ms_fill_req ms1)) as [t0 fr1] eqn:F0. cbn [fst snd] in E0, E1, E2. destruct X0 as (V1 & I1 & A1 & L1 & D1 & Y1).
    pose proof (fwd_step (la_st1 p1) (la_ms1 p1) fr1 lh L V1 A1) as X1.
    assert (PN1 : Pnd ms1 (la_st1 p2) (la_ms1 p1)) by (rewrite E1; eapply fwd_Pnd; eauto).
    destruct (forward_store (la_st1 p1) (la_ms1 p1) fr1) as [t1 fr2] eqn:F1. cbn [fst snd] in E1, E2. destruct X1 as (V2 & I2 & A2 & L2 & D2 & Y2).
    rewrite E0, E1, E2 in *. sp; auto; try congruence.
    - intros d X. apply in_app_iff in X. destruct X; auto.
    - intros w k WK. rewrite D2, D1 by auto. now rewrite effs_app.
    - intros X. destruct (Y2 X) as [Y3 N2]. destruct (Y1 Y3) as [Y4 N1]. rewrite N1, N2. split; [congruence|reflexivity].
    - intros SV. destruct (SF SV) as [Q0 Q1]. rewrite (fwd_other ms1 _ _ _ lh L HH A Q0) in F0. injection F0 as <- <-.
      rewrite (fwd_other ms1 _ _ _ lh L HH A Q1) in F1. injection F1 as <- <-. rewrite !fwd_same. auto.
  Qed.

  Lemma modes : Core (after_stores (view m0 y) (Nf ++ NN)) m' (o_c5 i s fo) (o_wb4 i s fo) (o_ms2 i s fo) nf /\
    fw_valid nf = ms_hold (o_ms2 i s fo) /\ (fw_valid nf = true -> nfo = Some (fw_set nf)) /\
    (forall l, held (o_ms2 i s fo) l -> held ms1 l) /\
    Pnd (o_ms2 i s fo) (la_st0 p2) (la_ms0 p2) /\ Pnd (o_ms2 i s fo) (la_st1 p2) (la_ms1 p2) /\
    (ms_hold (o_ms2 i s fo) = true -> fr_data (ms_fill_req (o_ms2 i s fo)) = fr_data (ms_fill_req ms1)).
  Proof.
    destruct (mid_core m0 y i m' II AX) as (K & _ & _ & _ & AC1 & AC2). destruct slots_here as (A0 & A1 & A2 & A3).
    pose proof (gF c wb1 sf fo FO) as F. pose proof K as [Kw Kc Km Kf Kx Kv].
    assert (FH : fw_valid sf = true -> ms_hold ms1 = true) by (intros V; apply (fill_hold V)).
    destruct (gM (view m0 y) m' c wb1 ms1 sf (o_L0 s) (o_L1 s) (o_T0 s) (o_T1 s) (o_i0 s) (o_i1 s) fo K A0 A1 A2 A3 FO FH) as (MCk & _ & _ & MD & MDN).
    fold (o_ms2 i s fo) in MCk. destruct (mc_h _ _ _ _ _ _ _ MCk) as (h1 & h2 & h3). pose proof (mc_held _ _ _ _ _ _ _ MCk) as hE.
    pose proof (gT0 (view m0 y) m' c wb1 ms1 sf (o_L0 s) (o_L1 s) (o_T0 s) (o_T1 s) (o_i0 s) (o_i1 s) fo K A2 A3) as VT0.
    pose proof (gT1 (view m0 y) m' c wb1 ms1 sf (o_L0 s) (o_L1 s) (o_T0 s) (o_T1 s) (o_i0 s) (o_i1 s) fo K A2 A3) as VT1.
    pose proof (core_nowrite (view m0 y) m' c wb1 ms1 sf (o_L0 s) (o_L1 s) (o_T0 s) (o_T1 s) (o_i0 s) (o_i1 s) fo K A0 A1 A2 A3 FO) as CN.
    pose proof (core_write (view m0 y) m' c wb1 ms1 sf (o_L0 s) (o_L1 s) (o_T0 s) (o_T1 s) (o_i0 s) (o_i1 s) fo K A0 A1 A2 A3 FO) as CW.
    fold (o_t0 i s fo) in VT0. fold (o_t1 i s fo) in VT1.
    (* facts common to the ticks without a fill write *)
    assert (NOD : g_done c wb1 sf fo = None ->
       (forall l, held (o_ms2 i s fo) l -> held ms1 l) /\ ms_hold (o_ms2 i s fo) = ms_hold ms1 /\
       (ms_hold (o_ms2 i s fo) = true -> fr_data (ms_fill_req (o_ms2 i s fo)) = fr_data (ms_fill_req ms1))).
    { intros E. specialize (MD E). rewrite MD in *. sp; auto.
      - intros l [X Y]. split; [congruence|]. rewrite h2, hE in Y by congruence. exact Y.
      - intros X. unfold ms_fill_req. rewrite h1 in *. rewrite X, h2, h3, hE by auto. reflexivity. }
    destruct (bool_dec (fw_valid sf) true) as [SV|SV]; [|apply not_true_is_false in SV].
    - (* a line is in the fill register *)
      specialize (FH SV). destruct (held_ex _ _ Km FH) as (lh & LH & HH). destruct (Kf SV) as (_ & FI & FS). destruct (FS lh HH) as [FSet FTag].
      destruct (fwd_on lh LH HH) as (FRV & FRI & FRA & _ & _ & _ & PN0 & PN1 & FN). destruct (FN SV) as [NF0 FR0]. rewrite NF0. cbn [app].
      remember (g_fw0 c wb1 sf fo, g_dirty c wb1 sf fo, g_done c wb1 sf fo) as TT eqn:ET.
      destruct F as [X|X X2|v X X2 X3 X4 X5|v X X2 X3]; [congruence| | |]; injection ET as E1 E2 E3.
      + (* held back: the write buffer is full *)
        destruct (NOD (eq_sym E3)) as (N1 & N2 & N3).
        assert (TF0 : t_fw (o_t0 i s fo) = fillw0). { erewrite (fw_keep _ _ _ _ _ _ _ _ _ VT0); [symmetry; exact E1|rewrite <- E1; reflexivity]. }
        assert (TF1 : t_fw (o_t1 i s fo) = fillw0). { erewrite (fw_keep _ _ _ _ _ _ _ _ _ VT1); [exact TF0|fold (o_t0 i s fo); rewrite TF0; reflexivity]. }
        rewrite (s1_hold _ sf _ _ _ lh) by (auto; rewrite TF1; reflexivity). cbn [fst snd].
        destruct (wire_step m' c wb1 ms1 sf Km Kx _ _ _ _ _ lh sf A2 VT0 LH HH ltac:(intros _; rewrite <- E1; reflexivity) SV) as (w1 & w2 & w3 & w4 & _ & w5 & w6).
        set (g1 := apply_wire (t_wire (o_t0 i s fo)) sf) in *.
        destruct (wire_step m' c wb1 ms1 sf Km Kx _ _ _ _ _ lh g1 A3 VT1 LH HH ltac:(intros _; fold (o_t0 i s fo); rewrite TF0; reflexivity) w1) as (z1 & z2 & z3 & z4 & _ & z5 & z6).
        set (g2 := apply_wire (t_wire (o_t1 i s fo)) g1) in *.
        sp; auto; try congruence.
        * apply (CN [] g2); auto. right. exists lh. sp; auto; try congruence.
          -- intros d [].
          -- intros w k WK. cbn [app]. rewrite z5, w5 by auto. unfold g_N. fold (o_t0 i s fo). fold (o_t1 i s fo). rewrite effs_app. f_equal. f_equal. apply (v_f _ _ _ _ _ _ Kv); auto.
          -- intros D w k WK. destruct (z6 D) as [D1 Q1]. destruct (w6 D1) as [D0 Q0]. cbn [app]. rewrite effs_off.
             ++ apply (v_fc _ _ _ _ _ _ Kv); auto.
             ++ intros d X'. unfold g_N in X'. fold (o_t0 i s fo) in X'. fold (o_t1 i s fo) in X'. apply in_app_iff in X'. destruct X'; auto.
        * eapply Pnd_mono; eauto.
        * eapply Pnd_mono; eauto.
      + (* written, dirty victim *)
        destruct MDN as (_ & HD & _); [congruence|]. rewrite HD in h1.
        assert (TF0 : fw_valid (t_fw (o_t0 i s fo)) = true).
        { apply (now_step m' c wb1 ms1 sf Km Kx _ _ _ _ _ lh A2 VT0 LH HH SV). rewrite <- E1. reflexivity. }
        assert (TF1 : fw_valid (t_fw (o_t1 i s fo)) = true).
        { apply (now_step m' c wb1 ms1 sf Km Kx _ _ _ _ _ lh A3 VT1 LH HH SV). exact TF0. }
        rewrite (s1_written _ sf _ _ _ lh) by auto.
        split; [apply (CW v); auto; try congruence; right; sp; auto; lia|]. split; [rewrite h1; reflexivity|]. split; [discriminate|]. split; [intros l [Y _]; congruence|].
        split; [apply Pnd_nohold; auto; intros Y; eapply Pnd_shape; eauto|]. split; [apply Pnd_nohold; auto; intros Y; eapply Pnd_shape; eauto|]. congruence.
      + (* written, clean or empty way *)
        destruct MDN as (_ & HD & _); [congruence|]. rewrite HD in h1.
        assert (TF0 : fw_valid (t_fw (o_t0 i s fo)) = true).
        { apply (now_step m' c wb1 ms1 sf Km Kx _ _ _ _ _ lh A2 VT0 LH HH SV). rewrite <- E1. reflexivity. }
        assert (TF1 : fw_valid (t_fw (o_t1 i s fo)) = true).
        { apply (now_step m' c wb1 ms1 sf Km Kx _ _ _ _ _ lh A3 VT1 LH HH SV). exact TF0. }
        rewrite (s1_written _ sf _ _ _ lh) by auto.
        split; [apply (CW v); auto; try congruence; left; auto|]. split; [rewrite h1; reflexivity|]. split; [discriminate|]. split; [intros l [Y _]; congruence|].
        split; [apply Pnd_nohold; auto; intros Y; eapply Pnd_shape; eauto|]. split; [apply Pnd_nohold; auto; intros Y; eapply Pnd_shape; eauto|]. congruence.
    - remember (g_fw0 c wb1 sf fo, g_dirty c wb1 sf fo, g_done c wb1 sf fo) as TT eqn:ET.
      destruct F as [X|X X2|v X X2 X3 X4 X5|v X X2 X3]; try congruence. injection ET as E1 E2 E3.
      destruct (NOD (eq_sym E3)) as (N1 & N2 & N3). destruct shapes as (S0 & S1 & _). destruct p2_fields as (PM0 & PM1 & _).
      destruct (ms_hold ms1) eqn:HO.
      + (* a line arrives *)
        destruct (held_ex _ _ Km HO) as (lh & LH & HH). destruct (fwd_on lh LH HH) as (FRV & FRI & FRA & FNl & FD & FC & PN0 & PN1 & _).
        destruct (fr_held _ _ _ Km HH) as (_ & _ & _ & FDy & FRD).
        rewrite (s1_new _ sf _ _ _ lh) by auto. cbn [fst snd]. set (g0 := mkfw true _ _ _ _ _ _).
        destruct (wire_step m' c wb1 ms1 sf Km Kx _ _ _ _ _ lh g0 A2 VT0 LH HH ltac:(congruence) eq_refl) as (w1 & w2 & w3 & w4 & _ & w5 & w6).
        set (g1 := apply_wire (t_wire (o_t0 i s fo)) g0) in *.
        destruct (wire_step m' c wb1 ms1 sf Km Kx _ _ _ _ _ lh g1 A3 VT1 LH HH ltac:(congruence) w1) as (z1 & z2 & z3 & z4 & _ & z5 & z6).
        set (g2 := apply_wire (t_wire (o_t1 i s fo)) g1) in *.
        assert (VM : forall w k, wk w k -> bsel (fr_data (ms_fill_req ms1) w) k = Bl (view m0 y) lh w k).
        { intros w k WK. rewrite FRD by auto. apply (v_m _ _ _ _ _ _ Kv); auto. eapply held_M; eauto. intros [Y _]. congruence. }
        sp; auto; try congruence.
        * apply (CN _ g2); auto; try congruence. right. exists lh. sp; auto; try congruence.
          -- rewrite z2, w2. exact FRI.
          -- rewrite z3, w3. reflexivity.
          -- rewrite z4, w4. reflexivity.
          -- intros w k WK. rewrite z5, w5 by auto. unfold g_N. fold (o_t0 i s fo). fold (o_t1 i s fo). rewrite !effs_app. f_equal. f_equal. unfold g0; cbn [fw_data]. rewrite FD, VM by auto. now rewrite effs_app.
          -- intros D w k WK. destruct (z6 D) as [D1 Q1]. destruct (w6 D1) as [D0 Q0]. destruct (FC D0) as [D00 NF]. rewrite NF. cbn [app]. rewrite effs_off.
             ++ rewrite <- VM, FRD by auto. rewrite bsel_ovl by apply WK. rewrite (mo_cl _ _ Km lh); [now rewrite Z.bits_0|eapply held_M; eauto|auto|apply WK].
             ++ intros d X'. unfold g_N in X'. fold (o_t0 i s fo) in X'. fold (o_t1 i s fo) in X'. apply in_app_iff in X'. destruct X'; auto.
        * intros _. rewrite z3, w3. reflexivity.
        * eapply Pnd_mono; eauto.
        * eapply Pnd_mono; eauto.
      + destruct (fwd_off HO) as (P2 & FR & FV). assert (NFE : Nf = []) by (rewrite P2, !fwd_same; reflexivity). rewrite NFE.
        assert (NE : nf = fillw0) by (apply s1_none; congruence). rewrite NE.
        split; [apply (CN [] fillw0); auto; try congruence; left; auto|]. split; [rewrite N2; reflexivity|]. split; [discriminate|]. split; [exact N1|].
        split; [rewrite P2; apply Pnd_nohold; auto|]. split; [rewrite P2; apply Pnd_nohold; auto|]. congruence.
  Qed.
End Step.

Lemma Bl_bytes m l w k : wk w k -> Bl (bytes_of m) l w k = bsel (Ml m l w) k.
Proof.
  intros [W K]. unfold Bl, bytes_of, bsel, Ml. replace ((l * 64 + w * 4 + k) / 4) with (l * 16 + w) by lia. replace ((l * 64 + w * 4 + k) mod 4) with k by lia. reflexivity.
Qed.
Lemma inv0 m0 : Inv m0 (sys0 m0).
Proof.
  assert (NC : forall l v, ~ hasC cache0 l v) by (intros l v (_ & X & _); discriminate).
  assert (NW : forall l v, ~ hasW wb0 l v) by (intros l v (X & _); cbn in X; lia).
  assert (NM : forall l v, ~ hasM mshr0 l v) by (intros l v (_ & X & _); discriminate).
  constructor; cbn [sys0 y_d y_mem y_wr y_rd y_hist y_arr d_cache d_wb d_ms d_s d_w d_meta d_pend dst0].
  - constructor.
    + constructor; cbn; try lia. intros l k k' X. exfalso. eapply NW; eauto.
    + constructor; [intros; discriminate|]. intros l v v' X. exfalso. eapply NC; eauto.
    + constructor; try (intros; discriminate); try (intros; exfalso; eapply NM; eauto; fail); try reflexivity. intros l [X _]; discriminate.
    + intros X; discriminate.
    + constructor; intros; [eapply NC|eapply NC|eapply NW]; eauto.
    + constructor; try (intros; exfalso; first [eapply NC; eauto; fail | eapply NW; eauto; fail | eapply NM; eauto; fail]); try (intros X; discriminate).
      intros l L _ _ _ w k WK. unfold view, sys0, after_stores. cbn [y_hist fold_left]. rewrite Bl_bytes by auto. reflexivity.
  - split; [discriminate|reflexivity].
  - intros i a X. discriminate.
  - reflexivity.
  - exists None. split; [reflexivity|discriminate].
  - repeat split.
  - reflexivity.
  - exact I.
  - exact I.
  - exact I.
  - exact I.
  - split; [auto|]. intros l [X _]; discriminate.
Qed.
Lemma forward_lds fr p : la_ld0 (fst (forward fr p)) = (if fr_valid fr then forward_load fr (la_ld0 p) (la_ml0 p) else la_ld0 p) /\
  la_ld1 (fst (forward fr p)) = (if fr_valid fr then forward_load fr (la_ld1 p) (la_ml1 p) else la_ld1 p).
Proof.
  unfold forward. destruct (fr_valid fr); [|split; reflexivity]. cbn [negb]. cbv zeta. destruct (forward_store (la_st0 p) _ _) as [t0 fr1]. destruct (forward_store (la_st1 p) _ _) as [t1 fr2]. split; reflexivity.
Qed.
Lemma step_inv m0 y i o y' : Inv m0 y -> step y i o y' -> Inv m0 y'.
Proof.
  intros II ST. inversion ST as [m' s' o' AX RQ TK E1 E2]. subst. clear ST.
  destruct (i_w _ _ II) as (fo & DW & FO). rewrite (tick_open i (y_d y) fo DW (i_meta _ _ II)) in TK. injection TK as <- <-.
  destruct (mid_core m0 y i m' II AX) as (K & WE & RE & SE & AC1 & AC2).
  pose proof (modes m0 y i m' fo II AX FO) as (KC & KH & KFO & KHE & KP0 & KP1 & KD).
  destruct (stage1_spec (ti_rq i) (o_fr i (y_d y) fo) (o_sf (y_d y)) (t_fw (o_t1 i (y_d y) fo)) (t_wire (o_t0 i (y_d y) fo)) (t_wire (o_t1 i (y_d y) fo)) RQ) as (SO & SW & SM & SFf).
  fold (o_st i (y_d y) fo) in SO, SW, SM, SFf.
  destruct (i_sl _ _ II) as (A0 & A1 & A2 & A3).
  assert (FH : fw_valid (o_sf (y_d y)) = true -> ms_hold (o_ms i (y_d y)) = true) by (intros V; apply (fill_hold m0 y i m' fo II AX FO); exact V).
  destruct (gM (view m0 y) m' (d_cache (y_d y)) (o_wb i (y_d y)) (o_ms i (y_d y)) (o_sf (y_d y)) (o_L0 (y_d y)) (o_L1 (y_d y)) (o_T0 (y_d y)) (o_T1 (y_d y)) (o_i0 (y_d y)) (o_i1 (y_d y)) fo K A0 A1 A2 A3 FO FH) as (MCk & MD1 & _ & MD & MDN).
  fold (o_ms2 i (y_d y) fo) in MCk.
  pose proof (gW (view m0 y) m' (d_cache (y_d y)) (o_wb i (y_d y)) (o_ms i (y_d y)) (o_sf (y_d y)) (o_T0 (y_d y)) (o_T1 (y_d y)) K A2 A3) as (W3 & HW3 & HD3 & CT3 & SE3 & W03 & _).
  destruct p2_fields with (y := y) (i := i) (fo := fo) as (M0 & M1 & L0 & L1).
  assert (NS : new_stores (y_d y) (mkto (l_resp (o_l0 i (y_d y))) (l_resp (o_l1 i (y_d y))) (t_resp (o_t0 i (y_d y) fo)) (t_resp (o_t1 i (y_d y) fo)) (o_p2 i (y_d y) fo)
             (match ti_rresp i with Some _ => o_acc i (y_d y) | None => negb (ms_hold (o_ms2 i (y_d y) fo)) end)) =
     (fwd_done (la_st0 (o_p1 i (y_d y) fo)) (la_st0 (o_p2 i (y_d y) fo)) (la_ms0 (o_p2 i (y_d y) fo)) ++ fwd_done (la_st1 (o_p1 i (y_d y) fo)) (la_st1 (o_p2 i (y_d y) fo)) (la_ms1 (o_p2 i (y_d y) fo))) ++
     raw_done (o_T0 (y_d y)) (t_resp (o_t0 i (y_d y) fo)) ++ raw_done (o_T1 (y_d y)) (t_resp (o_t1 i (y_d y) fo))).
  { unfold new_stores. cbn [to_t0 to_t1 to_pend]. rewrite <- app_assoc. reflexivity. }
  constructor; cbn [y_d y_mem y_wr y_rd y_hist y_arr d_cache d_wb d_ms d_s d_w d_meta d_pend].
  - unfold view; cbn [y_hist]. rewrite after_app, NS, SFf. exact KC.
  - (* write channel *)
    destruct WE as [WE1 WE2]. unfold o_wb4, g_wb4.
    assert (PU : forall d wbx, (wb_head wbx < 8)%nat -> (0 < wb_count wbx)%nat -> wb_send (wb_push d wbx) = wb_send wbx /\ (0 < wb_count (wb_push d wbx))%nat /\ went (wb_push d wbx) 0 = went wbx 0).
    { intros d wbx HB CB. unfold wb_push. destruct d as [e|]; auto. unfold WBS. destruct (Nat.ltb_spec (wb_count wbx) 8) as [LT|]; auto. cbn [wb_send wb_count]. sp; auto; [lia|].
      unfold went, wslot. cbn [wb_head wb_buf]. unfold fupd. destruct (Nat.eqb_spec (Nat.modulo (wb_head wbx + 0) 8) (Nat.modulo (wb_head wbx + wb_count wbx) 8)) as [E|]; [|reflexivity]. exfalso. lia. }
    assert (PS : forall d wbx, wb_send (wb_push d wbx) = wb_send wbx). { intros d wbx. unfold wb_push. destruct d; auto. destruct (Nat.ltb _ _); auto. }
    split; rewrite PS, SE3.
    + intros X. destruct (WE1 X) as [P Q]. destruct (PU (g_dirty (d_cache (y_d y)) (o_wb i (y_d y)) (o_sf (y_d y)) fo) (g_wb3 (o_wb i (y_d y)) (o_T0 (y_d y)) (o_T1 (y_d y)))) as (_ & P2 & P3); [apply W3|lia|].
      split; auto. rewrite P3, W03 by auto. exact Q.
    + exact WE2.
  - (* read channel *)
    intros j a X. cbn [to_rready] in X.
    assert (X' : match ti_rresp i with Some (id, _) => if o_acc i (y_d y) then fupd (rd_now i y) id None else rd_now i y | None => rd_now i y end j = Some a).
    { destruct (ti_rresp i) as [[id d]|]; exact X. }
    destruct (RE j a X') as (J & V & IS & NH & AD).
    assert (MS : me_valid (ms_ent (g_msd (d_cache (y_d y)) (o_wb i (y_d y)) (o_ms i (y_d y)) (o_sf (y_d y)) fo) j) = true /\
                 me_issued (ms_ent (g_msd (d_cache (y_d y)) (o_wb i (y_d y)) (o_ms i (y_d y)) (o_sf (y_d y)) fo) j) = true /\
                 me_addr (ms_ent (g_msd (d_cache (y_d y)) (o_wb i (y_d y)) (o_ms i (y_d y)) (o_sf (y_d y)) fo) j) = a).
    { unfold g_msd, ms_done. destruct (g_done _ _ _ _) as [id|]; [|auto]. destruct (_ && _) eqn:Q; [|auto]. cbn [ms_ent]. unfold fupd.
      destruct (Nat.eqb_spec j id) as [->|]; [|auto]. exfalso. apply NH. apply andb_true_iff in Q. destruct Q as [Q _]. apply andb_true_iff in Q. destruct Q as [Q Q2]. apply andb_true_iff in Q. destruct Q as [_ Q1].
      apply Nat.eqb_eq in Q2. auto. }
    destruct MS as (V1 & I1 & A1'). destruct (mc_old _ _ _ _ _ _ _ MCk j J V1) as (V2 & A2' & I2). sp; auto; try congruence.
    intros [Y1 Y2]. apply NH. destruct (mc_h _ _ _ _ _ _ _ MCk) as (h1 & h2 & _). rewrite h1 in Y1. rewrite h2 in Y2.
    destruct (g_done (d_cache (y_d y)) (o_wb i (y_d y)) (o_sf (y_d y)) fo) eqn:GD; [destruct MDN as (_ & Z1 & _); [discriminate|congruence]|].
    rewrite MD in Y1, Y2 by auto. auto.
  - rewrite SFf. exact KH.
  - eexists. split; [exact SW|]. rewrite SFf. exact KFO.
  - exact SO.
  - exact SM.
  - destruct (ti_clear i); [exact I|exact KP0].
  - destruct (ti_clear i); [exact I|exact KP1].
  - destruct (ti_clear i); [exact I|]. pose proof (i_l0 _ _ II) as Q. rewrite L0. unfold Lpd, o_p2.
    assert (Q1 : Lpd (la_ld0 (o_p1 i (y_d y) fo)) (la_ml0 (o_p1 i (y_d y) fo))).
    { unfold o_p1, capture. cbn [la_ld0 la_ml0 mt_l0 meta_slots]. destruct (l_resp (o_l0 i (y_d y))) eqn:R; [|exact Q]. cbn. unfold laddr. fold (o_L0 (y_d y)).
      destruct (o_L0 (y_d y)) as [[q b]|] eqn:RR; [discriminate|]. unfold o_l0, g_l0 in R. rewrite RR in R. discriminate R. }
    destruct (forward_lds (ms_fill_req (o_ms i (y_d y))) (o_p1 i (y_d y) fo)) as [FL0 FL1]. rewrite FL0. destruct (fr_valid _); [|exact Q1].
    unfold forward_load. destruct (la_ld0 (o_p1 i (y_d y) fo)) as [p|]; [|exact I]. unfold Lpd in Q1. destruct (la_ml0 (o_p1 i (y_d y) fo)); [|exfalso; apply Q1; reflexivity]. destruct (_ && _); discriminate.
  - destruct (ti_clear i); [exact I|]. pose proof (i_l1 _ _ II) as Q. rewrite L1. unfold Lpd, o_p2.
    assert (Q1 : Lpd (la_ld1 (o_p1 i (y_d y) fo)) (la_ml1 (o_p1 i (y_d y) fo))).
    { unfold o_p1, capture. cbn [la_ld1 la_ml1 mt_l1 meta_slots]. destruct (l_resp (o_l1 i (y_d y))) eqn:R; [|exact Q]. cbn. unfold laddr. fold (o_L1 (y_d y)).
      destruct (o_L1 (y_d y)) as [[q b]|] eqn:RR; [discriminate|]. unfold o_l1, g_l1 in R. rewrite RR in R. discriminate R. }
    destruct (forward_lds (ms_fill_req (o_ms i (y_d y))) (o_p1 i (y_d y) fo)) as [FL0 FL1]. rewrite FL1. destruct (fr_valid _); [|exact Q1].
    unfold forward_load. destruct (la_ld1 (o_p1 i (y_d y) fo)) as [p|]; [|exact I]. unfold Lpd in Q1. destruct (la_ml1 (o_p1 i (y_d y) fo)); [|exfalso; apply Q1; reflexivity]. destruct (_ && _); discriminate.
  - (* the line as it arrived *)
    destruct (i_arr _ _ II) as [LE AR]. unfold read_taken. cbn [to_rready].
    destruct (o_acc i (y_d y)) eqn:AC.
    + destruct (AC1 eq_refl) as (H0 & H1 & RR). destruct (ti_rresp i) as [[id d]|] eqn:TR; [|congruence]. split; [rewrite app_length; lia|].
      intros l Hl w k WK. rewrite KD by apply Hl. rewrite firstn_app, Nat.sub_diag, firstn_all, firstn_O, app_nil_r. fold (view m0 y).
      pose proof (KHE _ Hl) as Hl1. destruct (fr_held _ _ _ (k_m _ _ _ _ _ _ K) Hl1) as (_ & _ & _ & _ & FD). rewrite FD by auto.
      apply (v_m _ _ _ _ _ _ (k_v _ _ _ _ _ _ K)); auto.
      * eapply hasM_isl; [apply K|eapply held_M; [apply K|eauto]].
      * eapply held_M; [apply K|auto].
      * intros [Y _]. pose proof (i_hold _ _ II) as IH. fold (o_sf (y_d y)) in IH. congruence.
    + assert (RT : match ti_rresp i with Some _ => (match ti_rresp i with Some _ => false | None => negb (ms_hold (o_ms2 i (y_d y) fo)) end) | None => false end = false) by (destruct (ti_rresp i); reflexivity).
      rewrite RT. split; [rewrite app_length; lia|]. intros l Hl w k WK. rewrite KD by apply Hl.
      rewrite firstn_app. replace (y_arr y - length (y_hist y))%nat with 0%nat by lia. rewrite firstn_O, app_nil_r.
      destruct (AC2 eq_refl) as (H1 & H2 & H3). pose proof (KHE _ Hl) as Hl1.
      assert (Hl0 : held (d_ms (y_d y)) l). { destruct Hl1 as [Y1 Y2]. split; [congruence|]. rewrite H2 in Y2. destruct (SE (ms_hid (d_ms (y_d y)))) as (_ & E & _). congruence. }
      rewrite <- (AR l Hl0) by auto. f_equal. unfold ms_fill_req. rewrite H1, (proj1 Hl0), H2, H3. cbn [fr_data]. destruct (SE (ms_hid (d_ms (y_d y)))) as (_ & _ & _ & -> & ->). reflexivity.
Qed.
Lemma reach_inv m0 y : reach m0 y -> Inv m0 y.
Proof. induction 1; [apply inv0|eapply step_inv; eauto]. Qed.
