(** What loads return and what a round of requests does, over all executions. *)
From Verif Require Import Base BaseLemmas MemSpec MemModel MemProofs DcModel DcSpec DcLemmas DcInv DcStage DcMiss DcFill DcTick DcReach.
Ltac Zify.zify_post_hook ::= Z.div_mod_to_equations.
#[local] Opaque Z.pow Z.land Z.lor Z.shiftl Z.shiftr.

Lemma word_of_line B a d : (forall k, 0 <= k < 4 -> bsel d k = Bl B (a / 64) (f_word (decode a)) k) -> is_word B a d.
Proof.
  intros H k K. specialize (H k K). rewrite f_word_eq in H. unfold Bl, bsel in H. rewrite H. f_equal. lia.
Qed.
Lemma raw_load B M c wb ms sf ic f slot t : Core B M c wb ms sf -> lslot_ok slot -> lview c wb ms ic f slot t ->
  match slot with
  | None => l_resp t = None
  | Some (q, _) => exists p, l_resp t = Some p /\ lp_id p = lq_id q /\ (lp_replay p = HIT -> is_word B (lq_addr q) (lp_data p))
  end.
Proof.
  intros K A V. destruct V; cbn [l_resp]; auto; eexists; (split; [reflexivity|]); (split; [reflexivity|]); cbn [lp_replay lp_data]; try discriminate; intros _; apply word_of_line; intros k Hk; cbn in A; pose proof (line_range _ A) as LR.
  - apply (v_w _ _ _ _ _ _ (k_v _ _ _ _ _ _ K)); auto. rewrite f_word_eq. split; lia.
  - apply (v_c _ _ _ _ _ _ (k_v _ _ _ _ _ _ K)); auto. rewrite f_word_eq. split; lia.
Qed.

(** [r'] answers the waiting response [r] of a load of [a] *)
Definition fwd_ok (B : bmem) (a : Z) (r r' : loadresp) : Prop :=
  lp_id r' = lp_id r /\ lp_replay r' = HIT /\ waits (lp_replay r) = true /\ is_word B a (lp_data r').

(** ** By port number *)
Definition slotL (k : nat) (s : s1s2) := match k with O => s_ld0 s | _ => s_ld1 s end.
Definition slotT (k : nat) (s : s1s2) := match k with O => s_st0 s | _ => s_st1 s end.
Definition rawL (k : nat) (o : tick_out) := match k with O => to_l0 o | _ => to_l1 o end.
Definition rawT (k : nat) (o : tick_out) := match k with O => to_t0 o | _ => to_t1 o end.
Definition latL (k : nat) (p : latch) := match k with O => la_ld0 p | _ => la_ld1 p end.
Definition latT (k : nat) (p : latch) := match k with O => la_st0 p | _ => la_st1 p end.
Definition metL (k : nat) (p : latch) := match k with O => la_ml0 p | _ => la_ml1 p end.
Definition metT (k : nat) (p : latch) := match k with O => la_ms0 p | _ => la_ms1 p end.

(** ** The line waiting to be filled, as it arrived *)
Lemma fill_view m0 y i m' lh : Inv m0 y -> axi_ok y i m' -> held (o_ms i (y_d y)) lh ->
  let n := if o_acc i (y_d y) then length (y_hist y) else y_arr y in
  (forall w k, wk w k -> bsel (fr_data (ms_fill_req (o_ms i (y_d y))) w) k = Bl (after_stores (bytes_of m0) (firstn n (y_hist y))) lh w k) /\
  (o_acc i (y_d y) = true \/ held (d_ms (y_d y)) lh) /\ isl lh /\ fr_valid (ms_fill_req (o_ms i (y_d y))) = true /\ fr_addr (ms_fill_req (o_ms i (y_d y))) = lh * 64.
Proof.
  intros II AX Hl1. cbv zeta. destruct (mid_core m0 y i m' II AX) as (K & _ & _ & SE & AC1 & AC2). destruct (i_arr _ _ II) as [LE AR].
  destruct (fr_held _ _ _ (k_m _ _ _ _ _ _ K) Hl1) as (FV & _ & FA & _ & FD).
  assert (L : isl lh) by (eapply hasM_isl; [apply K|eapply held_M; [apply K|eauto]]).
  destruct (o_acc i (y_d y)) eqn:AC.
  - destruct (AC1 eq_refl) as (H0 & H1 & RR). sp; auto. intros w k WK. rewrite FD by auto. rewrite firstn_all. fold (view m0 y).
    apply (v_m _ _ _ _ _ _ (k_v _ _ _ _ _ _ K)); auto.
    + eapply held_M; [apply K|auto].
    + intros [Y _]. pose proof (i_hold _ _ II) as IH. fold (o_sf (y_d y)) in IH. congruence.
  - destruct (AC2 eq_refl) as (H1 & H2 & H3).
    assert (Hl0 : held (d_ms (y_d y)) lh). { destruct Hl1 as [Y1 Y2]. split; [congruence|]. rewrite H2 in Y2. destruct (SE (ms_hid (d_ms (y_d y)))) as (_ & E & _). congruence. }
    sp; auto. intros w k WK. rewrite <- (AR lh Hl0) by auto. f_equal. unfold ms_fill_req. rewrite H1, (proj1 Hl0), H2, H3. cbn [fr_data]. destruct (SE (ms_hid (d_ms (y_d y)))) as (_ & _ & _ & -> & ->). reflexivity.
Qed.
Lemma fwd_ld m0 y i m' r m : Inv m0 y -> axi_ok y i m' ->
  let fr := ms_fill_req (o_ms i (y_d y)) in
  let n := if o_acc i (y_d y) then length (y_hist y) else y_arr y in
  let r' := if fr_valid fr then forward_load fr r m else r in
  r' = r \/ exists p p' a, r = Some p /\ m = Some a /\ r' = Some p' /\ fwd_ok (after_stores (bytes_of m0) (firstn n (y_hist y))) a p p' /\
            (o_acc i (y_d y) = true \/ held (d_ms (y_d y)) (a / 64)).
Proof.
  intros II AX. cbv zeta. destruct (ms_hold (o_ms i (y_d y))) eqn:H; [|rewrite fr_none by auto; auto].
  destruct (mid_core m0 y i m' II AX) as (K & _). destruct (held_ex _ _ (k_m _ _ _ _ _ _ K) H) as (lh & L & HH).
  destruct (fill_view m0 y i m' lh II AX HH) as (FD & FH & _ & FV & FA). rewrite FV. unfold forward_load.
  destruct r as [p|]; auto. destruct m as [a|]; auto. rewrite line_match, FA. replace (lh * 64 / 64) with lh by lia.
  destruct (waits (lp_replay p)) eqn:W; auto. destruct (Z.eqb_spec (a / 64) lh) as [E|]; auto. cbn [andb]. right.
  exists p, (mklp (fr_data (ms_fill_req (o_ms i (y_d y))) (f_word (decode a))) HIT (lp_id p)), a. sp; auto.
  - unfold fwd_ok. cbn [lp_id lp_replay lp_data]. sp; auto. apply word_of_line. intros k Hk. rewrite E. apply FD. rewrite f_word_eq. split; lia.
  - rewrite E. exact FH.
Qed.

(** ** One tick, one load port *)
Lemma tick_load m0 y i o y' k : Inv m0 y -> step y i o y' -> (k < 2)%nat ->
  let slot := slotL k (d_s (y_d y)) in
  metL k (to_pend o) = (match rawL k o with Some _ => laddr slot | None => metL k (d_pend (y_d y)) end) /\
  match slot with
  | None => rawL k o = None
  | Some (q, _) => exists p, rawL k o = Some p /\ lp_id p = lq_id q /\ (lp_replay p = HIT -> is_word (view m0 y) (lq_addr q) (lp_data p))
  end /\
  (latL k (to_pend o) = pre (rawL k o) (latL k (d_pend (y_d y))) \/
   exists p p' a, pre (rawL k o) (latL k (d_pend (y_d y))) = Some p /\ metL k (to_pend o) = Some a /\ latL k (to_pend o) = Some p' /\
     fwd_ok (after_stores (bytes_of m0) (firstn (y_arr y') (y_hist y))) a p p' /\ (y_arr y' = length (y_hist y) \/ held (d_ms (y_d y)) (a / 64))).
Proof.
  intros II ST Hk. inversion ST as [m' s' o' AX RQ TK E1 E2]. subst o'. clear ST.
  destruct (i_w _ _ II) as (fo & DW & FO). rewrite (tick_open i (y_d y) fo DW (i_meta _ _ II)) in TK. injection TK as <- <-.
  destruct (mid_core m0 y i m' II AX) as (K & _ & _ & SE & AC1 & AC2). destruct (i_sl _ _ II) as (A0 & A1 & A2 & A3).
  cbn [y_arr]. set (n := if read_taken i _ then _ else _).
  assert (EN : n = if o_acc i (y_d y) then length (y_hist y) else y_arr y).
  { unfold n, read_taken. cbn [to_rready]. destruct (o_acc i (y_d y)) eqn:AC; [destruct (AC1 eq_refl) as (_ & _ & RR)|]; destruct (ti_rresp i); auto; congruence. }
  destruct p2_fields with (y := y) (i := i) (fo := fo) as (M0 & M1 & L0 & L1).
  destruct (forward_lds (ms_fill_req (o_ms i (y_d y))) (o_p1 i (y_d y) fo)) as [FL0 FL1].
  assert (NL : forall r m, (if fr_valid (ms_fill_req (o_ms i (y_d y))) then forward_load (ms_fill_req (o_ms i (y_d y))) r m else r) = r \/
     exists p p' a, r = Some p /\ m = Some a /\ (if fr_valid (ms_fill_req (o_ms i (y_d y))) then forward_load (ms_fill_req (o_ms i (y_d y))) r m else r) = Some p' /\
       fwd_ok (after_stores (bytes_of m0) (firstn n (y_hist y))) a p p' /\ (n = length (y_hist y) \/ held (d_ms (y_d y)) (a / 64))).
  { intros r m. destruct (fwd_ld m0 y i m' r m II AX) as [X|(p & p' & a & X1 & X2 & X3 & X4 & X5)]; [left; exact X|right]. rewrite <- EN in X4. exists p, p', a. sp; auto.
    destruct X5 as [X5|X5]; auto. left. rewrite EN, X5. reflexivity. }
  clearbody n. destruct k as [|[|k]]; [| |lia]; cbn [slotL rawL latL metL to_pend to_l0 to_l1]; cbv zeta.
  - split; [|split].
    + rewrite L0. unfold o_p1, capture. cbn [la_ml0 mt_l0 meta_slots]. fold (o_L0 (y_d y)). reflexivity.
    + exact (raw_load (view m0 y) m' _ _ _ _ _ _ _ _ K A0 (gL0 (view m0 y) m' _ _ _ _ _ (o_i0 (y_d y)) K A0)).
    + rewrite L0. unfold o_p2. rewrite FL0. exact (NL (la_ld0 (o_p1 i (y_d y) fo)) (la_ml0 (o_p1 i (y_d y) fo))).
  - split; [|split].
    + rewrite L1. unfold o_p1, capture. cbn [la_ml1 mt_l1 meta_slots]. fold (o_L1 (y_d y)). reflexivity.
    + exact (raw_load (view m0 y) m' _ _ _ _ _ _ _ _ K A1 (gL1 (view m0 y) m' _ _ _ _ (o_L0 (y_d y)) _ (o_i0 (y_d y)) (o_i1 (y_d y)) K A1)).
    + rewrite L1. unfold o_p2. rewrite FL1. exact (NL (la_ld1 (o_p1 i (y_d y) fo)) (la_ml1 (o_p1 i (y_d y) fo))).
Qed.

(** ** One tick, the store ports *)
Definition fwdT (F : Z -> bool) (r : option storeresp) (m : option (Z * Z * Z)) : option storeresp :=
  match r, m with
  | Some p, Some (a, _, _) => if waits (sp_replay p) && F (a / 64) then Some (mksp HIT (sp_id p)) else r
  | _, _ => r
  end.
Lemma raw_store c wb ms sf fw f mg slot t : sview c wb ms sf fw f mg slot t ->
  match slot with None => t_resp t = None | Some (q, _) => exists p, t_resp t = Some p /\ sp_id p = sq_id q end.
Proof. intros V. destruct V; cbn [t_resp]; auto; eexists; split; reflexivity. Qed.
Lemma forward_sts fr p : exists F, la_st0 (fst (forward fr p)) = fwdT F (la_st0 p) (la_ms0 p) /\ la_st1 (fst (forward fr p)) = fwdT F (la_st1 p) (la_ms1 p).
Proof.
  unfold forward. destruct (fr_valid fr); cbn [negb].
  - exists (fun l => l =? fr_addr fr / 64). unfold forward_store. cbv zeta.
    destruct (la_st0 p) as [p0|]; [destruct (la_ms0 p) as [[[a d] st]|]|]; rewrite ?line_match;
      [destruct (waits (sp_replay p0) && (a / 64 =? fr_addr fr / 64)) eqn:E0| |];
      (destruct (la_st1 p) as [p1|]; [destruct (la_ms1 p) as [[[a1 d1] st1]|]|]; rewrite ?line_match; cbn [fr_addr]; [destruct (waits (sp_replay p1) && (a1 / 64 =? fr_addr fr / 64)) eqn:E1| |]);
      cbn [fst la_st0 la_st1 fwdT]; rewrite ?E0, ?E1; auto.
  - exists (fun _ => false). cbn [fst]. unfold fwdT. destruct (la_st0 p); [destruct (la_ms0 p) as [[[? ?] ?]|]|]; rewrite ?andb_false_r; (split; [reflexivity|]); destruct (la_st1 p); try destruct (la_ms1 p) as [[[? ?] ?]|]; rewrite ?andb_false_r; reflexivity.
Qed.
Lemma tick_store m0 y i o y' : Inv m0 y -> step y i o y' ->
  (forall k, (k < 2)%nat ->
     metT k (to_pend o) = (match rawT k o with Some _ => sargs (slotT k (d_s (y_d y))) | None => metT k (d_pend (y_d y)) end) /\
     match slotT k (d_s (y_d y)) with None => rawT k o = None | Some (q, _) => exists p, rawT k o = Some p /\ sp_id p = sq_id q end) /\
  exists F, forall k, (k < 2)%nat -> latT k (to_pend o) = fwdT F (pre (rawT k o) (latT k (d_pend (y_d y)))) (metT k (to_pend o)).
Proof.
  intros II ST. inversion ST as [m' s' o' AX RQ TK E1 E2]. subst o'. clear ST.
  destruct (i_w _ _ II) as (fo & DW & FO). rewrite (tick_open i (y_d y) fo DW (i_meta _ _ II)) in TK. injection TK as <- <-. clear E2.
  destruct (mid_core m0 y i m' II AX) as (K & _ & _ & SE & AC1 & AC2). destruct (i_sl _ _ II) as (A0 & A1 & A2 & A3).
  destruct p2_fields with (y := y) (i := i) (fo := fo) as (M0 & M1 & L0 & L1).
  destruct (forward_sts (ms_fill_req (o_ms i (y_d y))) (o_p1 i (y_d y) fo)) as (F & F0 & F1).
  pose proof (gT0 (view m0 y) m' _ _ _ _ (o_L0 (y_d y)) (o_L1 (y_d y)) _ _ (o_i0 (y_d y)) (o_i1 (y_d y)) fo K A2 A3) as VT0.
  pose proof (gT1 (view m0 y) m' _ _ _ _ (o_L0 (y_d y)) (o_L1 (y_d y)) _ _ (o_i0 (y_d y)) (o_i1 (y_d y)) fo K A2 A3) as VT1.
  split.
  - intros k Hk. destruct k as [|[|k]]; [| |lia]; cbn [slotT rawT latT metT to_pend to_t0 to_t1].
    + split; [rewrite M0; reflexivity|]. exact (raw_store _ _ _ _ _ _ _ _ _ VT0).
    + split; [rewrite M1; reflexivity|]. exact (raw_store _ _ _ _ _ _ _ _ _ VT1).
  - exists F. intros k Hk. destruct k as [|[|k]]; [| |lia]; cbn [slotT rawT latT metT to_pend to_t0 to_t1].
    + rewrite M0. exact F0.
    + rewrite M1. exact F1.
Qed.

(** ** The stage-2 slots of the next tick *)
Definition reqL (k : nat) (r : request) := match k with O => rq_ld0 r | _ => rq_ld1 r end.
Definition reqT (k : nat) (r : request) := match k with O => rq_st0 r | _ => rq_st1 r end.
Definition same_flag (s : s1s2) : Prop :=
  match s_st0 s, s_st1 s with Some (q0, b0), Some (q1, b1) => sq_addr q0 / 64 = sq_addr q1 / 64 -> b0 = b1 | _, _ => True end.
Lemma next_slots m0 y i o y' : Inv m0 y -> step y i o y' ->
  (forall k, (k < 2)%nat -> match reqL k (ti_rq i) with Some q => exists b, slotL k (d_s (y_d y')) = Some (q, b) | None => slotL k (d_s (y_d y')) = None end) /\
  (forall k, (k < 2)%nat -> match reqT k (ti_rq i) with Some q => exists b, slotT k (d_s (y_d y')) = Some (q, b) | None => slotT k (d_s (y_d y')) = None end) /\
  same_flag (d_s (y_d y')) /\ d_pend (y_d y') = (if ti_clear i then latch0 else to_pend o).
Proof.
  intros II ST. inversion ST as [m' s' o' AX RQ TK E1 E2]. subst o'. clear ST.
  destruct (i_w _ _ II) as (fo & DW & FO). rewrite (tick_open i (y_d y) fo DW (i_meta _ _ II)) in TK. injection TK as <- <-. cbn [y_d d_s d_pend to_pend].
  unfold o_st, stage1. destruct (s1_fill _ _ _ _ _) as [nf fo'].
  set (bk0 := match fo' with Some _ => _ | None => _ end). clearbody bk0. unfold s1_load, s1_store.
  assert (SG : forall bk a b, a / 64 = b / 64 -> let '(g, bk') := try_grant bk a in fst (try_grant bk' b) = g).
  { intros bk a b E. unfold try_grant. rewrite !f_bank_eq, !line_id_eq, <- E. destruct (bk ((a / 64) mod 16)) as [l|] eqn:B; cbn [fst]; [rewrite B; reflexivity|].
    unfold zupd. rewrite Z.eqb_refl. cbn [fst]. apply Z.eqb_refl. }
  destruct (rq_ld0 (ti_rq i)) as [q0|] eqn:R0; [destruct (try_grant bk0 (lq_addr q0)) as [g0 bk1]|set (bk1 := bk0)];
  (destruct (rq_ld1 (ti_rq i)) as [q1|] eqn:R1; [destruct (try_grant bk1 (lq_addr q1)) as [g1 bk2]|set (bk2 := bk1)]);
  (destruct (rq_st0 (ti_rq i)) as [u0|] eqn:U0; [pose proof (fun b => SG bk2 (sq_addr u0) b) as SG2; destruct (try_grant bk2 (sq_addr u0)) as [h0 bk3]|set (bk3 := bk2)]);
  (destruct (rq_st1 (ti_rq i)) as [u1|] eqn:U1; [try specialize (SG2 (sq_addr u1)); destruct (try_grant bk3 (sq_addr u1)) as [h1 bk4]|]);
  cbn [fst d_s]; (split; [intros [|[|k]] Hk; try lia; cbn [reqL slotL s_ld0 s_ld1]; rewrite ?R0, ?R1; eauto|]); (split; [intros [|[|k]] Hk; try lia; cbn [reqT slotT s_st0 s_st1]; rewrite ?U0, ?U1; eauto|]);
  (split; [|reflexivity]); unfold same_flag; cbn [s_st0 s_st1]; auto; intros E; specialize (SG2 E); cbn [fst] in SG2; subst; reflexivity.
Qed.

(** ** Two stores to one line *)
Lemma merge_same wb q0 q1 : sq_addr q0 / 64 = sq_addr q1 / 64 -> Wok wb -> is_w 32 (sq_addr q0) -> is_w 32 (sq_addr q1) ->
  fst (wb_merge (snd (wb_merge wb (st_mg (Some (q0, false))))) (st_mg (Some (q1, false)))) = fst (wb_merge wb (st_mg (Some (q0, false)))).
Proof.
  intros E W A0 A1. pose proof (wb_merge_spec wb (Some (q0, false)) W A0) as P. cbn [st_mg] in *. unfold wb_merge at 1 3. cbn [mq_addr].
  destruct (hasW_dec wb (sq_addr q0 / 64)) as [[k H]|N].
  - destruct (wb_merge wb (Some (mkmq (sq_addr q0) (sq_data q0) (sq_strb q0)))) as [r wb'] eqn:M. destruct P as ((H1 & H2 & H3) & A & _ & _ & _). cbn [snd].
    destruct (Wok_same wb wb' W H1 H2 A) as [W' HW']. rewrite (find_wb_in wb' _ k) by (auto; apply HW'; rewrite <- E; auto). rewrite (find_wb_in wb _ k) by auto.
    replace (wslot wb' k) with (wslot wb k) by (unfold wslot; now rewrite H1). rewrite H1, H2, H3. destruct (_ && _ && _); reflexivity.
  - unfold wb_merge. cbn [mq_addr]. rewrite (find_wb_out wb (sq_addr q0)) by auto. cbn [snd]. rewrite (find_wb_out wb (sq_addr q1)) by (rewrite <- ?E; auto). reflexivity.
Qed.
Definition rep (r : option storeresp) : option replay := match r with Some p => Some (sp_replay p) | None => None end.
(** outcomes of two stores to one line: the younger is not ahead of the older *)
Definition ordered (r0 r1 : option storeresp) : Prop :=
  match r0, r1 with
  | Some p0, Some p1 => (sp_replay p0 = CONFLICT -> sp_replay p1 = CONFLICT) /\ (waits (sp_replay p0) = true -> waits (sp_replay p1) = true)
  | _, _ => True
  end.
Lemma raw_ordered c wb ms sf fw f mg q0 q1 b t0 t1 :
  Xok c wb ms -> Cok c -> Wok wb -> isl (sq_addr q0 / 64) -> (forall l, held ms l -> exists i, hasM ms l i) ->
  sq_addr q0 / 64 = sq_addr q1 / 64 ->
  sview c wb ms sf fw f mg (Some (q0, b)) t0 -> sview c wb ms sf (t_fw t0) (t_free t0) mg (Some (q1, b)) t1 -> ordered (t_resp t0) (t_resp t1).
Proof.
  intros X C W L HM E V0 V1.
  remember (Some (q0, b)) as S0 eqn:ES0. remember (Some (q1, b)) as S1 eqn:ES1.
  destruct V0; try discriminate; injection ES0 as <- <-;
  destruct V1; try discriminate; injection ES1 as <-; cbn [t_resp t_fw t_free ordered sp_replay waits fw_way] in *; try rewrite <- E in *;
    (split; [intros Q; try discriminate Q|intros Q; try discriminate Q]); try reflexivity; try contradiction; try congruence; exfalso;
    repeat match goal with H : hasC c ?l ?v, H' : hasC c ?l ?v' |- _ => pose proof (co_u _ C _ _ _ H H'); subst; clear H' end;
    try (eapply (x_cw _ _ _ X); eauto; fail); try (eapply (x_cm _ _ _ X); eauto; fail); try (eapply (x_wm _ _ _ X); eauto; fail);
    repeat match goal with H : held ms ?l |- _ => destruct (HM _ H) as [? ?]; clear H end; eauto;
    try (eapply (x_cw _ _ _ X); eauto; fail); try (eapply (x_cm _ _ _ X); eauto; fail); try (eapply (x_wm _ _ _ X); eauto; fail);
    match goal with N : (forall v, ~ hasC c _ v), H : hasC c _ ?v |- _ => exact (N v H) | N : (forall v, ~ hasW wb _ v), H : hasW wb _ ?v |- _ => exact (N v H) | N : (forall v, ~ hasM ms _ v), H : hasM ms _ ?v |- _ => exact (N v H) end.
Qed.
Lemma tick_ordered m0 y i o y' q0 b0 q1 b1 : Inv m0 y -> step y i o y' -> same_flag (d_s (y_d y)) ->
  s_st0 (d_s (y_d y)) = Some (q0, b0) -> s_st1 (d_s (y_d y)) = Some (q1, b1) -> sq_addr q0 / 64 = sq_addr q1 / 64 -> ordered (to_t0 o) (to_t1 o).
Proof.
  intros II ST SF S0 S1 E. inversion ST as [m' s' o' AX RQ TK E1 E2]. subst o'. clear ST.
  destruct (i_w _ _ II) as (fo & DW & FO). rewrite (tick_open i (y_d y) fo DW (i_meta _ _ II)) in TK. injection TK as <- <-. clear E2. cbn [to_t0 to_t1].
  destruct (mid_core m0 y i m' II AX) as (K & _). destruct (i_sl _ _ II) as (A0 & A1 & A2 & A3).
  unfold same_flag in SF. rewrite S0, S1 in SF. specialize (SF E). subst b1.
  pose proof (gT0 (view m0 y) m' _ _ _ _ (o_L0 (y_d y)) (o_L1 (y_d y)) _ _ (o_i0 (y_d y)) (o_i1 (y_d y)) fo K A2 A3) as VT0.
  pose proof (gT1 (view m0 y) m' _ _ _ _ (o_L0 (y_d y)) (o_L1 (y_d y)) _ _ (o_i0 (y_d y)) (o_i1 (y_d y)) fo K A2 A3) as VT1.
  fold (o_T0 (y_d y)) in *. fold (o_T1 (y_d y)) in *.
  assert (MG : fst (g_m1 (o_wb i (y_d y)) (o_T0 (y_d y)) (o_T1 (y_d y))) = fst (g_m0 (o_wb i (y_d y)) (o_T0 (y_d y)))).
  { unfold o_T0, o_T1 in *. unfold g_m1, g_wb2, g_m0. rewrite S0, S1 in *. destruct b0; [reflexivity|]. apply merge_same; auto. apply K. }
  rewrite MG in VT1. change (s_st0 (d_s (y_d y))) with (o_T0 (y_d y)) in S0. change (s_st1 (d_s (y_d y))) with (o_T1 (y_d y)) in S1.
  unfold o_t0, o_t1. set (t0 := g_t0 _ _ _ _ _ _ _ _ _ _) in *. set (t1 := g_t1 _ _ _ _ _ _ _ _ _ _ _) in *.
  refine (raw_ordered _ _ _ _ _ _ _ q0 q1 b0 t0 t1 (k_x _ _ _ _ _ _ K) (k_c _ _ _ _ _ _ K) (k_w _ _ _ _ _ _ K) _ _ E _ _).
  - rewrite S0 in A2. exact (line_range _ A2).
  - intros l Hl. eexists. eapply held_M; [apply K|exact Hl].
  - rewrite <- S0. exact VT0.
  - rewrite <- S1. exact VT1.
Qed.
Lemma tick_raw_store m0 y i o y' k : Inv m0 y -> step y i o y' -> (k < 2)%nat -> rawT k o <> None -> latT k (to_pend o) = rawT k o.
Proof.
  intros II ST Hk R. inversion ST as [m' s' o' AX RQ TK E1 E2]. subst o'. clear ST.
  destruct (i_w _ _ II) as (fo & DW & FO). rewrite (tick_open i (y_d y) fo DW (i_meta _ _ II)) in TK. injection TK as <- <-. clear E2.
  destruct (P0raw m0 y i m' fo II AX) as [P0 P1].
  destruct (mid_core m0 y i m' II AX) as (K & _).
  set (fr := ms_fill_req (o_ms i (y_d y))).
  assert (FW : exists F, (forall a, F (a / 64) = true -> held (o_ms i (y_d y)) (a / 64)) /\ la_st0 (o_p2 i (y_d y) fo) = fwdT F (la_st0 (o_p1 i (y_d y) fo)) (la_ms0 (o_p1 i (y_d y) fo)) /\
                      la_st1 (o_p2 i (y_d y) fo) = fwdT F (la_st1 (o_p1 i (y_d y) fo)) (la_ms1 (o_p1 i (y_d y) fo))).
  { unfold o_p2. destruct (ms_hold (o_ms i (y_d y))) eqn:H.
    - destruct (held_ex _ _ (k_m _ _ _ _ _ _ K) H) as (lh & L & HH). destruct (fr_held _ _ _ (k_m _ _ _ _ _ _ K) HH) as (FV & _ & FA & _).
      exists (fun l => l =? lh). split; [intros a Q; apply Z.eqb_eq in Q; now rewrite Q|]. fold fr in FV, FA |- *. clearbody fr. unfold forward. rewrite FV. cbn [negb].
      unfold forward_store. cbv zeta. set (p := o_p1 i (y_d y) fo). assert (LD : fr_addr fr / 64 = lh) by lia.
      destruct (la_st0 p) as [p0|]; [destruct (la_ms0 p) as [[[a d] st]|]|]; rewrite ?line_match, ?LD;
      [destruct (waits (sp_replay p0) && (a / 64 =? lh)) eqn:E0| |];
      (destruct (la_st1 p) as [p1|]; [destruct (la_ms1 p) as [[[a1 d1] st1]|]|]; rewrite ?line_match; cbn [fr_addr]; rewrite ?LD; [destruct (waits (sp_replay p1) && (a1 / 64 =? lh)) eqn:E1'| |]);
      cbn [fst la_st0 la_st1 fwdT]; rewrite ?E0, ?E1'; auto.
    - exists (fun _ => false). split; [discriminate|]. unfold fr. rewrite fr_none by auto. unfold forward. cbn [fr_valid negb fst]. unfold fwdT.
      set (p := o_p1 i (y_d y) fo). destruct (la_st0 p); [destruct (la_ms0 p) as [[[? ?] ?]|]|]; rewrite ?andb_false_r; (split; [reflexivity|]); destruct (la_st1 p); try destruct (la_ms1 p) as [[[? ?] ?]|]; rewrite ?andb_false_r; reflexivity. }
  destruct FW as (F & FH & F0 & F1).
  destruct k as [|[|k]]; [| |lia]; cbn [rawT latT to_pend to_t0 to_t1] in *.
  - rewrite F0. unfold o_p1, capture. cbn [la_st0 la_ms0]. destruct (t_resp (o_t0 i (y_d y) fo)) as [p|]; [|congruence]. cbn [meta_slots mt_s0].
    destruct P0 as (a & d & st & E & W). fold (o_T0 (y_d y)). rewrite E. cbn [fwdT]. destruct (waits (sp_replay p)) eqn:Q; [|reflexivity]. cbn [andb].
    destruct (F (a / 64)) eqn:FF; [|reflexivity]. exfalso. exact (W eq_refl (FH a FF)).
  - rewrite F1. unfold o_p1, capture. cbn [la_st1 la_ms1]. destruct (t_resp (o_t1 i (y_d y) fo)) as [p|]; [|congruence]. cbn [meta_slots mt_s1].
    destruct P1 as (a & d & st & E & W). fold (o_T1 (y_d y)). rewrite E. cbn [fwdT]. destruct (waits (sp_replay p)) eqn:Q; [|reflexivity]. cbn [andb].
    destruct (F (a / 64)) eqn:FF; [|reflexivity]. exfalso. exact (W eq_refl (FH a FF)).
Qed.
Lemma tick_arr m0 y i o y' : Inv m0 y -> step y i o y' ->
  y_arr y' = length (y_hist y) \/ (y_arr y' = y_arr y /\ forall l, held (d_ms (y_d y')) l -> held (d_ms (y_d y)) l).
Proof.
  intros II ST. inversion ST as [m' s' o' AX RQ TK E1 E2]. subst o'. clear ST.
  destruct (i_w _ _ II) as (fo & DW & FO). rewrite (tick_open i (y_d y) fo DW (i_meta _ _ II)) in TK. injection TK as <- <-. clear E2. cbn [y_arr y_d d_ms].
  destruct (mid_core m0 y i m' II AX) as (K & _ & _ & SE & AC1 & AC2).
  pose proof (modes m0 y i m' fo II AX FO) as (KC & KH & KFO & KHE & KP0 & KP1 & KD).
  unfold read_taken. cbn [to_rready]. destruct (o_acc i (y_d y)) eqn:AC.
  - destruct (AC1 eq_refl) as (_ & _ & RR). destruct (ti_rresp i); [auto|congruence].
  - right. split; [destruct (ti_rresp i); reflexivity|]. intros l Hl. apply KHE in Hl. destruct (AC2 eq_refl) as (H1 & H2 & H3). destruct Hl as [Y1 Y2]. split; [congruence|].
    rewrite H2 in Y2. destruct (SE (ms_hid (d_ms (y_d y)))) as (_ & E & _). congruence.
Qed.
