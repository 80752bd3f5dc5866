(** What each stage-2 decision means: the write-buffer and miss-register
    primitives and the case split of a store and of a load. *)
From Verif Require Import Base BaseLemmas MemSpec MemModel MemProofs DcModel DcSpec DcLemmas DcInv.
Ltac Zify.zify_post_hook ::= Z.div_mod_to_equations.
#[local] Opaque Z.pow Z.land Z.lor Z.shiftl Z.shiftr.

(** ** Write buffer *)
Lemma find_wb_fold wb t n :
  match fold_left (fun best k => if we_addr (wb_buf wb (Nat.modulo (wb_head wb + k) WBS)) =? t then Some (Nat.modulo (wb_head wb + k) WBS) else best) (seq 0 n) None with
  | Some i => exists k, (k < n)%nat /\ i = wslot wb k /\ we_addr (went wb k) = t
  | None => forall k, (k < n)%nat -> we_addr (went wb k) <> t
  end.
Proof.
  induction n as [|n IH]; [cbn; intros; lia|]. rewrite seq_S, fold_left_app. cbn [fold_left plus]. change WBS with 8%nat in *.
  fold (wslot wb n). fold (went wb n). destruct (Z.eqb_spec (we_addr (went wb n)) t) as [E|NE].
  - exists n. sp; auto.
  - destruct (fold_left _ _ _) as [i|].
    + destruct IH as (k & K & E & A). exists k. sp; auto.
    + intros k K. destruct (Nat.eq_dec k n) as [->|]; auto. apply IH. lia.
Qed.
Lemma find_wb_in wb a k : Wok wb -> is_w 32 a -> hasW wb (a / 64) k -> find_wb_entry wb a = Some (wslot wb k).
Proof.
  intros W A H. unfold find_wb_entry. cbv zeta. rewrite line_mask by auto. pose proof (find_wb_fold wb (a / 64 * 64) (wb_count wb)) as F.
  destruct (fold_left _ _ _) as [i|].
  - destruct F as (k' & K' & -> & E). f_equal. f_equal. apply (wo_u _ W (a / 64)); auto. split; auto.
  - exfalso. destruct H as [K E]. exact (F k K E).
Qed.
Lemma find_wb_out wb a : is_w 32 a -> (forall k, ~ hasW wb (a / 64) k) -> find_wb_entry wb a = None.
Proof.
  intros A N. unfold find_wb_entry. cbv zeta. rewrite line_mask by auto. pose proof (find_wb_fold wb (a / 64 * 64) (wb_count wb)) as F.
  destruct (fold_left _ _ _) as [i|]; auto. destruct F as (k & K & _ & E). exfalso. apply (N k). split; auto.
Qed.
(** decidability of presence *)
Lemma hasW_dec wb l : (exists k, hasW wb l k) \/ (forall k, ~ hasW wb l k).
Proof.
  pose proof (find_wb_fold wb (l * 64) (wb_count wb)) as F. destruct (fold_left _ _ _) as [i|].
  - destruct F as (k & K & _ & E). left. exists k. split; auto.
  - right. intros k [K E]. exact (F k K E).
Qed.
Lemma hasC_dec c l : (exists v, hasC c l v) \/ (forall v, ~ hasC c l v).
Proof.
  destruct (find (fun v => c_valid c (l mod 256) v && (c_tag c (l mod 256) v =? l / 256)) (seq 0 4)) as [v|] eqn:E.
  - left. exists v. apply find_seq_some in E. destruct E as [I P]. apply andb_true_iff in P. destruct P as [V T]. apply Z.eqb_eq in T. unfold hasC. auto.
  - right. intros v (I & V & T). eapply find_seq_none with (x := v) in E; auto. rewrite V, T, Z.eqb_refl in E. discriminate.
Qed.
Lemma hasM_dec ms l : (exists i, hasM ms l i) \/ (forall i, ~ hasM ms l i).
Proof.
  destruct (find_entry_idx ms (l * 64)) as [i|] eqn:E; unfold find_entry_idx, MSHRS in E.
  - left. exists i. apply find_seq_some in E. destruct E as [I P]. apply andb_true_iff in P. destruct P as [V T]. apply Z.eqb_eq in T. unfold hasM. auto.
  - right. intros i (I & V & T). eapply find_seq_none with (x := i) in E; auto. rewrite V, T, Z.eqb_refl in E. discriminate.
Qed.
Lemma held_dec ms l : held ms l \/ ~ held ms l.
Proof. unfold held. destruct (ms_hold ms); [|right; intros [? _]; discriminate]. destruct (Z.eq_dec (me_addr (ms_ent ms (ms_hid ms))) (l * 64)); [left|right]; tauto. Qed.

Lemma find_C c l v : Cok c -> hasC c l v -> first_way (fun w => c_valid c (l mod 256) w && (c_tag c (l mod 256) w =? l / 256)) = Some v.
Proof.
  intros K H. unfold first_way, WAYS. pose proof H as (I & V & T). apply find_seq_unique; auto.
  - now rewrite V, T, Z.eqb_refl.
  - intros y Y P. apply andb_true_iff in P. destruct P as [V' T']. apply Z.eqb_eq in T'. apply (co_u _ K l); auto. split; auto.
Qed.
Lemma find_C_none c l : (forall v, ~ hasC c l v) -> first_way (fun w => c_valid c (l mod 256) w && (c_tag c (l mod 256) w =? l / 256)) = None.
Proof.
  intros N. unfold first_way, WAYS. apply find_seq_not. intros y Y. destruct (c_valid c (l mod 256) y && (c_tag c (l mod 256) y =? l / 256)) eqn:E; auto.
  apply andb_true_iff in E. destruct E as [V T]. apply Z.eqb_eq in T. exfalso. apply (N y). split; auto.
Qed.
Lemma find_M M ms l i : Mok M ms -> hasM ms l i -> find_entry_idx ms (l * 64) = Some i.
Proof.
  intros K H. pose proof H as (I & V & T). unfold find_entry_idx, MSHRS. apply find_seq_unique; auto.
  - now rewrite V, T, Z.eqb_refl.
  - intros y Y P. apply andb_true_iff in P. destruct P as [V' T']. apply Z.eqb_eq in T'. apply (mo_u _ _ K l); auto. split; auto.
Qed.
Lemma find_M_none ms l : (forall i, ~ hasM ms l i) -> find_entry_idx ms (l * 64) = None.
Proof.
  intros N. unfold find_entry_idx, MSHRS. apply find_seq_not. intros y Y. destruct (me_valid (ms_ent ms y) && (me_addr (ms_ent ms y) =? l * 64)) eqn:E; auto.
  apply andb_true_iff in E. destruct E as [V T]. apply Z.eqb_eq in T. exfalso. apply (N y). split; auto.
Qed.

(** Merging one store port into the write buffer. *)
Definition sds (q : storereq) : dstore := mkds (sq_addr q) (sq_data q) (sq_strb q).
Definition slot_ok (slot : option (storereq * bool)) : Prop := match slot with Some (q, _) => is_w 32 (sq_addr q) | None => True end.
Definition lslot_ok (slot : option (loadreq * bool)) : Prop := match slot with Some (q, _) => is_w 32 (lq_addr q) | None => True end.
Definition mg_done (slot : option (storereq * bool)) (r : bool * bool) : list dstore :=
  match slot with Some (q, _) => if fst r then [sds q] else [] | None => [] end.
Lemma wb_merge_spec wb slot : Wok wb -> slot_ok slot ->
  let '(r, wb') := wb_merge wb (st_mg slot) in
  (wb_head wb' = wb_head wb /\ wb_count wb' = wb_count wb /\ wb_send wb' = wb_send wb) /\
  (forall k, (k < wb_count wb)%nat -> we_addr (went wb' k) = we_addr (went wb k)) /\
  (wb_send wb = true -> went wb' 0 = went wb 0) /\
  (forall l j w k, hasW wb l j -> wk w k -> bsel (we_data (went wb' j) w) k = effs (mg_done slot r) l w k (bsel (we_data (went wb j) w) k)) /\
  match slot with
  | Some (q, false) =>
      (forall k, hasW wb (sq_addr q / 64) k -> r = (true, false) \/ r = (false, true)) /\
      ((forall k, ~ hasW wb (sq_addr q / 64) k) -> r = (false, false))
  | _ => r = (false, false)
  end.
Proof.
  intros W A. destruct slot as [[q [|]]|]; cbn [st_mg wb_merge mg_done fst]; try (cbn [wb_merge]; sp; auto; fail).
  cbn in A. unfold wb_merge. cbn [mq_addr mq_data mq_strb].
  destruct (hasW_dec wb (sq_addr q / 64)) as [[k0 H0]|N].
  2:{ rewrite find_wb_out by auto. sp; auto. intros k H. exfalso. exact (N k H). }
  rewrite (find_wb_in _ _ k0) by auto. pose proof H0 as [K0 A0]. pose proof (wo_c _ W) as WC. pose proof (wo_h _ W) as WH.
  replace (Nat.ltb 0 (wb_count wb)) with true by (symmetry; apply Nat.ltb_lt; lia). rewrite andb_true_r.
  destruct (Nat.eqb (wslot wb k0) (wb_head wb) && wb_send wb) eqn:BZ.
  { sp; auto. intros N. exfalso. exact (N k0 H0). }
  fold (went wb k0).
  match goal with |- (wb_head ?x = _ /\ _) /\ _ => set (wb' := x) end.
  assert (WE : forall j, (j < 8)%nat -> went wb' j = if Nat.eqb j k0 then mkwbe (we_addr (went wb k0)) (upd1 (f_word (decode (sq_addr q))) (sq_data q) (sq_strb q) (we_data (went wb k0))) else went wb j).
  { intros j J. unfold went at 1. change (wslot wb' j) with (wslot wb j). unfold wb'. cbn [wb_buf]. unfold fupd.
    destruct (Nat.eqb_spec j k0) as [->|NE].
    - rewrite Nat.eqb_refl. reflexivity.
    - destruct (Nat.eqb_spec (wslot wb j) (wslot wb k0)) as [E|]; [exfalso; apply NE; apply (wslot_inj wb); auto; lia|]. reflexivity. }
  sp; auto.
  - intros k K. rewrite WE by lia. destruct (Nat.eqb_spec k k0) as [->|]; reflexivity.
  - intros SE. rewrite WE by lia. destruct (Nat.eqb_spec 0 k0) as [<-|]; [|reflexivity]. rewrite wslot0, Nat.eqb_refl, SE in BZ by auto. discriminate.
  - intros l j w k HJ [WW KK]. rewrite WE by (destruct HJ; lia). unfold effs; cbn [mg_done fst fold_left].
    destruct (Nat.eqb_spec j k0) as [->|NE].
    + assert (l = sq_addr q / 64) by (eapply W_inj; eauto). subst l. cbn [we_data]. apply bsel_upd1_eff; auto.
    + unfold eff, sds; cbn [ds_addr]. destruct (Z.eqb_spec (sq_addr q / 64) l) as [<-|]; [|reflexivity]. exfalso. apply NE. eapply (wo_u _ W); eauto.
  - intros N. exfalso. exact (N k0 H0).
Qed.
Lemma Wok_same wb wb' : Wok wb -> wb_head wb' = wb_head wb -> wb_count wb' = wb_count wb ->
  (forall k, (k < wb_count wb)%nat -> we_addr (went wb' k) = we_addr (went wb k)) ->
  Wok wb' /\ (forall l k, hasW wb' l k <-> hasW wb l k).
Proof.
  intros W H C A.
  assert (HW : forall l k, hasW wb' l k <-> hasW wb l k).
  { intros l k. unfold hasW. rewrite C. split; intros [K E]; split; auto; [rewrite <- A|rewrite A]; auto. }
  split; auto. destruct W. constructor.
  - rewrite C; auto.
  - rewrite H; auto.
  - intros k K. rewrite C in K. rewrite A by auto. auto.
  - intros l k k' X Y. apply HW in X, Y. eauto.
Qed.

(** ** Stage-2 view of a store *)
Section SView.
  Variables (M : Z -> Z) (c : cache) (wb : wbst) (ms : mshr) (sf fw : fillw) (free : nat) (mg : bool * bool).
  Inductive sview : option (storereq * bool) -> s2st -> Prop :=
  | sv_idle : sview None (mks2s None None None None None fw free)
  | sv_replayed q : sview (Some (q, true)) (mks2s (Some (mksp CONFLICT (sq_id q))) None None None None fw free)
  | sv_fillnow q : held ms (sq_addr q / 64) -> fw_valid sf = true -> fw_valid fw = true ->
      sview (Some (q, false)) (mks2s (Some (mksp HIT (sq_id q))) None None None None
         (mkfw (fw_valid fw) (fw_id fw) true (fw_set fw) (fw_tag fw) (fw_way fw) (upd1 (f_word (decode (sq_addr q))) (sq_data q) (sq_strb q) (fw_data fw))) free)
  | sv_wire q : held ms (sq_addr q / 64) -> (fw_valid sf = true -> fw_valid fw = false) ->
      sview (Some (q, false)) (mks2s (Some (mksp HIT (sq_id q))) None None None (Some (f_word (decode (sq_addr q)), sq_data q, sq_strb q)) fw free)
  | sv_conf q v : ~ held ms (sq_addr q / 64) -> hasC c (sq_addr q / 64) v ->
      fw_valid sf = true -> fw_set sf = (sq_addr q / 64) mod 256 -> fw_way fw = v ->
      sview (Some (q, false)) (mks2s (Some (mksp CONFLICT (sq_id q))) None None None None fw free)
  | sv_pw q v : ~ held ms (sq_addr q / 64) -> hasC c (sq_addr q / 64) v ->
      ~ (fw_valid sf = true /\ fw_set sf = (sq_addr q / 64) mod 256 /\ fw_way fw = v) ->
      sview (Some (q, false)) (mks2s (Some (mksp HIT (sq_id q))) None
         (Some (mkpw ((sq_addr q / 64) mod 256) v (f_word (decode (sq_addr q))) (sq_data q) (sq_strb q))) (Some ((sq_addr q / 64) mod 256, v)) None fw free)
  | sv_wb q j : hasW wb (sq_addr q / 64) j -> mg = (true, false) ->
      sview (Some (q, false)) (mks2s (Some (mksp HIT (sq_id q))) None None None None fw free)
  | sv_busy q j : hasW wb (sq_addr q / 64) j -> mg = (false, true) ->
      sview (Some (q, false)) (mks2s (Some (mksp CONFLICT (sq_id q))) None None None None fw free)
  | sv_find q i : ~ held ms (sq_addr q / 64) -> hasM ms (sq_addr q / 64) i -> mg = (false, false) ->
      sview (Some (q, false)) (mks2s (Some (mksp HIT (sq_id q))) (Some (mkmr (sq_addr q) true (sq_data q) (sq_strb q))) None None None fw free)
  | sv_full q : (forall v, ~ hasC c (sq_addr q / 64) v) -> (forall j, ~ hasW wb (sq_addr q / 64) j) -> (forall i, ~ hasM ms (sq_addr q / 64) i) -> free = 0%nat ->
      mg = (false, false) ->
      sview (Some (q, false)) (mks2s (Some (mksp MSHR_FULL (sq_id q))) None None None None fw free)
  | sv_alloc q : (forall v, ~ hasC c (sq_addr q / 64) v) -> (forall j, ~ hasW wb (sq_addr q / 64) j) -> (forall i, ~ hasM ms (sq_addr q / 64) i) -> free <> 0%nat ->
      mg = (false, false) ->
      sview (Some (q, false)) (mks2s (Some (mksp HIT (sq_id q))) (Some (mkmr (sq_addr q) true (sq_data q) (sq_strb q))) None None None fw (free - 1)).
End SView.

Definition mg_ok (wb : wbst) (slot : option (storereq * bool)) (mg : bool * bool) : Prop :=
  match slot with
  | Some (q, false) => (forall k, hasW wb (sq_addr q / 64) k -> mg = (true, false) \/ mg = (false, true)) /\
                       ((forall k, ~ hasW wb (sq_addr q / 64) k) -> mg = (false, false))
  | _ => mg = (false, false)
  end.
Lemma s2_store_view M c wb ms sf fw free mg slot :
  Cok c -> Mok M ms -> Fok ms sf -> Xok c wb ms -> slot_ok slot -> mg_ok wb slot mg ->
  sview c wb ms sf fw free mg slot
    (s2_store c slot (st_set slot) mg (ms_find ms (st_fd slot)) (ms_fill_req ms) sf fw free).
Proof.
  intros Kc Km Kf Kx A G. destruct slot as [[q [|]]|]; try constructor. cbn in A.
  pose proof (line_range _ A) as LR. change (0 <= sq_addr q / 64 < LN) with (isl (sq_addr q / 64)) in LR.
  unfold s2_store. cbv zeta. cbn [st_set st_fd]. rewrite line_match.
  assert (FR : (sq_addr q / 64 =? fr_addr (ms_fill_req ms) / 64) && fr_valid (ms_fill_req ms) = true <-> held ms (sq_addr q / 64)).
  { unfold ms_fill_req, held. destruct (ms_hold ms) eqn:H; cbn [fr_addr fr_valid]; [|rewrite andb_false_r; split; [discriminate|intros [? ?]; discriminate]].
    rewrite andb_true_r, Z.eqb_eq. destruct (mo_h _ _ Km H) as (I & V & _). destruct (mo_a _ _ Km _ I V) as (l & L & E). rewrite E.
    replace (l * 64 / 64) with l by lia. split; [intros; split; auto; lia|intros [_ ?]; lia]. }
  destruct ((sq_addr q / 64 =? fr_addr (ms_fill_req ms) / 64) && fr_valid (ms_fill_req ms)) eqn:FE.
  - apply proj1 in FR. specialize (FR eq_refl).
    assert (AL : fw_valid sf && (fw_set sf =? f_set (decode (fr_addr (ms_fill_req ms)))) && (fw_tag sf =? f_tag (decode (fr_addr (ms_fill_req ms)))) = fw_valid sf).
    { destruct (fw_valid sf) eqn:V; auto. destruct (Kf V) as (H & _ & SF). destruct (SF _ FR) as [S T]. rewrite f_set_eq, f_tag_eq.
      apply andb_true_iff in FE. destruct FE as [FE _]. apply Z.eqb_eq in FE. rewrite <- FE, S, T, !Z.eqb_refl. reflexivity. }
    rewrite AL. destruct (fw_valid sf && fw_valid fw) eqn:B.
    + apply andb_true_iff in B. destruct B. apply sv_fillnow; auto.
    + apply sv_wire; auto. intros V. rewrite V in B. exact B.
  - assert (NH : ~ held ms (sq_addr q / 64)). { intros H. apply FR in H. discriminate. }
    rewrite f_set_eq, f_tag_eq. cbn in G. destruct G as [G1 G2].
    destruct (hasC_dec c (sq_addr q / 64)) as [[v HC]|NC].
    + rewrite (find_C _ _ _ Kc HC).
      destruct ((fw_set sf =? (sq_addr q / 64) mod 256) && fw_valid sf && Nat.eqb (fw_way fw) v) eqn:CF.
      * apply andb_true_iff in CF. destruct CF as [CF W]. apply andb_true_iff in CF. destruct CF as [S V]. apply Z.eqb_eq in S. apply Nat.eqb_eq in W.
        apply sv_conf with (v := v); auto.
      * apply sv_pw; auto. intros (V & S & W). rewrite V, S, W, Z.eqb_refl, Nat.eqb_refl in CF. discriminate.
    + rewrite (find_C_none _ _ NC). cbn [ms_find]. rewrite get_addr_line by exact LR.
      destruct (hasW_dec wb (sq_addr q / 64)) as [[j HW]|NW].
      * destruct (G1 j HW) as [-> | ->]; cbn [fst snd]; [eapply sv_wb|eapply sv_busy]; eauto.
      * rewrite (G2 NW). cbn [fst snd]. destruct (hasM_dec ms (sq_addr q / 64)) as [[i HM]|NM].
        -- rewrite (find_M _ _ _ _ Km HM). eapply sv_find; eauto.
        -- rewrite (find_M_none _ _ NM). destruct (Nat.eqb_spec free 0) as [->|NZ]; [apply sv_full|apply sv_alloc]; auto.
Qed.

(** ** Stage-2 view of a load *)
Section LView.
  Variables (c : cache) (wb : wbst) (ms : mshr) (ic : bool) (free : nat).
  Inductive lview : option (loadreq * bool) -> s2ld -> Prop :=
  | lv_idle : lview None (mks2l None None None free)
  | lv_replayed q : lview (Some (q, true)) (mks2l (Some (mklp 0 CONFLICT (lq_id q))) None None free)
  | lv_wb q j : hasW wb (lq_addr q / 64) j ->
      lview (Some (q, false)) (mks2l (Some (mklp (we_data (went wb j) (f_word (decode (lq_addr q)))) HIT (lq_id q))) None None free)
  | lv_hit q v : hasC c (lq_addr q / 64) v ->
      lview (Some (q, false)) (mks2l (Some (mklp (c_data c ((lq_addr q / 64) mod 256) v (f_word (decode (lq_addr q)))) HIT (lq_id q))) None (Some ((lq_addr q / 64) mod 256, v)) free)
  | lv_probe q : (forall v, ~ hasC c (lq_addr q / 64) v) -> (forall j, ~ hasW wb (lq_addr q / 64) j) -> ic = true ->
      lview (Some (q, false)) (mks2l (Some (mklp 0 CONFLICT (lq_id q))) None None free)
  | lv_find q i : hasM ms (lq_addr q / 64) i -> lview (Some (q, false)) (mks2l (Some (mklp 0 MSHR_HIT (lq_id q))) None None free)
  | lv_full q : free = 0%nat -> lview (Some (q, false)) (mks2l (Some (mklp 0 MSHR_FULL (lq_id q))) None None free)
  | lv_alloc q : (forall v, ~ hasC c (lq_addr q / 64) v) -> (forall j, ~ hasW wb (lq_addr q / 64) j) -> (forall i, ~ hasM ms (lq_addr q / 64) i) -> free <> 0%nat ->
      lview (Some (q, false)) (mks2l (Some (mklp 0 MSHR_HIT (lq_id q))) (Some (mkmr (lq_addr q) false 0 0)) None (free - 1)).
End LView.
Lemma s2_load_view M c wb ms ic free slot :
  Cok c -> Mok M ms -> Wok wb -> lslot_ok slot ->
  lview c wb ms ic free slot (s2_load c slot (ld_set slot) (wb_bypass wb (ld_by slot)) (ms_find ms (ld_fd slot)) ic free).
Proof.
  intros Kc Km Kw A. destruct slot as [[q [|]]|]; try constructor. cbn in A.
  pose proof (line_range _ A) as LR. unfold s2_load. cbv zeta. cbn [ld_set ld_by ld_fd wb_bypass ms_find].
  destruct (hasW_dec wb (lq_addr q / 64)) as [[j HW]|NW].
  { rewrite (find_wb_in _ _ j) by auto. fold (went wb j). now apply lv_wb. }
  rewrite find_wb_out by auto. rewrite f_set_eq, f_tag_eq.
  destruct (hasC_dec c (lq_addr q / 64)) as [[v HC]|NC].
  { rewrite (find_C _ _ _ Kc HC). now apply lv_hit. }
  rewrite (find_C_none _ _ NC). destruct ic; [now apply lv_probe|]. rewrite get_addr_line by exact LR.
  destruct (hasM_dec ms (lq_addr q / 64)) as [[i HM]|NM].
  - rewrite (find_M _ _ _ _ Km HM). eapply lv_find; eauto.
  - rewrite (find_M_none _ _ NM). destruct (Nat.eqb_spec free 0) as [->|NZ]; [now apply lv_full|now apply lv_alloc].
Qed.
