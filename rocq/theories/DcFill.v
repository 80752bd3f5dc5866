(** The cache arrays, the fill register and the response latch through one tick. *)
From Verif Require Import Base BaseLemmas MemSpec MemModel MemProofs DcModel DcSpec DcLemmas DcInv DcStage DcMiss.
Ltac Zify.zify_post_hook ::= Z.div_mod_to_equations.
#[local] Opaque Z.pow Z.land Z.lor Z.shiftl Z.shiftr.

Definition same_tv (c c' : cache) : Prop := c_tag c' = c_tag c /\ c_valid c' = c_valid c.
Lemma same_tv_has c c' l v : same_tv c c' -> (hasC c' l v <-> hasC c l v).
Proof. intros [T V]. unfold hasC. now rewrite T, V. Qed.
Lemma touch_same c s w : same_tv c (plru_touch_way c s w) /\ c_data (plru_touch_way c s w) = c_data c /\ c_dirty (plru_touch_way c s w) = c_dirty c.
Proof. unfold plru_touch_way, same_tv. destruct (256 <=? s); auto. Qed.
Lemma dws_fields pw lru c : let c' := dcache_write_slot pw lru c in
  same_tv c c' /\
  c_data c' = match pw with None => c_data c | Some p => zupd (c_data c) (pw_set p) (fupd (c_data c (pw_set p)) (pw_way p) (upd1 (pw_word p) (pw_data p) (pw_strb p) (c_data c (pw_set p) (pw_way p)))) end /\
  c_dirty c' = match pw with None => c_dirty c | Some p => zupd (c_dirty c) (pw_set p) (fupd (c_dirty c (pw_set p)) (pw_way p) true) end.
Proof.
  cbv zeta. unfold dcache_write_slot. set (c1 := match pw with None => c | Some _ => _ end).
  assert (S1 : same_tv c c1) by (unfold c1, same_tv; destruct pw; auto).
  assert (D1 : match lru with None => c1 | Some (s, w) => plru_touch_way c1 s w end = c1 \/ exists s w, match lru with None => c1 | Some (s, w) => plru_touch_way c1 s w end = plru_touch_way c1 s w).
  { destruct lru as [[s w]|]; [right; exists s, w|left]; reflexivity. }
  destruct D1 as [->|(s & w & ->)].
  - split; auto. unfold c1. destruct pw; auto.
  - destruct (touch_same c1 s w) as ([T V] & D & Y). rewrite D, Y. split; [destruct S1; split; congruence|]. unfold c1. destruct pw; auto.
Qed.

Lemma raw_isl slot r s : slot_ok slot -> In s (raw_done slot r) -> isl (ds_addr s / 64).
Proof.
  destruct slot as [[q b]|]; unfold raw_done, slot_ok; [|intros _ []]. intros A. destruct r as [p|]; [|intros []].
  destruct (sp_replay p); try (intros []; fail). intros [<-|[]]. cbn [ds_addr]. now apply line_range.
Qed.

Section Slots.
  Variables (M : Z -> Z) (c : cache) (wb : wbst) (ms : mshr) (sf : fillw).
  Hypotheses (Kc : Cok c) (Km : Mok M ms) (Kf : Fok ms sf) (Kx : Xok c wb ms) (Kw : Wok wb).

  Lemma pw_step fw f mg slot t lru c' : slot_ok slot -> sview c wb ms sf fw f mg slot t -> same_tv c c' ->
    let c'' := dcache_write_slot (t_pw t) lru c' in
    same_tv c c'' /\
    (forall l v, isl l -> hasC c l v -> forall w k, wk w k ->
       bsel (c_data c'' (l mod 256) v w) k = effs (raw_done slot (t_resp t)) l w k (bsel (c_data c' (l mod 256) v w) k)) /\
    (forall l v, isl l -> hasC c l v -> c_dirty c'' (l mod 256) v = false ->
       c_dirty c' (l mod 256) v = false /\ forall s, In s (raw_done slot (t_resp t)) -> ds_addr s / 64 <> l).
  Proof.
    intros A V [T1 T2]. cbv zeta. destruct (dws_fields (t_pw t) lru c') as ([S1 S2] & D & Y). rewrite D, Y.
    split; [split; congruence|].
    assert (NO : t_pw t = None -> (forall l v, isl l -> hasC c l v -> forall s, In s (raw_done slot (t_resp t)) -> ds_addr s / 64 <> l) ->
      (forall l v, isl l -> hasC c l v -> forall w k, wk w k ->
       bsel (match t_pw t with None => c_data c' | Some p => zupd (c_data c') (pw_set p) (fupd (c_data c' (pw_set p)) (pw_way p) (upd1 (pw_word p) (pw_data p) (pw_strb p) (c_data c' (pw_set p) (pw_way p)))) end (l mod 256) v w) k = effs (raw_done slot (t_resp t)) l w k (bsel (c_data c' (l mod 256) v w) k)) /\
    (forall l v, isl l -> hasC c l v -> match t_pw t with None => c_dirty c' | Some p => zupd (c_dirty c') (pw_set p) (fupd (c_dirty c' (pw_set p)) (pw_way p) true) end (l mod 256) v = false ->
       c_dirty c' (l mod 256) v = false /\ forall s, In s (raw_done slot (t_resp t)) -> ds_addr s / 64 <> l)).
    { intros -> N. split.
      - intros l v L H w k WK. rewrite effs_off; eauto.
      - intros l v L H E. split; eauto. }
    clear D Y. inversion V; subst; cbn [t_pw t_resp raw_done sp_replay] in *; cbn in A;
      try (apply NO; [reflexivity|]; cbn; tauto).
    - apply NO; [reflexivity|]. intros l v L HC s [<-|[]]. cbn. intros <-. eapply (x_cm _ _ _ Kx); eauto. eapply held_M; eauto.
    - apply NO; [reflexivity|]. intros l v L HC s [<-|[]]. cbn. intros <-. eapply (x_cm _ _ _ Kx); eauto. eapply held_M; eauto.
    - (* the hit *) cbn [pw_set pw_way pw_word pw_data pw_strb]. split.
      + intros l v' L HC w k WK. unfold effs; cbn [fold_left]. unfold zupd at 1, fupd.
        destruct (Z.eqb_spec (l mod 256) ((sq_addr q / 64) mod 256)) as [ES|NS].
        * destruct (Nat.eqb_spec v' v) as [->|NV].
          -- assert (l = sq_addr q / 64) by (eapply C_inj; eauto). subst l. apply bsel_upd1_eff; [apply WK|reflexivity].
          -- rewrite ES. unfold eff; cbn [ds_addr]. destruct (Z.eqb_spec (sq_addr q / 64) l) as [<-|]; [|reflexivity]. exfalso. apply NV. eapply (co_u _ Kc); eauto.
        * unfold eff; cbn [ds_addr]. destruct (Z.eqb_spec (sq_addr q / 64) l) as [<-|]; [congruence|reflexivity].
      + intros l v' L HC. unfold zupd, fupd. destruct (Z.eqb_spec (l mod 256) ((sq_addr q / 64) mod 256)) as [ES|NS].
        * destruct (Nat.eqb_spec v' v) as [->|NV]; [discriminate|]. rewrite ES. split; auto. intros s [<-|[]]; cbn. intros <-. apply NV. eapply (co_u _ Kc); eauto.
        * split; auto. intros s [<-|[]]; cbn. intros <-. congruence.
    - apply NO; [reflexivity|]. intros l v L HC s [<-|[]]. cbn. intros <-. eapply (x_cw _ _ _ Kx); eauto.
    - apply NO; [reflexivity|]. intros l v L HC s [<-|[]]. cbn. intros <-. eapply (x_cm _ _ _ Kx); eauto.
    - apply NO; [reflexivity|]. intros l v L HC s [<-|[]]. cbn. intros <-. exact (H _ HC).
  Qed.

  (** the line about to be evicted receives nothing *)
  Lemma victim_quiet fw f mg slot t l v : slot_ok slot -> sview c wb ms sf fw f mg slot t -> isl l -> hasC c l v ->
    fw_valid sf = true -> fw_set sf = l mod 256 -> fw_way fw = v ->
    forall s, In s (raw_done slot (t_resp t)) -> ds_addr s / 64 <> l.
  Proof.
    intros A V L HC FV FS FW s S E. inversion V; subst; cbn [t_resp raw_done sp_replay] in S; try (cbn in S; tauto); destruct S as [<-|[]]; cbn [ds_addr] in *.
    - eapply (x_cm _ _ _ Kx); eauto. eapply held_M; eauto.
    - eapply (x_cm _ _ _ Kx); eauto. eapply held_M; eauto.
    - apply H1. sp; auto. exact (co_u _ Kc _ _ _ HC H0).
    - eapply (x_cw _ _ _ Kx); eauto.
    - eapply (x_cm _ _ _ Kx); eauto.
    - exact (H _ HC).
  Qed.

  (** write-buffer lines: the merge is exactly the store answered HIT *)
  Lemma wb_same fw f mg slot t l j w k o : slot_ok slot -> sview c wb ms sf fw f mg slot t -> mg_ok wb slot mg -> isl l -> hasW wb l j ->
    effs (raw_done slot (t_resp t)) l w k o = effs (mg_done slot mg) l w k o.
  Proof.
    intros A V G L HW.
    assert (OFF : forall (q : storereq), sq_addr q / 64 <> l -> effs [mkds (sq_addr q) (sq_data q) (sq_strb q)] l w k o = o).
    { intros q N. apply effs_off. intros s [<-|[]]. exact N. }
    inversion V; subst; cbn [t_resp raw_done sp_replay mg_done fst]; cbn in A; cbn in G; try reflexivity; try (subst mg; reflexivity).
    - rewrite (proj2 G). cbn [fst]. rewrite OFF. reflexivity.
      intros <-. eapply (x_wm _ _ _ Kx); eauto. eapply held_M; eauto.
      intros k' H'. eapply (x_wm _ _ _ Kx); [|exact H'|eapply held_M; eauto]. now apply line_range.
    - rewrite (proj2 G). cbn [fst]. rewrite OFF. reflexivity.
      intros <-. eapply (x_wm _ _ _ Kx); eauto. eapply held_M; eauto.
      intros k' H'. eapply (x_wm _ _ _ Kx); [|exact H'|eapply held_M; eauto]. now apply line_range.
    - rewrite (proj2 G). reflexivity. intros k' H'. eapply (x_cw _ _ _ Kx); [|eauto|exact H']. now apply line_range.
    - rewrite (proj2 G). cbn [fst]. rewrite OFF. reflexivity. intros <-. eapply (x_cw _ _ _ Kx); eauto.
      intros k' H'. eapply (x_cw _ _ _ Kx); [|eauto|exact H']. now apply line_range.
    - cbn [fst]. rewrite OFF; [reflexivity|]. intros <-. eapply (x_wm _ _ _ Kx); eauto.
    - cbn [fst]. rewrite OFF; [reflexivity|]. intros <-. exact (H0 _ HW).
  Qed.

  (** the held line: merged into the fill register by wire, or into the line being written *)
  Lemma wire_step fw f mg slot t lh g : slot_ok slot -> sview c wb ms sf fw f mg slot t -> isl lh -> held ms lh ->
    (fw_valid sf = true -> fw_valid fw = false) -> fw_valid g = true ->
    let g' := apply_wire (t_wire t) g in
    fw_valid g' = true /\ fw_id g' = fw_id g /\ fw_set g' = fw_set g /\ fw_tag g' = fw_tag g /\ t_fw t = fw /\
    (forall w k, wk w k -> bsel (fw_data g' w) k = effs (raw_done slot (t_resp t)) lh w k (bsel (fw_data g w) k)) /\
    (fw_dirty g' = false -> fw_dirty g = false /\ forall s, In s (raw_done slot (t_resp t)) -> ds_addr s / 64 <> lh).
  Proof.
    intros A V L HH NF GV. cbv zeta.
    assert (NO : t_wire t = None -> t_fw t = fw -> (forall s, In s (raw_done slot (t_resp t)) -> ds_addr s / 64 <> lh) ->
      let g' := apply_wire (t_wire t) g in
    fw_valid g' = true /\ fw_id g' = fw_id g /\ fw_set g' = fw_set g /\ fw_tag g' = fw_tag g /\ t_fw t = fw /\
    (forall w k, wk w k -> bsel (fw_data g' w) k = effs (raw_done slot (t_resp t)) lh w k (bsel (fw_data g w) k)) /\
    (fw_dirty g' = false -> fw_dirty g = false /\ forall s, In s (raw_done slot (t_resp t)) -> ds_addr s / 64 <> lh)).
    { intros -> E N. cbv zeta. cbn [apply_wire]. sp; auto. intros w k WK. now rewrite effs_off. }
    cbv zeta in NO. inversion V; subst; cbn [t_wire t_fw t_resp raw_done sp_replay] in *; try (apply NO; [reflexivity|reflexivity|]; cbn; tauto); cbn in A.
    - exfalso. rewrite NF in H1 by auto. discriminate.
    - assert (sq_addr q / 64 = lh) by (eapply held_inj; eauto). unfold apply_wire. rewrite GV. cbn. sp; auto.
      + intros w k WK. unfold effs; cbn [fold_left]. apply bsel_upd1_eff; [apply WK|auto].
      + discriminate.
    - apply NO; auto. intros s [<-|[]]; cbn. intros E. rewrite E in *. auto.
    - apply NO; auto. intros s [<-|[]]; cbn. intros E. rewrite E in *. eapply (x_wm _ _ _ Kx); eauto. eapply held_M; eauto.
    - apply NO; auto. intros s [<-|[]]; cbn. intros E. rewrite E in *. auto.
    - apply NO; auto. intros s [<-|[]]; cbn. intros E. rewrite E in *. apply (H1 (ms_hid ms)). eapply held_M; eauto.
  Qed.
  Lemma now_step fw f mg slot t lh : slot_ok slot -> sview c wb ms sf fw f mg slot t -> isl lh -> held ms lh ->
    fw_valid sf = true -> fw_valid fw = true ->
    fw_valid (t_fw t) = true /\ fw_set (t_fw t) = fw_set fw /\ fw_tag (t_fw t) = fw_tag fw /\ fw_way (t_fw t) = fw_way fw /\ t_wire t = None /\
    (forall w k, wk w k -> bsel (fw_data (t_fw t) w) k = effs (raw_done slot (t_resp t)) lh w k (bsel (fw_data fw w) k)) /\
    (fw_dirty (t_fw t) = false -> fw_dirty fw = false /\ forall s, In s (raw_done slot (t_resp t)) -> ds_addr s / 64 <> lh).
  Proof.
    intros A V L HH SV FV.
    assert (NO : t_fw t = fw -> t_wire t = None -> (forall s, In s (raw_done slot (t_resp t)) -> ds_addr s / 64 <> lh) ->
      fw_valid (t_fw t) = true /\ fw_set (t_fw t) = fw_set fw /\ fw_tag (t_fw t) = fw_tag fw /\ fw_way (t_fw t) = fw_way fw /\ t_wire t = None /\
      (forall w k, wk w k -> bsel (fw_data (t_fw t) w) k = effs (raw_done slot (t_resp t)) lh w k (bsel (fw_data fw w) k)) /\
      (fw_dirty (t_fw t) = false -> fw_dirty fw = false /\ forall s, In s (raw_done slot (t_resp t)) -> ds_addr s / 64 <> lh)).
    { intros -> -> N. sp; auto. intros w k WK. now rewrite effs_off. }
    inversion V; subst; cbn [t_wire t_fw t_resp raw_done sp_replay] in *; try (apply NO; [reflexivity|reflexivity|]; cbn; tauto); cbn in A.
    - assert (sq_addr q / 64 = lh) by (eapply held_inj; eauto). cbn. sp; auto.
      + intros w k WK. unfold effs; cbn [fold_left]. apply bsel_upd1_eff; [apply WK|auto].
      + discriminate.
    - exfalso. rewrite H0 in FV by auto. discriminate.
    - apply NO; auto. intros s [<-|[]]; cbn. intros E. rewrite E in *. auto.
    - apply NO; auto. intros s [<-|[]]; cbn. intros E. rewrite E in *. eapply (x_wm _ _ _ Kx); eauto. eapply held_M; eauto.
    - apply NO; auto. intros s [<-|[]]; cbn. intros E. rewrite E in *. auto.
    - apply NO; auto. intros s [<-|[]]; cbn. intros E. rewrite E in *. apply (H1 (ms_hid ms)). eapply held_M; eauto.
  Qed.

  (** the miss registers *)
  Variables (B : Z -> Z) (msd : mshr).
  Definition busy (l : Z) : Prop := (exists v, hasC c l v) \/ (exists j, hasW wb l j) \/ held ms l.
  Hypothesis D_m : forall l i, hasM ms l i -> ~ held ms l -> hasM msd l i.
  Hypothesis D_m' : forall l i, hasM msd l i -> hasM ms l i.
  Hypothesis D_h : ms_hold msd = true -> (ms_hid msd < 8)%nat /\ me_valid (ms_ent msd (ms_hid msd)) = true.
  Hypothesis D_held : forall l, held msd l -> held ms l.
  Hypothesis D_b : forall l i, isl l -> hasM msd l i -> held ms l -> ms_hold msd = true /\ ms_hid msd = i.
  Hypothesis D_none : forall l, isl l -> ~ busy l -> (forall i, ~ hasM msd l i) -> forall w k, wk w k -> bsel (Ml M l w) k = Bl B l w k.
  Lemma D_busy : forall l i, isl l -> hasM msd l i -> busy l -> ms_hold msd = true /\ ms_hid msd = i.
  Proof.
    intros l i L H [[v HC]|[[j HW]|HH]].
    - exfalso. apply D_m' in H. eapply (x_cm _ _ _ Kx); eauto.
    - exfalso. apply D_m' in H. eapply (x_wm _ _ _ Kx); eauto.
    - eauto.
  Qed.
  Lemma nbusy l : (forall v, ~ hasC c l v) -> (forall j, ~ hasW wb l j) -> ~ held ms l -> ~ busy l.
  Proof. intros A1 A2 A3 [[v HC]|[[j HW]|HH]]; eauto. eapply A1; eauto. eapply A2; eauto. Qed.
  Lemma MC_store ms' N fw f mg slot t : slot_ok slot -> sview c wb ms sf fw f mg slot t -> mg_ok wb slot mg ->
    MC B M busy msd ms' N f -> MC B M busy msd (ms_alloc (t_req t) ms') (N ++ raw_done slot (t_resp t)) (t_free t).
  Proof.
    intros A V G K.
    assert (SK : forall N', (forall s, In s N' -> busy (ds_addr s / 64) /\ isl (ds_addr s / 64)) -> MC B M busy msd ms' (N ++ N') f).
    { intros N' H. apply (skip_step B M busy msd D_h D_busy ms' N f); auto. }
    inversion V; subst; cbn [t_req t_resp t_free raw_done sp_replay ms_alloc]; cbn in A; pose proof (line_range _ A) as LR || idtac;
      try (apply SK; cbn; tauto).
    - apply SK. intros s [<-|[]]. cbn. split; [right; right; auto|exact LR].
    - apply SK. intros s [<-|[]]. cbn. split; [right; right; auto|exact LR].
    - apply SK. intros s [<-|[]]. cbn. split; [left; eauto|exact LR].
    - apply SK. intros s [<-|[]]. cbn. split; [right; left; eauto|exact LR].
    - change [mkds (sq_addr q) (sq_data q) (sq_strb q)] with (rst (mkmr (sq_addr q) true (sq_data q) (sq_strb q))).
      apply (alloc_step B M busy msd D_h D_busy) with (f := f); auto; cbn [mr_addr].
      + intros l Hl. right; right. auto.
      + apply nbusy; auto.
        * intros v HC. eapply (x_cm _ _ _ Kx); eauto.
        * intros j HW. eapply (x_wm _ _ _ Kx); eauto.
      + left. split; auto. exists i. destruct (D_m _ _ H0 H) as (I & VV & AA). destruct (mc_old _ _ _ _ _ _ _ K i I VV) as (X1 & X2 & _). split; auto. split; congruence.
    - change [mkds (sq_addr q) (sq_data q) (sq_strb q)] with (rst (mkmr (sq_addr q) true (sq_data q) (sq_strb q))).
      apply (alloc_step B M busy msd D_h D_busy) with (f := f); auto; cbn [mr_addr].
      + intros l Hl. right; right. auto.
      + apply nbusy; auto. intros HH. apply (H1 (ms_hid ms)). eapply held_M; eauto.
      + right. lia.
  Qed.
  Lemma MC_load ms' N ic f slot t : lslot_ok slot -> lview c wb ms ic f slot t ->
    MC B M busy msd ms' N f -> MC B M busy msd (ms_alloc (l_req t) ms') N (l_free t).
  Proof.
    intros A V K. inversion V; subst; cbn [l_req l_free ms_alloc]; auto. cbn in A.
    rewrite <- (app_nil_r N). change (@nil dstore) with (rst (mkmr (lq_addr q) false 0 0)).
    apply (alloc_step B M busy msd D_h D_busy) with (f := f); auto; cbn [mr_addr].
    + intros l Hl. right; right. auto.
    + apply nbusy; auto. intros HH. apply (H1 (ms_hid ms)). eapply held_M; eauto.
    + right. lia.
  Qed.
End Slots.

(** ** The fill decision *)
Lemma victim_lt t v : (choose_plru_tree_victim t v < 4)%nat.
Proof.
  unfold choose_plru_tree_victim. destruct (first_way _) as [w|] eqn:E; [apply find_seq_some in E; apply E|].
  unfold WAYS. cbn [plru_victim_loop Nat.leb]. cbn. destruct (t 0%nat); cbn; destruct (t 1%nat), (t 2%nat); cbn; lia.
Qed.
Section FView.
  Variables (c : cache) (sf : fillw) (free : nat).
  Definition wr (v : nat) : fillw := mkfw true 0 (fw_dirty sf) (fw_set sf) (fw_tag sf) v (fw_data sf).
  Inductive fview : fillw * option wbe * option nat -> Prop :=
  | fv_no : fw_valid sf = false -> fview (fillw0, None, None)
  | fv_hold : fw_valid sf = true -> free = 0%nat -> fview (fillw0, None, None)
  | fv_ev v : fw_valid sf = true -> (v < 4)%nat -> c_valid c (fw_set sf) v = true -> c_dirty c (fw_set sf) v = true -> free <> 0%nat ->
      fview (wr v, Some (mkwbe (get_addr (fw_set sf) (c_tag c (fw_set sf) v) 0) (c_data c (fw_set sf) v)), Some (fw_id sf))
  | fv_cl v : fw_valid sf = true -> (v < 4)%nat -> (c_valid c (fw_set sf) v = true -> c_dirty c (fw_set sf) v = false) ->
      fview (wr v, None, Some (fw_id sf)).
End FView.
Lemma s2_fill_view c sf fo free : (fw_valid sf = true -> fo = Some (fw_set sf)) -> fview c sf free (s2_fill sf (read_fill c fo) free).
Proof.
  intros H. unfold s2_fill. destruct (fw_valid sf) eqn:V; [|now apply fv_no]. rewrite (H eq_refl). cbn [read_fill fi_valid fi_dirty fi_tag fi_data fi_plru].
  set (v := choose_plru_tree_victim _ _). pose proof (victim_lt (c_plru c (fw_set sf)) (c_valid c (fw_set sf))) as VL. fold v in VL.
  cbv zeta. destruct (c_valid c (fw_set sf) v) eqn:CV; cbn [andb].
  - destruct (c_dirty c (fw_set sf) v) eqn:CD.
    + destruct (Nat.ltb_spec 0 free) as [F|F]; [apply fv_ev; auto; lia|apply fv_hold; auto; lia].
    + apply fv_cl; auto.
  - apply fv_cl; auto. congruence.
Qed.

(** ** Writing the fill into the arrays *)
Lemma fill_write c fw lh : fw_valid fw = true -> isl lh -> fw_set fw = lh mod 256 -> fw_tag fw = lh / 256 -> (forall v, ~ hasC c lh v) ->
  let c' := dcache_write_fill fw c in
  c_tag c' = zupd (c_tag c) (fw_set fw) (fupd (c_tag c (fw_set fw)) (fw_way fw) (fw_tag fw)) /\
  c_valid c' = zupd (c_valid c) (fw_set fw) (fupd (c_valid c (fw_set fw)) (fw_way fw) true) /\
  c_data c' = zupd (c_data c) (fw_set fw) (fupd (c_data c (fw_set fw)) (fw_way fw) (fw_data fw)) /\
  (forall s v, c_dirty c' s v = if (s =? fw_set fw) && Nat.eqb v (fw_way fw) then fw_dirty fw else c_dirty c s v).
Proof.
  intros FV L FS FT N. cbv zeta. unfold dcache_write_fill. rewrite FV. cbn [negb].
  assert (TW : first_way (fun w => c_valid c (fw_set fw) w && (c_tag c (fw_set fw) w =? fw_tag fw)) = None).
  { rewrite FS, FT. now apply find_C_none. }
  unfold write_dcache_line. rewrite TW. cbv zeta. set (c1 := mkcache _ _ _ (zupd (c_dirty c) _ (fupd _ _ false)) _). destruct (touch_same c1 (fw_set fw) (fw_way fw)) as ([T V] & D & Y).
  assert (YD : forall s v, c_dirty c1 s v = if (s =? fw_set fw) && Nat.eqb v (fw_way fw) then false else c_dirty c s v).
  { intros s v. unfold c1; cbn [c_dirty]. unfold zupd, fupd. destruct (Z.eqb_spec s (fw_set fw)) as [->|]; cbn [andb]; [|reflexivity]. destruct (Nat.eqb v (fw_way fw)); reflexivity. }
  destruct (fw_dirty fw) eqn:FD; cbn [c_tag c_valid c_data c_dirty].
  - rewrite T, V, D. sp; try reflexivity. intros s v. rewrite Y. clear T V D Y. clearbody c1. unfold zupd, fupd. destruct (Z.eqb_spec s (fw_set fw)) as [->|NE]; cbn [andb].
    + destruct (Nat.eqb_spec v (fw_way fw)) as [->|NE]; [reflexivity|]. rewrite YD, Z.eqb_refl. cbn [andb]. destruct (Nat.eqb_spec v (fw_way fw)); congruence.
    + rewrite YD. destruct (Z.eqb_spec s (fw_set fw)); [congruence|reflexivity].
  - rewrite T, V, D. sp; try reflexivity. intros s v. rewrite Y. apply YD.
Qed.

(** ** Forwarding to a waiting store *)
Lemma fwd_step r m fr lh : isl lh -> fr_valid fr = true -> fr_addr fr = lh * 64 ->
  let '(r', fr') := forward_store r m fr in
  fr_valid fr' = true /\ fr_id fr' = fr_id fr /\ fr_addr fr' = lh * 64 /\
  (forall s, In s (fwd_done r r' m) -> ds_addr s / 64 = lh) /\
  (forall w k, wk w k -> bsel (fr_data fr' w) k = effs (fwd_done r r' m) lh w k (bsel (fr_data fr w) k)) /\
  (fr_dirty fr' = false -> fr_dirty fr = false /\ fwd_done r r' m = []).
Proof.
  intros L FV FA.
  assert (SAME : forall p, fwd_done (Some p) (Some p) m = []). { intros p. unfold fwd_done. destruct m as [[[a d] st]|]; auto. destruct (sp_replay p); auto. }
  assert (NO : let r' := r in let fr' := fr in fr_valid fr' = true /\ fr_id fr' = fr_id fr /\ fr_addr fr' = lh * 64 /\
  (forall s, In s (fwd_done r r' m) -> ds_addr s / 64 = lh) /\
  (forall w k, wk w k -> bsel (fr_data fr' w) k = effs (fwd_done r r' m) lh w k (bsel (fr_data fr w) k)) /\
  (fr_dirty fr' = false -> fr_dirty fr = false /\ fwd_done r r' m = [])).
  { cbv zeta. assert (E : fwd_done r r m = []) by (destruct r; [apply SAME|reflexivity]). rewrite E. sp; auto. intros s []. }
  unfold forward_store. destruct r as [p|]; [|exact NO]. destruct m as [[[a d] st]|]; [|exact NO].
  rewrite line_match. destruct (waits (sp_replay p) && (a / 64 =? fr_addr fr / 64)) eqn:Q; [|exact NO].
  apply andb_true_iff in Q. destruct Q as [W E]. apply Z.eqb_eq in E. rewrite FA in E. assert (EL : a / 64 = lh) by lia.
  cbn [fr_valid fr_id fr_addr fr_data fr_dirty].
  assert (D : fwd_done (Some p) (Some (mksp HIT (sp_id p))) (Some (a, d, st)) = [mkds a d st]). { unfold fwd_done. cbn [sp_replay]. destruct (sp_replay p); auto; discriminate. }
  rewrite D. sp; auto.
  - intros s [<-|[]]. exact EL.
  - intros w k WK. unfold effs; cbn [fold_left]. fold (upd1 (f_word (decode a)) d st (fr_data fr)). apply bsel_upd1_eff; [apply WK|auto].
  - discriminate.
Qed.
