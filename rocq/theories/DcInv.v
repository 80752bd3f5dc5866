(** The invariant of the data-cache domain and the AXI phase of a tick. *)
From Verif Require Import Base BaseLemmas MemSpec MemModel MemProofs DcModel DcSpec DcLemmas.
Ltac Zify.zify_post_hook ::= Z.div_mod_to_equations.
#[local] Opaque Z.pow Z.land Z.lor Z.shiftl Z.shiftr.
Ltac sp := repeat match goal with |- _ /\ _ => split end.

(** ** Where a line is *)
Definition hasC (c : cache) (l : Z) (v : nat) : Prop := (v < 4)%nat /\ c_valid c (l mod 256) v = true /\ c_tag c (l mod 256) v = l / 256.
Definition wslot (wb : wbst) (k : nat) : nat := Nat.modulo (wb_head wb + k) 8.
Definition went (wb : wbst) (k : nat) : wbe := wb_buf wb (wslot wb k).
Definition hasW (wb : wbst) (l : Z) (k : nat) : Prop := (k < wb_count wb)%nat /\ we_addr (went wb k) = l * 64.
Definition hasM (ms : mshr) (l : Z) (i : nat) : Prop := (i < 8)%nat /\ me_valid (ms_ent ms i) = true /\ me_addr (ms_ent ms i) = l * 64.
Definition held (ms : mshr) (l : Z) : Prop := ms_hold ms = true /\ me_addr (ms_ent ms (ms_hid ms)) = l * 64.
Definition cnt (ms : mshr) : nat := length (filter (fun i => me_valid (ms_ent ms i)) (seq 0 8)).
Definition isl (l : Z) : Prop := 0 <= l < LN.
Definition wk (w k : Z) : Prop := 0 <= w < 16 /\ 0 <= k < 4.
(** byte [k] of word [w] of line [l] *)
Definition Bl (B : Z -> Z) (l w k : Z) : Z := B (l * 64 + w * 4 + k).
Definition Ml (M : Z -> Z) (l w : Z) : Z := M (l * 16 + w).

Record Wok (wb : wbst) : Prop := mkWok {
  wo_c : (wb_count wb <= 8)%nat;
  wo_h : (wb_head wb < 8)%nat;
  wo_a : forall k, (k < wb_count wb)%nat -> exists l, isl l /\ we_addr (went wb k) = l * 64;
  wo_u : forall l k k', hasW wb l k -> hasW wb l k' -> k = k' }.
Record Cok (c : cache) : Prop := mkCok {
  co_t : forall s v, 0 <= s < 256 -> (v < 4)%nat -> c_valid c s v = true -> 0 <= c_tag c s v < 2 ^ 18;
  co_u : forall l v v', hasC c l v -> hasC c l v' -> v = v' }.
Record Mok (M : Z -> Z) (ms : mshr) : Prop := mkMok {
  mo_a : forall i, (i < 8)%nat -> me_valid (ms_ent ms i) = true -> exists l, isl l /\ me_addr (ms_ent ms i) = l * 64;
  mo_u : forall l i j, hasM ms l i -> hasM ms l j -> i = j;
  mo_c : ms_count ms = cnt ms;
  mo_h : ms_hold ms = true -> (ms_hid ms < 8)%nat /\ me_valid (ms_ent ms (ms_hid ms)) = true /\ me_issued (ms_ent ms (ms_hid ms)) = true;
  mo_hd : forall l, held ms l -> forall w k, wk w k -> bsel (ms_hdata ms w) k = bsel (Ml M l w) k;
  mo_cl : forall l i, hasM ms l i -> me_dirty (ms_ent ms i) = false -> forall w, 0 <= w < 16 -> me_strb (ms_ent ms i) w = 0 }.
Definition Fok (ms : mshr) (sf : fillw) : Prop :=
  fw_valid sf = true -> ms_hold ms = true /\ fw_id sf = ms_hid ms /\
    forall l, held ms l -> fw_set sf = l mod 256 /\ fw_tag sf = l / 256.
Record Xok (c : cache) (wb : wbst) (ms : mshr) : Prop := mkXok {
  x_cw : forall l v k, isl l -> hasC c l v -> hasW wb l k -> False;
  x_cm : forall l v i, isl l -> hasC c l v -> hasM ms l i -> False;
  x_wm : forall l k i, isl l -> hasW wb l k -> hasM ms l i -> False }.
(** What every place holds, against the program's view [B]. *)
Record Vok (B M : Z -> Z) (c : cache) (wb : wbst) (ms : mshr) (sf : fillw) : Prop := mkVok {
  v_c : forall l v, isl l -> hasC c l v -> forall w k, wk w k -> bsel (c_data c (l mod 256) v w) k = Bl B l w k;
  v_cc : forall l v, isl l -> hasC c l v -> c_dirty c (l mod 256) v = false -> forall w k, wk w k -> bsel (Ml M l w) k = Bl B l w k;
  v_w : forall l j, isl l -> hasW wb l j -> forall w k, wk w k -> bsel (we_data (went wb j) w) k = Bl B l w k;
  v_m : forall l i, isl l -> hasM ms l i -> ~ (fw_valid sf = true /\ ms_hid ms = i) -> forall w k, wk w k -> bsel (ovl (ms_ent ms i) (Ml M l) w) k = Bl B l w k;
  v_f : fw_valid sf = true -> forall l, isl l -> held ms l -> forall w k, wk w k -> bsel (fw_data sf w) k = Bl B l w k;
  v_fc : fw_valid sf = true -> fw_dirty sf = false -> forall l, isl l -> held ms l -> forall w k, wk w k -> bsel (Ml M l w) k = Bl B l w k;
  v_0 : forall l, isl l -> (forall v, ~ hasC c l v) -> (forall j, ~ hasW wb l j) -> (forall i, ~ hasM ms l i) ->
        forall w k, wk w k -> bsel (Ml M l w) k = Bl B l w k }.
Record Core (B M : Z -> Z) (c : cache) (wb : wbst) (ms : mshr) (sf : fillw) : Prop := mkCore {
  k_w : Wok wb; k_c : Cok c; k_m : Mok M ms; k_f : Fok ms sf; k_x : Xok c wb ms; k_v : Vok B M c wb ms sf }.

(** AXI bookkeeping *)
Definition Wenv (wb : wbst) (wr : option (Z * (Z -> Z))) : Prop :=
  (wb_send wb = true -> (0 < wb_count wb)%nat /\ wr = Some (we_addr (went wb 0), we_data (went wb 0))) /\
  (wb_send wb = false -> wr = None).
Definition Renv (ms : mshr) (rd : nat -> option Z) : Prop :=
  forall i a, rd i = Some a -> (i < 8)%nat /\ me_valid (ms_ent ms i) = true /\ me_issued (ms_ent ms i) = true /\
                              ~ (ms_hold ms = true /\ ms_hid ms = i) /\ me_addr (ms_ent ms i) = a.

(** ** Small facts *)
Lemma wslot_pop wb k : Nat.modulo (Nat.modulo (wb_head wb + 1) 8 + k) 8 = wslot wb (S k).
Proof. unfold wslot. rewrite Nat.add_mod_idemp_l by lia. f_equal. lia. Qed.
Lemma wslot_inj wb j k : (j < 8)%nat -> (k < 8)%nat -> wslot wb j = wslot wb k -> j = k.
Proof. unfold wslot. intros J K E. lia. Qed.
Lemma wslot0 wb : (wb_head wb < 8)%nat -> wslot wb 0 = wb_head wb.
Proof. unfold wslot. intros H. rewrite Nat.add_0_r. apply Nat.mod_small. auto. Qed.
Lemma held_M M ms l : Mok M ms -> held ms l -> hasM ms l (ms_hid ms).
Proof. intros K [H A]. destruct (mo_h _ _ K H) as (I & V & _). repeat split; auto. Qed.
Lemma M_inj ms l l' i : hasM ms l i -> hasM ms l' i -> l = l'.
Proof. intros (_ & _ & A) (_ & _ & A'). lia. Qed.
Lemma W_inj wb l l' k : hasW wb l k -> hasW wb l' k -> l = l'.
Proof. intros (_ & A) (_ & A'). lia. Qed.
Lemma held_inj ms l l' : held ms l -> held ms l' -> l = l'.
Proof. intros (_ & A) (_ & A'). lia. Qed.
Lemma held_ex M ms : Mok M ms -> ms_hold ms = true -> exists l, isl l /\ held ms l.
Proof.
  intros K H. destruct (mo_h _ _ K H) as (I & V & _). destruct (mo_a _ _ K _ I V) as (l & L & A). exists l. repeat split; auto; apply L.
Qed.
Lemma C_inj c l l' v : hasC c l v -> hasC c l' v -> l mod 256 = l' mod 256 -> l = l'.
Proof. intros (_ & _ & A) (_ & _ & A') E. rewrite E in A. rewrite A in A'. lia. Qed.

(** ** The write channel *)
Lemma wb_axi_core B M M' c wb ms sf wr i y :
  Core B M c wb ms sf -> Wenv wb wr -> y_wr y = wr -> d_wb (y_d y) = wb -> y_mem y = M -> axi_ok y i M' ->
  let wb1 := wb_inputs_axi (ti_wacc i) (ti_wresp i) wb in
  Core B M' c wb1 ms sf /\ Wenv wb1 (if ti_wresp i then None else wr_now i y) /\ (wb_count wb1 <= 8)%nat.
Proof.
  intros K [E1 E2] YW YD YM AX. cbv zeta.
  (* the write in flight after acceptance *)
  set (wbs := if ti_wacc i then mkwb (wb_buf wb) (wb_head wb) (wb_count wb) true else wb).
  assert (WN : (wb_send wbs = true -> (0 < wb_count wb)%nat /\ wr_now i y = Some (we_addr (went wb 0), we_data (went wb 0))) /\
               (wb_send wbs = false -> wr_now i y = None)).
  { unfold wbs, wr_now. destruct (ti_wacc i) eqn:A; cbn [wb_send].
    - split; [intros _|discriminate]. pose proof (ax_wacc _ _ _ AX A) as P. rewrite YD in *. unfold wb_axi_req in *.
      destruct (wb_send wb); [congruence|]. destruct (Nat.eqb_spec (wb_count wb) 0); [congruence|].
      unfold went. rewrite wslot0 by apply (k_w _ _ _ _ _ _ K). split; [lia|]. destruct (wb_buf wb (wb_head wb)); reflexivity.
    - rewrite YW. split; auto. }
  destruct WN as [WN1 WN2].
  assert (BUF : wb_buf wbs = wb_buf wb /\ wb_head wbs = wb_head wb /\ wb_count wbs = wb_count wb) by (unfold wbs; destruct (ti_wacc i); auto).
  destruct BUF as (BB & BH & BC).
  assert (WE : forall k, went wbs k = went wb k) by (intros; unfold went, wslot; now rewrite BB, BH).
  assert (HW : forall l k, hasW wbs l k <-> hasW wb l k) by (intros; unfold hasW; now rewrite BC, WE).
  destruct K as [Kw Kc Km Kf Kx Kv].
  (* the line in flight is in the write buffer, so memory is unchanged elsewhere *)
  assert (MEM : forall l w, 0 <= w < 16 -> isl l -> (forall k, k = 0%nat -> ~ hasW wb l k) -> Ml M' l w = Ml M l w).
  { intros l w W L N. unfold Ml. rewrite <- YM. apply (ax_mem _ _ _ AX). intros a d E.
    destruct (wb_send wbs) eqn:SE; [|rewrite WN2 in E by auto; discriminate]. destruct (WN1 eq_refl) as [P Q]. rewrite Q in E. injection E as <- <-.
    intros X. apply (N 0%nat eq_refl). split; [lia|]. destruct (wo_a _ Kw 0%nat P) as (l0 & L0 & A). rewrite A in X |- *.
    replace ((l * 16 + w) / 16) with l in X by lia. replace (l0 * 64 / 64) with l0 in X by lia. lia. }
  unfold wb_inputs_axi. fold wbs.
  destruct (ti_wresp i) eqn:RS.
  - (* pop *)
    assert (SE : wb_send wbs = true). { destruct (wb_send wbs) eqn:E; auto. exfalso. apply (ax_wresp _ _ _ AX RS). now apply WN2. }
    destruct (WN1 SE) as [P Q]. rewrite BC. replace (Nat.ltb 0 (wb_count wb)) with true by (symmetry; apply Nat.ltb_lt; lia).
    rewrite BB, BH. set (wb1 := mkwb (wb_buf wb) (Nat.modulo (wb_head wb + 1) 8) (wb_count wb - 1) false).
    assert (WE1 : forall k, went wb1 k = went wb (S k)).
    { intros k. unfold went, wb1. cbn [wb_buf]. f_equal. exact (wslot_pop wb k). }
    assert (HW1 : forall l k, hasW wb1 l k <-> hasW wb l (S k)).
    { intros l k. unfold hasW. rewrite WE1. unfold wb1; cbn [wb_count]. split; intros [? ?]; split; auto; lia. }
    destruct (wo_a _ Kw 0%nat P) as (l0 & L0 & A0).
    assert (H0 : hasW wb l0 0%nat) by (split; auto).
    assert (MEMO : forall l w, 0 <= w < 16 -> isl l -> l <> l0 -> Ml M' l w = Ml M l w).
    { intros l w W L N. apply MEM; auto. intros k -> H. apply N. exact (W_inj _ _ _ _ H H0). }
    assert (MEM0 : forall w, 0 <= w < 16 -> Ml M' l0 w = we_data (went wb 0) w).
    { intros w W. unfold Ml. pose proof (ax_done _ _ _ AX RS _ _ Q w W) as D. rewrite A0 in D. replace (l0 * 64 / 64) with l0 in D by lia. exact D. }
    split; [|split].
    + constructor; auto.
      * constructor.
        -- unfold wb1; cbn. pose proof (wo_c _ Kw). lia.
        -- unfold wb1; cbn [wb_head]. apply Nat.mod_upper_bound. lia.
        -- intros k Hk. rewrite WE1. apply (wo_a _ Kw). unfold wb1 in Hk; cbn in Hk. lia.
        -- intros l k k' H H'. apply HW1 in H, H'. pose proof (wo_u _ Kw _ _ _ H H'). lia.
      * destruct Km. constructor; auto. intros l Hl w k WK. rewrite MEMO; [auto| apply WK | |].
        -- destruct (held_M M ms l ltac:(constructor; auto) Hl) as (I & V & A). destruct (mo_a0 _ I V) as (l' & L' & A'). replace l with l' by lia. auto.
        -- intros ->. eapply (x_wm _ _ _ Kx); eauto. eapply held_M; [constructor; eauto | eauto].
      * destruct Kx. constructor; intros; eauto; try (apply HW1 in H1; eauto); try (apply HW1 in H0; eauto). apply HW1 in H2; eauto.
      * destruct Kv. constructor; intros.
        -- eauto.
        -- rewrite MEMO; [eauto| apply H3 | auto |]. intros ->. eapply (x_cw _ _ _ Kx); eauto.
        -- apply HW1 in H1. rewrite WE1. eauto.
        -- unfold ovl. rewrite MEMO; [apply v_m0; auto | apply H3 | auto |]. intros ->. eapply (x_wm _ _ _ Kx); eauto.
        -- eauto.
        -- rewrite MEMO; [eauto | apply H4 | auto |]. intros ->. eapply (x_wm _ _ _ Kx); eauto. eapply held_M; eauto.
        -- destruct (Z.eq_dec l l0) as [->|N].
           ++ rewrite MEM0 by apply H4. eauto.
           ++ rewrite MEMO; [|apply H4|auto|auto]. apply v_1; auto. intros j Hj. destruct j as [|j].
              ** apply N. exact (W_inj _ _ _ _ Hj H0).
              ** apply (H2 j). apply HW1. auto.
    + split; [discriminate|reflexivity].
    + unfold wb1; cbn. pose proof (wo_c _ Kw). lia.
  - split; [|split].
    + constructor; auto.
      * destruct Kw. constructor; rewrite ?BC, ?BH; auto.
        -- intros k Hk. rewrite WE. auto.
        -- intros l k k' H H'. apply HW in H, H'. eauto.
      * destruct Km. constructor; auto. intros l Hl w k WK.
        pose proof (held_M M ms l ltac:(constructor; auto) Hl) as HM. pose proof HM as (I & V & A). destruct (mo_a0 _ I V) as (l' & L' & A').
        assert (l = l') by lia. subst l'.
        rewrite MEM; auto; [apply WK|]. intros j -> Hw. eapply (x_wm _ _ _ Kx); eauto.
      * destruct Kx. constructor; intros; try (apply HW in H1); try (apply HW in H0); eauto.
      * destruct Kv. constructor; intros.
        -- eauto.
        -- rewrite MEM; [eauto | apply H2 | auto |]. intros j -> Hw. eapply (x_cw _ _ _ Kx); eauto.
        -- apply HW in H0. rewrite WE. eauto.
        -- unfold ovl. rewrite MEM; [apply v_m0; auto | apply H2 | auto |]. intros j -> Hw. eapply (x_wm _ _ _ Kx); eauto.
        -- eauto.
        -- rewrite MEM; [eauto | apply H3 | auto |]. intros j -> Hw. eapply (x_wm _ _ _ Kx); eauto. eapply held_M; eauto.
        -- rewrite MEM; [|apply H3|auto|]. { apply v_1; auto. intros j Hj. apply (H1 j). now apply HW. }
           intros j -> Hj. apply (H1 0%nat). now apply HW.
    + unfold Wenv. rewrite BC, WE. split; intros; auto.
    + rewrite BC. apply Kw.
Qed.

(** ** The read channel *)
Definition same_ent (e e' : mse) : Prop :=
  me_valid e' = me_valid e /\ me_addr e' = me_addr e /\ me_dirty e' = me_dirty e /\ me_data e' = me_data e /\ me_strb e' = me_strb e.
Lemma cnt_ext ms ms' : (forall i, me_valid (ms_ent ms' i) = me_valid (ms_ent ms i)) -> cnt ms' = cnt ms.
Proof. intros H. unfold cnt. f_equal. apply filter_ext. intros; apply H. Qed.
Lemma ovl_same e e' d w : same_ent e e' -> ovl e' d w = ovl e d w.
Proof. intros (_ & _ & _ & D & S). unfold ovl. now rewrite D, S. Qed.
Lemma ms_axi_core B M M' c wb ms sf i y :
  Core B M' c wb ms sf -> Renv ms (y_rd y) -> d_ms (y_d y) = ms -> y_mem y = M -> axi_ok y i M' ->
  let '(acc, ms1) := ms_inputs_axi (ti_racc i) (ti_rresp i) ms in
  Core B M' c wb ms1 sf /\
  Renv ms1 (match ti_rresp i with Some (id, _) => if acc then fupd (rd_now i y) id None else rd_now i y | None => rd_now i y end) /\
  (forall j, same_ent (ms_ent ms j) (ms_ent ms1 j)) /\
  (acc = true -> ms_hold ms = false /\ ms_hold ms1 = true /\ ti_rresp i <> None) /\
  (acc = false -> ms_hold ms1 = ms_hold ms /\ ms_hid ms1 = ms_hid ms /\ ms_hdata ms1 = ms_hdata ms).
Proof.
  intros K R YD YM AX. unfold ms_inputs_axi.
  set (s1 := match ti_racc i with None => ms | Some id => _ end).
  (* after acceptance *)
  assert (P1 : (forall j, same_ent (ms_ent ms j) (ms_ent s1 j)) /\ ms_count s1 = ms_count ms /\ ms_hold s1 = ms_hold ms /\
               ms_hid s1 = ms_hid ms /\ ms_hdata s1 = ms_hdata ms /\ (forall j, me_issued (ms_ent ms j) = true -> me_issued (ms_ent s1 j) = true) /\ Renv s1 (rd_now i y)).
  { unfold s1, rd_now. destruct (ti_racc i) as [id|] eqn:A.
    - destruct (ax_racc _ _ _ AX id A) as (a & Q). rewrite YD in Q. rewrite YD, Q. unfold ms_axi_req in Q.
      destruct (find _ _) as [j|] eqn:F; [|discriminate]. injection Q as -> <-. apply find_seq_some in F. destruct F as [I F].
      apply andb_true_iff in F. destruct F as [V NI]. apply negb_true_iff in NI. unfold MSHRS in *.
      replace (Nat.ltb id 8) with true by (symmetry; now apply Nat.ltb_lt). rewrite V, NI. cbn [andb negb].
      sp; try reflexivity.
      + intros j. cbn [ms_ent]. unfold fupd. destruct (Nat.eqb_spec j id) as [->|]; unfold same_ent; cbn; auto 10.
      + intros j J. cbn [ms_ent]. unfold fupd. destruct (Nat.eqb_spec j id) as [->|]; cbn; auto.
      + intros j b RJ. cbn [ms_ent ms_hold ms_hid]. unfold fupd in RJ |- *. destruct (Nat.eqb_spec j id) as [->|NE].
        * injection RJ as <-. cbn [me_valid me_issued me_addr]. sp; auto. intros [H E]. destruct (mo_h _ _ (k_m _ _ _ _ _ _ K) H) as (_ & _ & IS). congruence.
        * exact (R j b RJ).
    - sp; auto. intros j; unfold same_ent; auto 10. }
  destruct P1 as (SE & C1 & H1 & I1 & D1 & IS & R1).
  assert (HM : forall l j, hasM s1 l j <-> hasM ms l j).
  { intros l j. unfold hasM. destruct (SE j) as (-> & -> & _). tauto. }
  destruct K as [Kw Kc Km Kf Kx Kv].
  (* generic transfer *)
  assert (T : forall ms1, (forall j, same_ent (ms_ent ms j) (ms_ent ms1 j)) -> ms_count ms1 = ms_count ms ->
       (ms_hold ms1 = true -> (ms_hid ms1 < 8)%nat /\ me_valid (ms_ent ms1 (ms_hid ms1)) = true /\ me_issued (ms_ent ms1 (ms_hid ms1)) = true) ->
       (forall l, held ms1 l -> forall w k, wk w k -> bsel (ms_hdata ms1 w) k = bsel (Ml M' l w) k) ->
       (fw_valid sf = true -> ms_hold ms1 = ms_hold ms /\ ms_hid ms1 = ms_hid ms) -> Core B M' c wb ms1 sf).
  { intros ms1 S1 CC HO HD FV.
    assert (HM1 : forall l j, hasM ms1 l j <-> hasM ms l j). { intros l j. unfold hasM. destruct (S1 j) as (-> & -> & _). tauto. }
    constructor; auto.
    - destruct Km. constructor; auto.
      + intros j J V. destruct (S1 j) as (E1 & E2 & _). rewrite E2. rewrite E1 in V. auto.
      + intros l j j' H H'. apply HM1 in H, H'. eauto.
      + rewrite CC, (cnt_ext ms ms1); auto. intros j. apply S1.
      + intros l j H D w W. apply HM1 in H. destruct (S1 j) as (_ & _ & E & _ & E'). rewrite E'. rewrite E in D. eauto.
    - intros V. destruct (FV V) as [E1 E2]. destruct (Kf V) as (A & A' & A''). rewrite E1, E2. sp; auto.
      intros l [HH HA]. apply A''. split; [congruence|]. rewrite E2 in HA. destruct (S1 (ms_hid ms)) as (_ & E & _). congruence.
    - destruct Kx. constructor; intros; try (apply HM1 in H2); try (apply HM1 in H1); eauto.
    - assert (HE : fw_valid sf = true -> forall l, held ms1 l -> held ms l).
      { intros V l [HH HA]. destruct (FV V) as [E1 E2]. split; [congruence|]. rewrite E2 in HA. destruct (S1 (ms_hid ms)) as (_ & E & _). congruence. }
      destruct Kv. constructor; intros; eauto.
      + rewrite (ovl_same _ _ _ _ (S1 i0)). apply HM1 in H0. apply v_m0; auto. intros [V E]. apply H2. split; auto. destruct (FV V). congruence.
      + apply v_1; auto. intros j Hj. apply (H3 j). now apply HM1. }
  destruct (ms_hold s1) eqn:HS1.
  { sp; auto.
    - apply T; auto.
      + intros _. rewrite I1. destruct (mo_h _ _ Km (eq_sym H1)) as (A1 & A2 & A3).
        destruct (SE (ms_hid ms)) as (E & _). rewrite E. auto.
      + intros l [HH HA] w k WK. rewrite D1. apply (mo_hd _ _ Km); auto. split; [congruence|]. rewrite I1 in HA. destruct (SE (ms_hid ms)) as (_ & E & _). congruence.
      + intros _. split; congruence.
    - destruct (ti_rresp i) as [[? ?]|]; auto.
    - discriminate.
    - intros _. sp; auto. congruence. }
  assert (HF : ms_hold ms = false) by congruence.
  assert (NF : fw_valid sf = true -> False). { intros V. destruct (Kf V). congruence. }
  destruct (ti_rresp i) as [[id d]|] eqn:RS.
  - destruct (ax_rresp _ _ _ AX id d RS) as (a & RA & DA). destruct (R1 _ _ RA) as (I & V & ISS & NH & AD).
    unfold MSHRS. replace (Nat.ltb id 8) with true by (symmetry; now apply Nat.ltb_lt). rewrite V, ISS. cbn [andb].
    sp.
    + apply T; cbn [ms_ent ms_count ms_hold ms_hid ms_hdata]; auto.
      * intros l [HH HA] w k WK. cbn [ms_hid ms_ent] in HA. rewrite DA by apply WK. unfold Ml. rewrite <- AD, HA. replace (l * 64 / 64) with l by lia. reflexivity.
      * intros V'. exfalso. auto.
    + intros j b RJ. cbn [ms_ent ms_hold ms_hid]. unfold fupd in RJ. destruct (Nat.eqb_spec j id) as [->|NE]; [discriminate|].
      destruct (R1 _ _ RJ) as (A1 & A2 & A3 & A4 & A5). sp; auto. intros [_ E]. congruence.
    + auto.
    + intros _. sp; auto. discriminate.
    + discriminate.
  - sp; auto.
    + apply T; auto; [congruence| | intros V; exfalso; auto]. intros l [HH _]. congruence.
    + discriminate.
    + intros _. sp; auto; congruence.
Qed.
