(** The miss registers through one tick: completing a fill and the four
    allocation requests. *)
From Verif Require Import Base BaseLemmas MemSpec MemModel MemProofs DcModel DcSpec DcLemmas DcInv DcStage.
Ltac Zify.zify_post_hook ::= Z.div_mod_to_equations.
#[local] Opaque Z.pow Z.land Z.lor Z.shiftl Z.shiftr.

Lemma cntf_set (f g : nat -> bool) n j : (j < n)%nat -> (forall i, i <> j -> g i = f i) -> f j = false -> g j = true ->
  length (filter g (seq 0 n)) = S (length (filter f (seq 0 n))).
Proof.
  induction n as [|n IH]; [lia|]. intros J E F G. rewrite seq_S. rewrite !filter_app, !app_length. cbn [plus filter].
  destruct (Nat.eq_dec j n) as [->|NE].
  - rewrite F, G. cbn [length]. assert (X : filter g (seq 0 n) = filter f (seq 0 n)).
    { apply filter_ext_in. intros a A. apply in_seq in A. apply E. lia. }
    rewrite X. lia.
  - rewrite IH by (auto; lia). rewrite (E n) by lia. lia.
Qed.
Lemma cntf_full (f : nat -> bool) n : (length (filter f (seq 0 n)) < n)%nat -> exists j, (j < n)%nat /\ f j = false.
Proof.
  induction n as [|n IH]; [lia|]. rewrite seq_S, filter_app, app_length. cbn [plus filter]. intros H.
  destruct (f n) eqn:F; [|exists n; auto]. cbn [length] in H. destruct IH as (j & J & E); [lia|]. exists j. auto.
Qed.
Lemma cntf_le (f : nat -> bool) n : (length (filter f (seq 0 n)) <= n)%nat.
Proof. induction n as [|n IH]; [auto|]. rewrite seq_S, filter_app, app_length. cbn [plus filter]. destruct (f n); cbn [length]; lia. Qed.

Section Miss.
  Variables (B M : Z -> Z) (busy : Z -> Prop) (ms : mshr).

  (** [ms'] is [ms] after some requests carrying the stores [N]; [f] registers may still be asked for. *)
  Record MC (ms' : mshr) (N : list dstore) (f : nat) : Prop := mkMC {
    mc_h : ms_hold ms' = ms_hold ms /\ ms_hid ms' = ms_hid ms /\ ms_hdata ms' = ms_hdata ms;
    mc_old : forall i, (i < 8)%nat -> me_valid (ms_ent ms i) = true ->
             me_valid (ms_ent ms' i) = true /\ me_addr (ms_ent ms' i) = me_addr (ms_ent ms i) /\ me_issued (ms_ent ms' i) = me_issued (ms_ent ms i);
    mc_new : forall l i, hasM ms' l i -> hasM ms l i \/ (~ busy l /\ isl l /\ forall j, ~ hasM ms l j);
    mc_a : forall i, (i < 8)%nat -> me_valid (ms_ent ms' i) = true -> exists l, isl l /\ me_addr (ms_ent ms' i) = l * 64;
    mc_u : forall l i j, hasM ms' l i -> hasM ms' l j -> i = j;
    mc_c : ms_count ms' = cnt ms';
    mc_n : (cnt ms' + f <= 8)%nat;
    mc_cl : forall l i, hasM ms' l i -> me_dirty (ms_ent ms' i) = false -> forall w, 0 <= w < 16 -> me_strb (ms_ent ms' i) w = 0;
    mc_v : forall l i, hasM ms' l i -> ~ (ms_hold ms = true /\ ms_hid ms = i) -> forall w k, wk w k ->
           bsel (ovl (ms_ent ms' i) (Ml M l) w) k = effs N l w k (Bl B l w k);
    mc_held : ms_hold ms = true -> ms_ent ms' (ms_hid ms) = ms_ent ms (ms_hid ms);
    mc_out : forall l, isl l -> ~ busy l -> (forall i, ~ hasM ms' l i) -> forall s, In s N -> ds_addr s / 64 <> l }.

  Hypothesis H_h : ms_hold ms = true -> (ms_hid ms < 8)%nat /\ me_valid (ms_ent ms (ms_hid ms)) = true.
  Hypothesis H_busy : forall l i, isl l -> hasM ms l i -> busy l -> ms_hold ms = true /\ ms_hid ms = i.
  Hypothesis H_hbusy : forall l, held ms l -> busy l.
  Hypothesis H_none : forall l, isl l -> ~ busy l -> (forall i, ~ hasM ms l i) -> forall w k, wk w k -> bsel (Ml M l w) k = Bl B l w k.

  Lemma merge_ovl e r l d w k : wk w k -> mr_addr r / 64 = l ->
    bsel (ovl (merge_store_into_entry e r) d w) k =
    effs (if mr_store r then [mkds (mr_addr r) (mr_data r) (mr_strb r)] else []) l w k (bsel (ovl e d w) k).
  Proof.
    intros [W K] L. unfold merge_store_into_entry. destruct (mr_store r); cbn [negb]; [|reflexivity].
    unfold effs; cbn [fold_left]. rewrite !bsel_ovl by auto. cbn [me_strb me_data]. unfold eff; cbn [ds_addr ds_data ds_strb].
    rewrite L, Z.eqb_refl, f_word_eq. cbn [andb]. unfold zupd. rewrite (Z.eqb_sym w). destruct (Z.eqb_spec ((mr_addr r / 4) mod 16) w) as [->|]; cbn [andb]; [|reflexivity].
    rewrite Z.lor_spec. rewrite bsel_strobe by auto. destruct (Z.testbit (mr_strb r) k); [now rewrite orb_true_r|]. rewrite orb_false_r. reflexivity.
  Qed.
  Lemma mrg_fields e r : me_valid (merge_store_into_entry e r) = me_valid e /\ me_addr (merge_store_into_entry e r) = me_addr e /\ me_issued (merge_store_into_entry e r) = me_issued e.
  Proof. unfold merge_store_into_entry. destruct (mr_store r); cbn; auto. Qed.
  Lemma mrg_clean e r : (me_dirty e = false -> forall w, 0 <= w < 16 -> me_strb e w = 0) ->
    me_dirty (merge_store_into_entry e r) = false -> forall w, 0 <= w < 16 -> me_strb (merge_store_into_entry e r) w = 0.
  Proof. unfold merge_store_into_entry. destruct (mr_store r); cbn; auto. discriminate. Qed.

  Definition rst (r : msreq) : list dstore := if mr_store r then [mkds (mr_addr r) (mr_data r) (mr_strb r)] else [].
  Lemma alloc_step ms' N f f' r :
    MC ms' N f -> is_w 32 (mr_addr r) -> ~ busy (mr_addr r / 64) ->
    ((f' = f /\ exists i, hasM ms' (mr_addr r / 64) i) \/ f = S f') ->
    MC (ms_alloc (Some r) ms') (N ++ rst r) f'.
  Proof.
    intros K A NB FF. set (l0 := mr_addr r / 64) in *. pose proof (line_range _ A) as LR. fold l0 in LR.
    unfold ms_alloc. rewrite get_addr_dec by auto. fold l0.
    assert (RL : forall s, In s (rst r) -> ds_addr s / 64 = l0). { intros s S. unfold rst in S. destruct (mr_store r); cbn in S; [destruct S as [<-|[]]; reflexivity|tauto]. }
    assert (OFF : forall l w k o, l <> l0 -> effs (N ++ rst r) l w k o = effs N l w k o).
    { intros l w k o NE. rewrite effs_app. apply effs_off. intros s S. rewrite (RL s S). auto. }
    destruct (hasM_dec ms' l0) as [[i0 HI]|NI].
    - (* already present *)
      assert (FE : find_entry_idx ms' (l0 * 64) = Some i0).
      { pose proof HI as (I & V & T). unfold find_entry_idx, MSHRS. apply find_seq_unique; auto; [now rewrite V, T, Z.eqb_refl|].
        intros y Y P. apply andb_true_iff in P. destruct P as [V' T']. apply Z.eqb_eq in T'. apply (mc_u _ _ _ K l0); auto. split; auto. }
      rewrite FE. set (e := ms_ent ms' i0). destruct (mrg_fields e r) as (E1 & E2 & E3).
      set (ms2 := mkms _ _ _ _ _).
      assert (EN : forall i, ms_ent ms2 i = if Nat.eqb i i0 then merge_store_into_entry e r else ms_ent ms' i) by reflexivity.
      assert (HM : forall l i, hasM ms2 l i <-> hasM ms' l i).
      { intros l i. unfold hasM. rewrite EN. destruct (Nat.eqb_spec i i0) as [->|]; [rewrite E1, E2; fold e|]; tauto. }
      assert (CN : cnt ms2 = cnt ms'). { apply cnt_ext. intros i. rewrite EN. destruct (Nat.eqb_spec i i0) as [->|]; auto. }
      assert (NHID : ms_hold ms = true -> i0 <> ms_hid ms).
      { intros H ->. apply NB. apply H_hbusy. split; auto. destruct (H_h H) as [I V]. destruct (mc_old _ _ _ K _ I V) as (_ & X & _). rewrite <- X. apply HI. }
      destruct K. constructor.
      + exact mc_h0.
      + intros i I V. destruct (mc_old0 i I V) as (X1 & X2 & X3). rewrite EN. destruct (Nat.eqb_spec i i0) as [->|]; auto. rewrite E1, E2, E3. auto.
      + intros l i H. apply HM in H. auto.
      + intros i I V. rewrite EN in *. destruct (Nat.eqb_spec i i0) as [->|]; auto. rewrite E2. apply mc_a0; auto. rewrite E1 in V. exact V.
      + intros l i j H H'. apply HM in H, H'. eauto.
      + change (ms_count ms2) with (ms_count ms'). congruence.
      + rewrite CN. lia.
      + intros l i H D w W. apply HM in H. rewrite EN in *. destruct (Nat.eqb_spec i i0) as [->|]; eauto. revert D w W. apply mrg_clean. unfold e. eauto.
      + intros l i H NH w k WK. apply HM in H. rewrite EN. destruct (Nat.eqb_spec i i0) as [->|NE].
        * assert (l = l0) by (eapply M_inj; eauto). subst l. rewrite (merge_ovl e r l0) by auto. rewrite effs_app. fold (rst r). f_equal. apply mc_v0; auto.
        * rewrite OFF; [auto|]. intros ->. apply NE. eauto.
      + intros H. rewrite EN. destruct (Nat.eqb_spec (ms_hid ms) i0) as [E|]; auto. exfalso. apply (NHID H). auto.
      + intros l L NBl NM s S. apply in_app_iff in S. destruct S as [S|S].
        * apply mc_out0 with (l := l); auto. intros i H. apply (NM i). now apply HM.
        * rewrite (RL s S). intros <-. apply (NM i0). now apply HM.
    - (* fresh register *)
      assert (F1 : f = S f'). { destruct FF as [[_ [i H]]|]; auto. exfalso. exact (NI i H). } subst f.
      rewrite find_M_none by auto. unfold MSHRS.
      destruct (find (fun j => negb (me_valid (ms_ent ms' j))) (seq 0 8)) as [j0|] eqn:FJ.
      2:{ exfalso. pose proof (mc_n _ _ _ K) as C. unfold cnt in C.
          destruct (cntf_full (fun i => me_valid (ms_ent ms' i)) 8) as (j & J & E); [lia|].
          eapply find_seq_none with (x := j) in FJ; auto. rewrite E in FJ. discriminate. }
      apply find_seq_some in FJ. destruct FJ as [J0 V0]. apply negb_true_iff in V0.
      set (e := mkmse true false (l0 * 64) false (fun _ => 0) (fun _ => 0)).
      cbn [ms_ent ms_count ms_hold ms_hid ms_hdata]. set (ms2 := mkms _ _ _ _ _).
      assert (EN : forall i, ms_ent ms2 i = if Nat.eqb i j0 then merge_store_into_entry e r else ms_ent ms' i).
      { intros i. unfold ms2; cbn [ms_ent]. unfold fupd. rewrite Nat.eqb_refl. destruct (Nat.eqb i j0); reflexivity. }
      destruct (mrg_fields e r) as (E1 & E2 & E3).
      assert (HM : forall l i, hasM ms2 l i <-> (i = j0 /\ l = l0) \/ hasM ms' l i).
      { intros l i. unfold hasM. rewrite EN. destruct (Nat.eqb_spec i j0) as [->|NE].
        - rewrite E1, E2. cbn [e me_valid me_addr]. split; [intros (_ & _ & X); left; split; lia|]. intros [[_ ->]|(_ & X & _)]; [auto|congruence].
        - split; [auto|intros [[? _]|]; [congruence|auto]]. }
      assert (CN : cnt ms2 = S (cnt ms')).
      { unfold cnt. apply cntf_set with (j := j0); auto.
        - intros i NE. rewrite EN. destruct (Nat.eqb_spec i j0); congruence.
        - rewrite EN, Nat.eqb_refl, E1. reflexivity. }
      assert (NJ : forall i, (i < 8)%nat -> me_valid (ms_ent ms i) = true -> i <> j0).
      { intros i I V ->. destruct (mc_old _ _ _ K _ I V). congruence. }
      destruct K. constructor.
      + exact mc_h0.
      + intros i I V. rewrite EN. destruct (Nat.eqb_spec i j0) as [E|]; auto. exfalso. exact (NJ i I V E).
      + intros l i H. apply HM in H. destruct H as [[-> ->]|H]; auto. right. split; [auto|split; [exact LR|]]. intros j Hj. apply (NI j).
        destruct Hj as (X1 & X2 & X3). destruct (mc_old0 _ X1 X2) as (Y1 & Y2 & _). split; auto. split; auto. congruence.
      + intros i I V. rewrite EN in *. destruct (Nat.eqb_spec i j0) as [->|]; auto. rewrite E2. exists l0. split; auto.
      + intros l i j H H'. apply HM in H, H'. destruct H as [[-> ->]|H]; destruct H' as [[-> X]|H']; auto; subst; try (exfalso; eapply NI; eauto; fail); eauto.
      + unfold ms2 at 1; cbn [ms_count]. rewrite CN, mc_c0. lia.
      + rewrite CN. lia.
      + intros l i H D w W. apply HM in H. rewrite EN in *. destruct (Nat.eqb_spec i j0) as [->|].
        * revert D w W. apply mrg_clean. reflexivity.
        * destruct H as [[? _]|H]; [congruence|eauto].
      + intros l i H NH w k WK. apply HM in H. rewrite EN. destruct (Nat.eqb_spec i j0) as [->|NE].
        * assert (l = l0). { destruct H as [[_ ->]|(_ & X & _)]; auto. congruence. } subst l. rewrite (merge_ovl e r l0) by auto. rewrite effs_app. fold (rst r). f_equal.
          rewrite effs_off by (intros s S; apply mc_out0 with (l := l0); auto).
          rewrite bsel_ovl by apply WK. cbn [e me_strb]. rewrite Z.bits_0. apply H_none; auto.
          intros i (X1 & X2 & X3). apply (NI i). destruct (mc_old0 _ X1 X2) as (Y1 & Y2 & _). split; auto. split; auto. congruence.
        * destruct H as [[? _]|H]; [congruence|]. rewrite OFF; [auto|]. intros ->. exact (NI i H).
      + intros H. rewrite EN. destruct (Nat.eqb_spec (ms_hid ms) j0) as [E|]; auto. exfalso. destruct (H_h H) as [I V]. exact (NJ _ I V E).
      + intros l L NBl NM s S. apply in_app_iff in S. destruct S as [S|S].
        * apply mc_out0 with (l := l); auto. intros i H. apply (NM i). apply HM. auto.
        * rewrite (RL s S). intros <-. apply (NM j0). apply HM. auto.
  Qed.
  (** a store that needs no register: its line is busy elsewhere *)
  Lemma skip_step ms' N f N' f' : MC ms' N f -> (f' <= f)%nat -> (forall s, In s N' -> busy (ds_addr s / 64) /\ isl (ds_addr s / 64)) -> MC ms' (N ++ N') f'.
  Proof.
    intros K LE NB. destruct K. constructor; auto.
    - lia.
    - intros l i H NH w k WK. rewrite effs_app, (effs_off N'); [auto|]. intros s S E. destruct (NB s S) as [Bs Ls]. rewrite E in *.
      destruct (mc_new0 _ _ H) as [H'|(X & _)]; [|tauto]. apply NH. apply (H_busy l); auto.
    - intros l L NBl NM s S. apply in_app_iff in S. destruct S as [S|S]; eauto. intros E. apply NBl. rewrite <- E. apply NB. auto.
  Qed.
  Lemma MC_base f : (forall i, (i < 8)%nat -> me_valid (ms_ent ms i) = true -> exists l, isl l /\ me_addr (ms_ent ms i) = l * 64) ->
    (forall l i j, hasM ms l i -> hasM ms l j -> i = j) -> ms_count ms = cnt ms -> (cnt ms + f <= 8)%nat ->
    (forall l i, hasM ms l i -> me_dirty (ms_ent ms i) = false -> forall w, 0 <= w < 16 -> me_strb (ms_ent ms i) w = 0) ->
    (forall l i, hasM ms l i -> ~ (ms_hold ms = true /\ ms_hid ms = i) -> forall w k, wk w k -> bsel (ovl (ms_ent ms i) (Ml M l) w) k = Bl B l w k) ->
    MC ms [] f.
  Proof. intros. constructor; auto. Qed.
End Miss.
