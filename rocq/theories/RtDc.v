(** Facts about the data-cache tick that the routing block relies on. *)
From Verif Require Import Base BaseLemmas MemSpec MemModel MemProofs DcModel DcSpec DcLemmas DcInv DcStage DcMiss DcFill DcTick DcReach DcLoad DcRound.
Ltac Zify.zify_post_hook ::= Z.div_mod_to_equations.
#[local] Opaque Z.pow Z.land Z.lor Z.shiftl Z.shiftr.

Definition mv (ms : mshr) (e : nat) : bool := me_valid (ms_ent ms e).
Definition anyv (ms : mshr) : Prop := exists e, (e < 8)%nat /\ mv ms e = true.

Lemma alloc_keep r ms e : mv ms e = true -> mv (ms_alloc r ms) e = true /\ me_addr (ms_ent (ms_alloc r ms) e) = me_addr (ms_ent ms e).
Proof.
  intros V. unfold ms_alloc, mv in *. destruct r as [r|]; [|auto]. cbv zeta.
  destruct (find_entry_idx ms _) as [j|] eqn:F.
  - cbn [ms_ent]. unfold fupd. destruct (Nat.eqb_spec e j) as [->|]; auto. unfold merge_store_into_entry. destruct (mr_store r); cbn [negb me_valid me_addr]; auto.
  - destruct (find _ _) as [j|] eqn:G; cbn [ms_ent]; auto. unfold fupd. destruct (Nat.eqb_spec e j) as [->|]; auto.
    apply find_some in G. destruct G as [_ G]. rewrite V in G. discriminate.
Qed.
Lemma alloc_any r ms : anyv (ms_alloc (Some r) ms).
Proof.
  unfold ms_alloc. cbv zeta. destruct (find_entry_idx ms _) as [j|] eqn:F.
  - unfold find_entry_idx in F. apply find_some in F. destruct F as [I F]. apply in_seq in I. apply andb_true_iff in F. destruct F as [V _].
    exists j. split; [change MSHRS with 8%nat in I; lia|]. unfold mv. cbn [ms_ent]. unfold fupd. rewrite Nat.eqb_refl. unfold merge_store_into_entry. destruct (mr_store r); cbn [negb me_valid]; auto.
  - destruct (find _ _) as [j|] eqn:G.
    + apply find_some in G. destruct G as [I G]. apply in_seq in I. exists j. split; [change MSHRS with 8%nat in I; lia|]. unfold mv. cbn [ms_ent]. unfold fupd. rewrite !Nat.eqb_refl.
      unfold merge_store_into_entry. destruct (mr_store r); reflexivity.
    + exists 0%nat. split; [lia|]. pose proof (find_none _ _ G 0%nat) as N. unfold mv. rewrite negb_false_iff in N. apply N. apply in_seq. unfold MSHRS. lia.
Qed.
Lemma alloc_anyv r ms : anyv ms -> anyv (ms_alloc r ms).
Proof. intros (e & E & V). exists e. split; auto. apply alloc_keep; auto. Qed.
Lemma axi_keep a r ms e : mv (snd (ms_inputs_axi a r ms)) e = mv ms e /\ me_addr (ms_ent (snd (ms_inputs_axi a r ms)) e) = me_addr (ms_ent ms e).
Proof.
  unfold ms_inputs_axi, mv. set (s1 := match a with Some _ => _ | None => _ end).
  assert (X : me_valid (ms_ent s1 e) = me_valid (ms_ent ms e) /\ me_addr (ms_ent s1 e) = me_addr (ms_ent ms e)).
  { unfold s1. destruct a as [id|]; auto. destruct (Nat.ltb id MSHRS); auto. destruct (_ && _); auto. cbn [ms_ent]. unfold fupd. destruct (Nat.eqb_spec e id) as [->|]; auto. }
  destruct (ms_hold s1); [exact X|]. destruct r as [[id d]|]; [|exact X]. destruct (_ && _); exact X.
Qed.
Lemma axi_count a r ms : ms_count (snd (ms_inputs_axi a r ms)) = ms_count ms.
Proof.
  unfold ms_inputs_axi. set (s1 := match a with Some _ => _ | None => _ end).
  assert (X : ms_count s1 = ms_count ms). { unfold s1. destruct a as [id|]; auto. destruct (Nat.ltb id MSHRS); auto. destruct (_ && _); auto. }
  destruct (ms_hold s1); [exact X|]. destruct r as [[id d]|]; [|exact X]. destruct (_ && _); exact X.
Qed.

(** a load answered "wait for a line" *)
Lemma load_wait c slot set by_ fd ic free r : l_resp (s2_load c slot set by_ fd ic free) = Some r -> waits (lp_replay r) = true ->
  ic = false /\ (fd = true \/ free = 0%nat \/ l_req (s2_load c slot set by_ fd ic free) <> None).
Proof.
  unfold s2_load. destruct slot as [[q rp]|]; cbn [l_resp]; [|discriminate]. destruct rp; cbn [l_resp]; [intros H; injection H as <-; discriminate|].
  destruct by_; cbn [l_resp]; [intros H; injection H as <-; discriminate|].
  destruct (first_way _); cbn [l_resp]; [intros H; injection H as <-; discriminate|].
  destruct ic; cbn [l_resp]; [intros H; injection H as <-; discriminate|].
  destruct fd; cbn [l_resp l_req]; auto. destruct (Nat.eqb_spec free 0); cbn [l_resp l_req]; auto. intros _ _. split; auto. right. right. discriminate.
Qed.
Lemma load_free c slot set by_ fd ic free : l_free (s2_load c slot set by_ fd ic free) = free \/ l_req (s2_load c slot set by_ fd ic free) <> None.
Proof.
  unfold s2_load. destruct slot as [[q rp]|]; cbn [l_free]; auto. destruct rp; auto. destruct by_; auto. destruct (first_way _); auto. destruct ic; auto. destruct fd; auto.
  destruct (Nat.eqb free 0); cbn [l_free l_req]; auto. right. discriminate.
Qed.
Lemma store_fw c slot set mg fd fr sf fw free : fw_valid (t_fw (s2_store c slot set mg fd fr sf fw free)) = fw_valid fw.
Proof.
  unfold s2_store. destruct slot as [[q rp]|]; auto. cbv zeta. destruct rp; auto. destruct (cache_line_match _ _ && _).
  - destruct (_ && fw_valid fw) eqn:E; cbn [t_fw]; auto.
  - destruct (first_way _); [destruct (_ && _); auto|]. destruct (fst mg); auto. destruct (snd mg); auto. destruct fd; auto. destruct (Nat.eqb free 0); auto.
Qed.
Lemma fill_done f fi n : let '(fw, _, done) := s2_fill f fi n in fw_valid fw = false -> done = None.
Proof. unfold s2_fill. destruct (fw_valid f); auto. cbv zeta. destruct (_ && _); [destruct (Nat.ltb 0 n)|]; cbn [fw_valid]; auto; discriminate. Qed.

Lemma anyv_count ms : (0 < cnt ms)%nat -> anyv ms.
Proof.
  unfold cnt, anyv, mv. intros H. destruct (filter _ _) as [|e l] eqn:F; [cbn in H; lia|].
  assert (In e (filter (fun i => me_valid (ms_ent ms i)) (seq 0 8))) as I by (rewrite F; now left). apply filter_In in I. destruct I as [I V]. apply in_seq in I. exists e. split; [lia|auto].
Qed.

(** One tick.  Without a line written, no miss register is given up; a load on
    port 1 told to wait is not a probe, and a miss register is taken. *)
Lemma tick_wait m0 y i o y' : Inv m0 y -> step y i o y' ->
  s_icache (d_s (y_d y')) = rq_icache (ti_rq i) /\
  (la_fill (to_pend o) = None -> la_fill (d_pend (y_d y)) = None /\ forall e, mv (d_ms (y_d y)) e = true -> mv (d_ms (y_d y')) e = true) /\
  (forall r, to_l1 o = Some r -> waits (lp_replay r) = true -> s_icache (d_s (y_d y)) <> 1%nat /\ (la_fill (to_pend o) = None -> anyv (d_ms (y_d y')))) /\
  (forall r, la_ld1 (to_pend o) = Some r -> waits (lp_replay r) = true -> to_l1 o = Some r \/ (to_l1 o = None /\ la_ld1 (d_pend (y_d y)) = Some r)).
Proof.
  intros II ST. inversion ST as [m' s' o' AX RQ TK E1 E2]. subst o' y'. clear ST AX RQ. unfold tick in TK. cbv zeta in TK.
  destruct (forward (x_fr (comb_outputs i (y_d y))) _) as [p2 fr] eqn:FW. destruct (stage1 (ti_rq i) _ _ _ _ _) as [s12 w] eqn:S1. injection TK as <- <-. cbn [y_d d_s d_ms to_pend to_l1].
  assert (IC : s_icache s12 = rq_icache (ti_rq i)).
  { unfold stage1 in S1. destruct (s1_fill _ _ _ _ _). destruct (s1_load _ _). destruct (s1_load _ _). destruct (s1_store _ _). destruct (s1_store _ _). injection S1 as <- <-. reflexivity. }
  assert (P2 : la_fill p2 = (match (if fw_valid (x_fw (comb_outputs i (y_d y))) then Some (get_addr (fw_set (x_fw (comb_outputs i (y_d y)))) (fw_tag (x_fw (comb_outputs i (y_d y)))) 0) else None) with Some a => Some a | None => la_fill (d_pend (y_d y)) end) /\
               forall r, la_ld1 p2 = Some r -> waits (lp_replay r) = true -> (match l_resp (x_l1 (comb_outputs i (y_d y))) with Some x => Some x | None => la_ld1 (d_pend (y_d y)) end) = Some r).
  { unfold forward in FW. destruct (negb _).
    - injection FW as <- <-. unfold capture. cbv beta zeta. cbn [la_fill la_ld1]. split; [destruct (fw_valid _); reflexivity|]. intros r H _. destruct (l_resp (x_l1 (comb_outputs i (y_d y)))); exact H.
    - cbv zeta in FW. destruct (forward_store _ _ _) as [t0 f1]. destruct (forward_store _ _ _) as [t1 f2]. injection FW as <- <-. unfold capture. cbv beta zeta. cbn [la_fill la_ld1 la_ml1]. split; [destruct (fw_valid _); reflexivity|].
      intros r. unfold forward_load. destruct (l_resp (x_l1 (comb_outputs i (y_d y)))) as [p|].
      + destruct (mt_l1 _); auto. destruct (_ && _); auto. intros H; injection H as <-. discriminate.
      + destruct (la_ld1 (d_pend (y_d y))) as [p|]; [|discriminate]. destruct (la_ml1 _); auto. destruct (_ && _); auto. intros H; injection H as <-. discriminate. }
  clear FW S1. destruct P2 as [PF PL].
  assert (KM : x_ms (comb_outputs i (y_d y)) = snd (ms_inputs_axi (ti_racc i) (ti_rresp i) (d_ms (y_d y))) /\
     (fw_valid (x_fw (comb_outputs i (y_d y))) = false -> x_done (comb_outputs i (y_d y)) = None) /\
     exists c by0 by1, x_l0 (comb_outputs i (y_d y)) = s2_load c (s_ld0 (d_s (y_d y))) (w_rd0 (d_w (y_d y))) by0 (ms_find (x_ms (comb_outputs i (y_d y))) (w_fd0 (d_w (y_d y)))) (Nat.eqb (s_icache (d_s (y_d y))) 0) (8 - ms_count (x_ms (comb_outputs i (y_d y)))) /\
       x_l1 (comb_outputs i (y_d y)) = s2_load c (s_ld1 (d_s (y_d y))) (w_rd1 (d_w (y_d y))) by1 (ms_find (x_ms (comb_outputs i (y_d y))) (w_fd1 (d_w (y_d y)))) (Nat.eqb (s_icache (d_s (y_d y))) 1) (l_free (x_l0 (comb_outputs i (y_d y))))).
  { unfold comb_outputs. destruct (ms_inputs_axi _ _ _) as [acc ms1]. cbv zeta. destruct (wb_merge _ _) as [mg0 wb2]. destruct (wb_merge _ _) as [mg1 wb3].
    pose proof (fill_done (s_fill (d_s (y_d y))) (read_fill (d_cache (y_d y)) (w_fo (d_w (y_d y)))) (WBS - wb_count (wb_inputs_axi (ti_wacc i) (ti_wresp i) (d_wb (y_d y))))) as FD.
    destruct (s2_fill _ _ _) as [[fw0 dirty] done]. cbn [x_ms x_fw x_done x_l0 x_l1 snd]. rewrite !store_fw. sp; auto. do 3 eexists. split; reflexivity. }
  destruct KM as (KM & KD & c & by0 & by1 & K0 & K1).
  set (m := comb_outputs i (y_d y)) in *. clearbody m.
  set (ms2 := ms_alloc _ _).
  assert (NF : la_fill p2 = None -> la_fill (d_pend (y_d y)) = None /\ fw_valid (x_fw m) = false) by (rewrite PF; destruct (fw_valid (x_fw m)); [discriminate|auto]).
  assert (KP : la_fill p2 = None -> forall e, mv (d_ms (y_d y)) e = true -> mv ms2 e = true).
  { intros N e V. destruct (NF N) as [_ X]. unfold ms2. rewrite (KD X). cbn [ms_done].
    apply alloc_keep, alloc_keep, alloc_keep, alloc_keep. rewrite KM. now rewrite (proj1 (axi_keep _ _ _ _)). }
  sp.
  - exact IC.
  - intros N. split; [apply NF; auto|]. apply KP; auto.
  - intros r H W. rewrite K1 in H. destruct (load_wait _ _ _ _ _ _ _ _ H W) as (X1 & X2). split; [intros X; rewrite X in X1; discriminate|]. intros N. destruct (NF N) as [_ NV].
    assert (A0 : anyv (d_ms (y_d y)) -> anyv ms2). { intros (e & E & V). exists e. split; auto. }
    destruct X2 as [X2|[X2|X2]].
    + apply A0. unfold ms_find in X2. destruct (w_fd1 _) as [[a b]|]; [|discriminate]. destruct (find_entry_idx _ _) as [j|] eqn:F; [|discriminate].
      unfold find_entry_idx in F. apply find_some in F. destruct F as [I F]. apply in_seq in I. apply andb_true_iff in F. exists j. split; [change MSHRS with 8%nat in I; lia|]. destruct F as [F _].
      unfold mv. rewrite KM in F. change (mv (snd (ms_inputs_axi (ti_racc i) (ti_rresp i) (d_ms (y_d y)))) j = true) in F. now rewrite (proj1 (axi_keep _ _ _ _)) in F.
    + destruct (load_free c (s_ld0 (d_s (y_d y))) (w_rd0 (d_w (y_d y))) by0 (ms_find (x_ms m) (w_fd0 (d_w (y_d y)))) (Nat.eqb (s_icache (d_s (y_d y))) 0) (8 - ms_count (x_ms m))) as [G|G]; rewrite <- K0 in G.
      * apply A0. apply anyv_count. rewrite G, KM, axi_count in X2. pose proof (mo_c _ _ (k_m _ _ _ _ _ _ (i_core _ _ II))). lia.
      * unfold ms2. apply alloc_anyv, alloc_anyv, alloc_anyv. destruct (l_req (x_l0 m)) as [q|]; [|congruence]. apply alloc_any.
    + rewrite <- K1 in X2. unfold ms2. apply alloc_anyv, alloc_anyv. destruct (l_req (x_l1 m)) as [q|]; [|congruence]. apply alloc_any.
  - intros r H W. specialize (PL r H W). destruct (l_resp (x_l1 m)); auto.
Qed.

(** The line held after a tick had its miss register before it. *)
Lemma tick_held m0 y i o y' l : Inv m0 y -> step y i o y' -> held (d_ms (y_d y')) l ->
  exists e, (e < 8)%nat /\ mv (d_ms (y_d y)) e = true /\ me_addr (ms_ent (d_ms (y_d y)) e) = l * 64.
Proof.
  intros II ST H. pose proof (step_inv _ _ _ _ _ II ST) as II'. pose proof (k_m _ _ _ _ _ _ (i_core _ _ II)) as MK.
  inversion ST as [m' s' o' AX RQ TK E1 E2]. subst o'. clear ST RQ. subst y'. cbn [y_d] in *. unfold tick in TK. cbv zeta in TK.
  destruct (forward _ _) as [p2 fr]. destruct (stage1 (ti_rq i) _ _ _ _ _) as [s12 w]. injection TK as <- _. cbn [d_ms] in H.
  assert (KM : x_ms (comb_outputs i (y_d y)) = snd (ms_inputs_axi (ti_racc i) (ti_rresp i) (d_ms (y_d y)))).
  { unfold comb_outputs. destruct (ms_inputs_axi _ _ _) as [acc ms1]. cbv zeta. destruct (wb_merge _ _) as [mg0 wb2]. destruct (wb_merge _ _) as [mg1 wb3]. destruct (s2_fill _ _ _) as [[fw0 dirty] done]. reflexivity. }
  rewrite KM in H. clear KM. set (ms1 := snd _) in *.
  assert (AH : forall r ms, ms_hold (ms_alloc r ms) = ms_hold ms /\ ms_hid (ms_alloc r ms) = ms_hid ms).
  { intros r ms. unfold ms_alloc. destruct r; auto. cbv zeta. destruct (find_entry_idx ms _); auto. destruct (find _ _); auto. }
  set (d := ms_done _ ms1) in *.
  assert (HD : ms_hold d = true -> d = ms1). { unfold d, ms_done. destruct (x_done _); auto. destruct (_ && _); auto. discriminate. }
  destruct H as [H1 H2]. destruct (AH (t_req (x_t1 (comb_outputs i (y_d y)))) (ms_alloc (t_req (x_t0 (comb_outputs i (y_d y)))) (ms_alloc (l_req (x_l1 (comb_outputs i (y_d y)))) (ms_alloc (l_req (x_l0 (comb_outputs i (y_d y)))) d)))) as [B1 B2].
  destruct (AH (t_req (x_t0 (comb_outputs i (y_d y)))) (ms_alloc (l_req (x_l1 (comb_outputs i (y_d y)))) (ms_alloc (l_req (x_l0 (comb_outputs i (y_d y)))) d))) as [B3 B4].
  destruct (AH (l_req (x_l1 (comb_outputs i (y_d y)))) (ms_alloc (l_req (x_l0 (comb_outputs i (y_d y)))) d)) as [B5 B6].
  destruct (AH (l_req (x_l0 (comb_outputs i (y_d y)))) d) as [B7 B8].
  rewrite B1, B3, B5, B7 in H1. rewrite B2, B4, B6, B8 in H2. pose proof (HD H1) as ED. rewrite ED in H1, H2. clear B1 B2 B3 B4 B5 B6 B7 B8 AH HD ED.
  assert (V : (ms_hid ms1 < 8)%nat /\ mv ms1 (ms_hid ms1) = true).
  { revert H1. unfold ms1, ms_inputs_axi. set (s1 := match ti_racc i with Some _ => _ | None => _ end).
    assert (S : ms_hold s1 = ms_hold (d_ms (y_d y)) /\ ms_hid s1 = ms_hid (d_ms (y_d y)) /\ forall e, me_valid (ms_ent s1 e) = me_valid (ms_ent (d_ms (y_d y)) e)).
    { unfold s1. destruct (ti_racc i) as [id|]; auto. destruct (Nat.ltb id MSHRS); auto. destruct (_ && _); auto. cbn [ms_hold ms_hid ms_ent]. sp; auto. intros e. unfold fupd. destruct (Nat.eqb_spec e id) as [->|]; auto. }
    destruct S as (S1 & S2 & S3). clearbody s1. destruct (ms_hold s1) eqn:HS.
    - cbn [snd]. intros _. unfold mv. rewrite S3, S2. symmetry in S1. destruct (mo_h _ _ MK S1) as (X & Y & _). auto.
    - destruct (ti_rresp i) as [[id dd]|]; cbn [snd]; [|congruence]. destruct (_ && _) eqn:C; cbn [snd ms_hold ms_hid]; [|congruence]. intros _. unfold mv. cbn [ms_ent].
      apply andb_true_iff in C. destruct C as [C1 C2]. apply andb_true_iff in C2. destruct C2 as [C2 _]. split; [apply Nat.ltb_lt in C1; exact C1|exact C2]. }
  destruct V as [V1 V2]. exists (ms_hid ms1). sp; auto.
  - unfold ms1 in V2. now rewrite (proj1 (axi_keep _ _ _ _)) in V2.
  - assert (me_addr (ms_ent ms1 (ms_hid ms1)) = l * 64).
    { rewrite <- H2. symmetry. clear - V2. destruct (alloc_keep (l_req (x_l0 (comb_outputs i (y_d y)))) ms1 (ms_hid ms1) V2) as [P0 P0'].
      set (a := ms_alloc _ ms1) in *. destruct (alloc_keep (l_req (x_l1 (comb_outputs i (y_d y)))) a (ms_hid ms1) P0) as [P1 P2]. set (b := ms_alloc _ a) in *.
      destruct (alloc_keep (t_req (x_t0 (comb_outputs i (y_d y)))) b (ms_hid ms1) P1) as [P3 P4]. set (c := ms_alloc _ b) in *.
      destruct (alloc_keep (t_req (x_t1 (comb_outputs i (y_d y)))) c (ms_hid ms1) P3) as [P5 P6]. congruence. }
    rewrite <- H. unfold ms1. symmetry. apply axi_keep.
Qed.
