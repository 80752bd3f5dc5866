(** Where the value of a load comes from, and why it is the value the program
    order gives. *)
From Verif Require Import Base BaseLemmas Ring MemModel MemSpec MemProofs LsuModel LsuStq LsuQ LsuRun LsuSpec LsuHist LsuCycle LvStab.
Local Open Scope nat_scope.
Ltac Zify.zify_post_hook ::= Z.div_mod_to_equations.

(** *** Byte memories *)
Lemma run_at l : forall m m' x, m x = m' x -> run_stores l m x = run_stores l m' x.
Proof.
  induction l as [|h l IH]; intros m m' x E; [exact E|]. cbn. apply IH. rewrite !do_store_at. now destruct (covers h x).
Qed.
(** Two selections that differ only in stores that do not touch the byte. *)
Lemma run_two (H : nat -> hst) f g x l : (forall p, In p l -> f p <> g p -> covers (H p) x = false) -> forall m m', m x = m' x ->
  run_stores (map H (filter f l)) m x = run_stores (map H (filter g l)) m' x.
Proof.
  induction l as [|p l IH]; intros D m m' E; [exact E|]. assert (D' : forall q, In q l -> f q <> g q -> covers (H q) x = false) by (intros q Q; apply D; now right). specialize (IH D').
  cbn [filter]. destruct (f p) eqn:F, (g p) eqn:G; cbn [map run_stores fold_left]; try (apply IH; rewrite ?do_store_at).
  - now destruct (covers (H p) x).
  - assert (C : covers (H p) x = false) by (apply D; [now left|congruence]). now rewrite C.
  - assert (C : covers (H p) x = false) by (apply D; [now left|congruence]). now rewrite C.
  - exact E.
Qed.
Lemma firstn_seq {A} (d : A) P l : P <= length l -> firstn P l = map (fun p => nth p l d) (seq 0 P).
Proof.
  revert l. induction P as [|P IH]; intros l L; [reflexivity|]. destruct l as [|a l]; [cbn in L; lia|]. cbn [firstn seq map nth]. f_equal. rewrite (IH l) by (cbn in L; lia). rewrite <- seq_shift, map_map. reflexivity.
Qed.
Lemma filter_map {A B} (h : A -> B) f l : filter f (map h l) = map h (filter (fun a => f (h a)) l).
Proof. induction l as [|a l IH]; [reflexivity|]. cbn. destruct (f (h a)); cbn; now rewrite IH. Qed.

(** *** Following a store through the queue into the history *)
Definition trk (g : gs) (s : stqs) (p : nat) (e : stqe) : Prop := p < g_b g + sn s /\ exists e', stabe false e e' /\
  (g_b g <= p -> e' = sq s (p mod STQ_SIZE)) /\ (p < length (g_hist g) -> nth p (g_hist g) h0 = hof e').
Definition wf (h : hst) : Prop := h_wf h /\ no_wrap (h_pa h) (h_f3 h).
Lemma trk_end g s p e : trk g s p e -> p < length (g_hist g) -> let h := nth p (g_hist g) h0 in
  h_pa h = s_pa e /\ h_f3 h = s_f3 e /\ h_mmio h = s_mmio e /\ (s_dv e = true -> h_data h = s_data e) /\ (s_lrsc e = false -> h_sup h = s_sup e).
Proof.
  intros (_ & e' & S0 & _ & X) L. cbv zeta. rewrite (X L). cbn. destruct S0. repeat (split; [assumption|]). split; [intros D; now apply sb_dv|intros D; apply sb_sup; auto].
Qed.

(** [src W g s P pa f3 v]: the value [v] of a load at [pa] with [P] stores before
    it was taken from the youngest store touching it, or read from a memory in
    which every earlier store touching it has taken effect. *)
Inductive src (W : Z -> Z) (g : gs) (s : stqs) (P : nat) (pa f3 v : Z) : Prop :=
| src_fwd p0 e0 : p0 < P -> trk g s p0 e0 -> s_dv e0 = true -> s_lrsc e0 = false -> s_mmio e0 = false -> s_sup e0 = false ->
    check_stlf pa f3 (s_pa e0) (s_f3 e0) = Overlap -> v = extract_data (s_data e0) (w32 (pa - s_pa e0)) f3 ->
    (forall p, p0 < p < P -> exists e, trk g s p e /\ check_stlf pa f3 (s_pa e) (s_f3 e) = Disjoint) -> src W g s P pa f3 v
| src_mem g1 s1 X h2 : GI g1 s1 -> g_hist g = g_hist g1 ++ h2 -> length (g_hist g1) <= P -> (forall q, In q X -> exists x, g_pend g1 x = Some q) ->
    v = extract_data (fold_left perform (g_log g1 ++ X) W (pa / 4)%Z) pa f3 ->
    (forall p, g_b g1 <= p < P -> exists e, trk g s p e /\ check_stlf pa f3 (s_pa e) (s_f3 e) = Disjoint) -> src W g s P pa f3 v.

Lemma off pa f3 h e x : load_f3 f3 -> no_wrap pa f3 -> wf h -> h_pa h = s_pa e -> h_f3 h = s_f3 e -> check_stlf pa f3 (s_pa e) (s_f3 e) = Disjoint -> (pa <= x < pa + size f3)%Z -> covers h x = false.
Proof.
  intros L N [[S0 _] NW] A B C X. pose proof (check_stlf_spec pa f3 (h_pa h) (h_f3 h) L S0 N NW) as Y. rewrite A, B, C in Y. destruct (covers h x) eqn:E; [|reflexivity]. exfalso. apply Y. exists x. unfold covers in E. apply andb_true_iff in E. rewrite A, B in E. lia.
Qed.
Lemma perform_X X : forall W x, (forall q, In q X -> exists k h, q = req k h /\ h_wf h /\ covers h x = false) -> bytes_of (fold_left perform X W) x = bytes_of W x.
Proof.
  induction X as [|q X IH]; intros W x H; [reflexivity|]. cbn [fold_left]. rewrite IH by (intros q' Q; apply H; now right). destruct (H q (or_introl eq_refl)) as (k & h & -> & (A & B & C) & D). rewrite perform_req, word_store_spec by assumption. unfold store_bytes. fold (covers h x). now rewrite D.
Qed.

(** The source gives the program-order value. *)
Theorem src_value W g s P pa f3 v : src W g s P pa f3 v -> P <= length (g_hist g) -> load_f3 f3 -> no_wrap pa f3 -> aligned pa f3 ->
  (forall h, In h (firstn P (g_hist g)) -> plain h = true -> wf h) ->
  v = isa_load (run_stores (filter plain (firstn P (g_hist g))) (bytes_of W)) pa f3.
Proof.
  intros SR LE LF NW AL WF. rewrite (firstn_seq h0) in * by exact LE. set (H := fun p => nth p (g_hist g) h0) in *. rewrite filter_map.
  assert (WFP : forall p, p < P -> plain (H p) = true -> wf (H p)) by (intros p L; apply WF; apply in_map_iff; exists p; split; [reflexivity|apply in_seq; lia]). clear WF.
  destruct SR as [p0 e0 L0 T0 DV LR MM SU OV -> DJ|g1 s1 X h2 GI1 EH LH PX -> DJ].
  - destruct (trk_end g s p0 e0 T0 ltac:(lia)) as (A & B & C & D & E). fold (H p0) in A, B, C, D, E. specialize (D DV). specialize (E LR).
    assert (PL : plain (H p0) = true) by (unfold plain; now rewrite E, SU, C, MM). destruct (WFP p0 L0 PL) as [(W1 & W2 & W3) W4]. pose proof (check_stlf_spec pa f3 (h_pa (H p0)) (h_f3 (H p0)) LF W1 NW W4) as CK. rewrite A, B, OV in CK.
    replace (seq 0 P) with (seq 0 p0 ++ p0 :: seq (S p0) (P - S p0)) by (replace P with (p0 + S (P - S p0)) at 2 by lia; rewrite seq_app; cbn; reflexivity).
    rewrite filter_app, map_app, run_stores_app. cbn [filter]. rewrite PL. cbn [map]. change (H p0 :: ?l) with ([H p0] ++ l). rewrite run_stores_app. set (m := run_stores (map H (filter _ (seq 0 p0))) (bytes_of W)).
    rewrite (isa_load_ext _ (run_stores [H p0] m)).
    + cbn [run_stores fold_left]. unfold do_store. cbn [pst_of ps_addr ps_f3 ps_data]. rewrite <- A, <- D. destruct NW, W4. pose proof (size_cases f3). pose proof (size_cases (h_f3 (H p0))). apply forward_spec; try assumption; unfold is_w; try rewrite A, B; lia.
    + intros x X. set (m' := run_stores [H p0] m). replace (m' x) with (run_stores (map H (filter (fun _ => false) (seq (S p0) (P - S p0)))) m' x).
      2:{ replace (filter (fun _ => false) (seq (S p0) (P - S p0))) with (@nil nat); [reflexivity|]. generalize (seq (S p0) (P - S p0)) as l. induction l; auto. }
      apply run_two; [|reflexivity]. intros p I NE. apply in_seq in I. destruct (plain (H p)) eqn:PP; [|congruence]. destruct (DJ p ltac:(lia)) as (e & T & CE). destruct (trk_end g s p e T ltac:(lia)) as (A' & B' & _).
      apply (off pa f3 (H p) e); auto. apply WFP; [lia|exact PP].
  - destruct GI1 as [V1 _ (acc & HI1 & LG)]. set (n := length (g_hist g1)) in *.
    assert (HP : forall p, p < n -> nth p (g_hist g1) h0 = H p) by (intros p L; unfold H; rewrite EH, app_nth1 by exact L; reflexivity).
    pose proof (hi_len _ _ _ _ _ HI1) as HL. fold n in HL.
    assert (NC : forall p x, g_b g1 <= p < P -> plain (H p) = true -> (pa <= x < pa + size f3)%Z -> covers (H p) x = false).
    { intros p x L PP X0. destruct (DJ p L) as (e & T & CE). destruct (trk_end g s p e T ltac:(lia)) as (A' & B' & _). apply (off pa f3 (H p) e); auto. apply WFP; [lia|exact PP]. }
    assert (W1 : forall p, In p acc -> h_wf (H p)).
    { intros p I. destruct (hi_in _ _ _ _ _ HI1 p I) as [F1 F2]. rewrite HP in F2 by lia. apply WFP; [lia|exact F2]. }
    change (extract_data (fold_left perform (g_log g1 ++ X) W (pa / 4)%Z) pa f3) with (word_load (fold_left perform (g_log g1 ++ X) W) pa f3). rewrite word_load_spec by assumption. apply isa_load_ext. intros x RX.
    rewrite fold_left_app. rewrite perform_X.
    2:{ intros q Q. destruct (PX q Q) as (k & PK). destruct (hi_p2 _ _ _ _ _ HI1 k q PK) as (j & J & JX & JS). exists k, (H (g_b g1 + j)).
        assert (AT : H (g_b g1 + j) = hof (ent s1 j)) by (rewrite <- HP by lia; apply (hi_at _ _ _ _ _ HI1 j J)).
        pose proof (hi_p1 _ _ _ _ _ HI1 j J JS) as Y. rewrite <- JX, PK in Y. assert (PP : plain (H (g_b g1 + j)) = true).
        { rewrite AT. pose proof (v_good _ _ V1 ((sh s1 + j) mod STQ_SIZE)) as G. fold (ent s1 j) in G. unfold good in G. rewrite JS in G. destruct G as (_ & G2 & G3). unfold plain, hof. cbn. now rewrite G2, G3. }
        split; [rewrite AT; congruence|]. split; [apply WFP; [lia|exact PP]|]. apply NC; [lia|exact PP|exact RX]. }
    rewrite LG. replace (map (reqat (g_hist g1)) acc) with (map (fun p => req (p mod STQ_SIZE) (H p)) acc).
    2:{ apply map_ext_in. intros p I. destruct (hi_in _ _ _ _ _ HI1 p I) as [F1 _]. unfold reqat. now rewrite HP by lia. }
    rewrite (perform_bytes H (fun p => p mod STQ_SIZE) acc W1). rewrite (reorder H acc P); [|exact (hi_nd _ _ _ _ _ HI1)|intros p I; destruct (hi_in _ _ _ _ _ HI1 p I); lia|].
    + unfold in_order. apply run_two; [|reflexivity]. intros p I NE. apply in_seq in I. destruct (existsb (Nat.eqb p) acc) eqn:EX.
      * apply existsb_exists in EX as (q & Q & E). apply Nat.eqb_eq in E. subst q. destruct (hi_in _ _ _ _ _ HI1 p Q) as [F1 F2]. rewrite HP in F2 by lia. congruence.
      * destruct (plain (H p)) eqn:PP; [|congruence]. destruct (Nat.ltb_spec p (g_b g1)) as [B|B]; [|apply NC; [lia|exact PP|exact RX]].
        assert (In p acc) by (apply (hi_old _ _ _ _ _ HI1); [exact B|rewrite HP by lia; exact PP]). assert (existsb (Nat.eqb p) acc = true) by (apply existsb_exists; exists p; split; [assumption|apply Nat.eqb_refl]). congruence.
    + intros i j IJ JL CI CJ. apply (hi_ord _ _ _ _ _ HI1); [exact IJ|exact JL|]. rewrite !HP by (match goal with |- ?a < n => enough (In a acc) by (destruct (hi_in _ _ _ _ _ HI1 a); auto; lia) end; apply nth_In; lia).
      eapply covers_ovh; [| |exact CI|exact CJ]; apply W1; apply nth_In; lia.
Qed.
