(** The phases of a cycle keep every load in one place. *)
From Verif Require Import Base BaseLemmas Ring MemModel MemProofs MemProps LsuModel LsuStq LsuQ LdqInv.
Local Open Scope nat_scope.
Ltac Zify.zify_post_hook ::= Z.div_mod_to_equations.

Definition LI (R : list nat) (d : ldqs) : Prop := exists loc, QL loc d /\ SL R loc d.
Lemma LI_ext R d d' : (forall Q, qof d' Q = qof d Q) -> (forall i, lq d' i = lq d i) -> LI R d -> LI R d'.
Proof. intros A B (loc & C & D). exists loc. split; [now apply (QL_ext loc d)|now apply (SL_ext R loc d)]. Qed.
Lemma LI_at R d Q k : LI R d -> qv (qof d Q) k = true -> let i := qi (qof d Q) k in i < 16 /\ ~ In i R /\ k < 16 /\ okb (Some (Q, k)) (lq d i) = true.
Proof.
  intros (loc & A & B) V. cbv zeta. pose proof (ql_v _ _ A Q k V) as L. destruct (SL_place _ _ _ _ _ _ B L) as [X Y]. split; [exact X|]. split; [exact Y|]. split.
  - destruct (ql_q _ _ A Q) as (_ & _ & C). destruct (C k V) as (j & _ & ->). apply slot_lt.
  - pose proof (sl_ok _ _ _ B _ Y) as O. now rewrite L in O.
Qed.
Lemma LI_inj R d Q k Q' k' : LI R d -> qv (qof d Q) k = true -> qv (qof d Q') k' = true -> qi (qof d Q) k = qi (qof d Q') k' -> Q = Q' /\ k = k'.
Proof. intros (loc & A & _) V V' E. pose proof (ql_v _ _ A Q k V) as X. pose proof (ql_v _ _ A Q' k' V') as Y. rewrite E, Y in X. injection X as -> ->. now split. Qed.
Lemma LI_where R d i : LI R d -> ~ In i R -> (exists Q k, qv (qof d Q) k = true /\ qi (qof d Q) k = i) \/ okb None (lq d i) = true.
Proof.
  intros (loc & A & B) N. destruct (loc i) as [[Q k]|] eqn:L.
  - left. exists Q, k. now apply (ql_l _ _ A).
  - right. pose proof (sl_ok _ _ _ B i N) as O. now rewrite L in O.
Qed.
Lemma LI_QI R d Q : LI R d -> QI (qof d Q). Proof. intros (loc & A & _). apply A. Qed.
Lemma LI_hi R d i : LI R d -> 16 <= i -> l_st (lq d i) = LEmpty. Proof. intros (loc & _ & B). apply B. Qed.
Lemma LI_stay R d i f : LI R d -> ~ In i R -> i < 16 -> (forall p, okb p (lq d i) = true -> okb p (f (lq d i)) = true) -> LI R (upd_l i f d).
Proof. intros (loc & A & B) N I H. exists loc. split; [now apply (QL_ext loc d)|]. apply SL_stay; auto. apply H. now apply B. Qed.
Lemma LI_stay_at R d Q k f : LI R d -> qv (qof d Q) k = true -> okb (Some (Q, k)) (f (lq d (qi (qof d Q) k))) = true -> LI R (upd_l (qi (qof d Q) k) f d).
Proof.
  intros H V O. destruct (LI_at _ _ _ _ H V) as (I & N & _). destruct H as (loc & A & B). exists loc. split; [now apply (QL_ext loc d)|]. apply SL_stay; auto. now rewrite (ql_v _ _ A Q k V).
Qed.
Lemma LI_kill R d Q k f : LI R d -> qv (qof d Q) k = true -> okb None (f (lq d (qi (qof d Q) k))) = true -> LI R (setq Q (kill (qof d Q) k) (upd_l (qi (qof d Q) k) f d)).
Proof.
  intros H V O. destruct (LI_at _ _ _ _ H V) as (I & N & _). destruct H as (loc & A & B). exists (fupd loc (qi (qof d Q) k) None). split.
  - apply (QL_ext _ (setq Q (kill (qof d Q) k) d)); [now destruct Q|]. now apply QL_kill.
  - apply (SL_ext _ _ (upd_l (qi (qof d Q) k) f d)); [intros; now rewrite lq_setq|]. now apply SL_upd.
Qed.
Lemma LI_enq R d Q i f : LI R d -> ~ In i R -> i < 16 -> okb None (lq d i) = true -> qn (qof d Q) < 16 -> okb (Some (Q, 0)) (f (lq d i)) = true -> l_st (lq d i) <> LEmpty ->
  LI R (setq Q (enq (qof d Q) i) (upd_l i f d)).
Proof.
  intros (loc & A & B) N I O0 L O NE. assert (LN : loc i = None).
  { destruct (loc i) as [[Q' k]|] eqn:X; [|reflexivity]. exfalso. pose proof (sl_ok _ _ _ B i N) as Y. rewrite X in Y. clear - O0 Y NE. unfold okb in *. destruct (l_st (lq d i)); try discriminate; try congruence; destruct Q'; discriminate. }
  exists (fupd loc i (Some (Q, slot (qof d Q) (qn (qof d Q))))). split.
  - apply (QL_ext _ (setq Q (enq (qof d Q) i) d)); [now destruct Q|]. now apply QL_enq.
  - apply (SL_ext _ _ (upd_l i f d)); [intros; now rewrite lq_setq|]. apply SL_upd; auto.
Qed.
(** From one queue to another. *)
Lemma LI_move R d Q k Q' f : LI R d -> qv (qof d Q) k = true -> Q <> Q' -> qn (qof d Q') < 16 -> let i := qi (qof d Q) k in okb (Some (Q', 0)) (f (lq d i)) = true ->
  LI R (setq Q (kill (qof d Q) k) (setq Q' (enq (qof d Q') i) (upd_l i f d))).
Proof.
  intros H V NQ L i O. destruct (LI_at _ _ _ _ H V) as (I & N & _). fold i in I, N. destruct H as (loc & A & B).
  exists (fupd loc i (Some (Q', slot (qof d Q') (qn (qof d Q'))))). split.
  - pose proof (QL_kill loc d Q k A V) as A1. fold i in A1. set (d1 := setq Q (kill (qof d Q) k) d) in *.
    assert (E1 : qof d1 Q' = qof d Q') by (unfold d1; now apply qof_other).
    pose proof (QL_enq _ d1 Q' i A1) as A2. rewrite E1 in A2. specialize (A2 L ltac:(apply fupd_eq)).
    eapply QL_ext; [|]. 2:{ constructor; [exact (ql_q _ _ A2)| |].
      - intros Q0 k0 V0. pose proof (ql_v _ _ A2 Q0 k0 V0) as X. unfold fupd in X |- *. destruct (Nat.eqb _ i); [exact X|exact X].
      - intros j Q0 k0 X. apply (ql_l _ _ A2). unfold fupd in X |- *. destruct (Nat.eqb j i); [exact X|exact X]. }
    intros Q0. unfold d1. destruct Q, Q', Q0; try reflexivity; congruence.
  - apply (SL_ext _ _ (upd_l i f d)); [intros; now rewrite !lq_setq|]. apply SL_upd; auto.
Qed.
Lemma LI_pop R d Q n : LI R d -> n <= qn (qof d Q) -> LI R (setq Q (pop_invalid n (qof d Q)) d).
Proof. intros (loc & A & B) N. exists loc. split; [now apply QL_pop|]. apply (SL_ext _ _ d); [intros; now rewrite lq_setq|exact B]. Qed.
Lemma pop_qn n : forall q, qn (pop_invalid n q) <= qn q.
Proof. induction n as [|n IH]; intros q; cbn [pop_invalid]; [lia|]. destruct (qv q (qh q)); [lia|]. etransitivity; [apply IH|]. cbn. lia. Qed.

(** Loads that are or will be waiting for translation. *)
Definition cap (d : ldqs) : nat := qn (wml d) + cnt_ld d LAllocated.
Lemma filter_le {A} (p p' : A -> bool) l : (forall x, In x l -> p' x = true -> p x = true) -> length (filter p' l) <= length (filter p l).
Proof.
  induction l as [|a t IH]; intros H; [reflexivity|]. cbn [filter]. specialize (IH (fun x X => H x (or_intror X))). destruct (p' a) eqn:E.
  - rewrite (H a (or_introl eq_refl) E). cbn. lia.
  - destruct (p a); cbn; lia.
Qed.
Lemma filter_lt {A} (p p' : A -> bool) l x : (forall x, In x l -> p' x = true -> p x = true) -> In x l -> p x = true -> p' x = false -> S (length (filter p' l)) <= length (filter p l).
Proof.
  induction l as [|a t IH]; intros H I P P'; [contradiction|]. cbn [filter]. pose proof (filter_le p p' t (fun x X => H x (or_intror X))) as LE. destruct I as [->|I].
  - rewrite P, P'. cbn. lia.
  - specialize (IH (fun x X => H x (or_intror X)) I P P'). destruct (p' a) eqn:E; [rewrite (H a (or_introl eq_refl) E); cbn; lia|]. destruct (p a); cbn; lia.
Qed.
Lemma AL_cnt d d' : AL d d' -> cnt_ld d' LAllocated <= cnt_ld d LAllocated.
Proof. intros H. apply filter_le. intros x _ E. apply is_l_eq, H, is_l_eq, E. Qed.
Lemma AL_cap d d' : AL d d' -> qn (wml d') <= qn (wml d) -> cap d' <= cap d.
Proof. intros H N. apply AL_cnt in H. unfold cap. lia. Qed.

(** A free entry is left alone. *)
Definition EM (d d' : ldqs) : Prop := forall i, l_st (lq d i) = LEmpty -> lq d' i = lq d i.
Lemma EM_refl d : EM d d. Proof. now intros i. Qed.
Lemma EM_trans a b c : EM a b -> EM b c -> EM a c. Proof. intros A B i X. rewrite B; [now apply A|]. now rewrite A. Qed.
Lemma EM_ext d d' : (forall i, lq d' i = lq d i) -> EM d d'. Proof. intros E i _. apply E. Qed.
Lemma EM_upd d i f : l_st (lq d i) <> LEmpty -> EM d (upd_l i f d).
Proof. intros N j J. cbn [upd_l set_lq lq]. apply fupd_ne. intros ->. contradiction. Qed.
(** What a phase does: [G d d']. *)
Record G (d d' : ldqs) : Prop := { g_l : LI [] d -> LI [] d'; g_k : K d d'; g_a : AL d d'; g_w : cap d' <= cap d; g_b : lbad d' = lbad d; g_e : EM d d' }.
Lemma G_refl d : G d d. Proof. constructor; auto using K_refl, AL_refl, EM_refl. Qed.
Lemma G_trans a b c : G a b -> G b c -> G a c.
Proof. intros [A1 A2 A3 A4 A5 A6] [B1 B2 B3 B4 B5 B6]. constructor; [auto|now apply (K_trans a b)|now apply (AL_trans a b)|lia|congruence|now apply (EM_trans a b)]. Qed.
(** Facts about a member of a queue, from its state. *)
Ltac at_ H V I N P O := destruct (LI_at _ _ _ _ H V) as (I & N & P & O).

(** *** comb_mmio_in *)
Lemma mmio_in_ok resp l : LI [] (ld l) -> MI (ld l) (un l) -> let l' := comb_mmio_in resp (un l) l in
  LI [] (ld l') /\ K (ld l) (ld l') /\ AL (ld l) (ld l') /\ wml (ld l') = wml (ld l) /\ lbad (ld l') = lbad (ld l) /\ MI (ld l') (un l') /\
  wdl (ld l') = wdl (ld l) /\ wgen (ld l') = wgen (ld l) /\ (forall i, lq (ld l') i = lq (ld l) i \/ l_st (lq (ld l) i) = LWaitMmioResp /\ l_st (lq (ld l') i) = LReadyToWb) /\
  (u_v (un l') = true -> un l' = un l).
Proof.
  intros H M. cbv zeta. unfold comb_mmio_in. assert (ID : LI [] (ld l) /\ K (ld l) (ld l) /\ AL (ld l) (ld l) /\ wml (ld l) = wml (ld l) /\ lbad (ld l) = lbad (ld l) /\ MI (ld l) (un l) /\ wdl (ld l) = wdl (ld l) /\ wgen (ld l) = wgen (ld l) /\ (forall i, lq (ld l) i = lq (ld l) i \/ l_st (lq (ld l) i) = LWaitMmioResp /\ l_st (lq (ld l) i) = LReadyToWb) /\ (u_v (un l) = true -> un l = un l)).
  { split; [exact H|]. split; [apply K_refl|]. split; [apply AL_refl|]. repeat (split; [first [reflexivity|exact M]|]). split; [now left|auto]. }
  destruct resp as [rd|]; [|exact ID]. destruct (negb (u_v (un l))) eqn:UV; [exact ID|]. apply negb_false_iff in UV. destruct (u_ld (un l)) eqn:UL.
  - destruct (qn (fin (ld l)) <? LDQ_SIZE) eqn:R; [|exact ID]. apply Nat.ltb_lt in R. unfold LDQ_SIZE in R. cbn [ld un].
    destruct (is_l (ld l) (u_idx (un l)) LWaitMmioResp) eqn:E.
    + apply is_l_eq in E. cbv zeta. set (i := u_idx (un l)) in *. set (f := fun e => set_l_st LReadyToWb (set_l_res rd e)). set (d := ld l) in *.
      assert (I : i < 16). { destruct (le_lt_dec 16 i) as [X|X]; [|exact X]. rewrite (LI_hi _ _ _ H X) in E. discriminate. }
      assert (O : okb None (lq d i) = true).
      { destruct (LI_where [] d i H (fun x => x)) as [(Q & k & V & EQ)|X]; [|exact X]. exfalso. at_ H V J1 J2 J3 J4. rewrite EQ in J4. unfold okb in J4. rewrite E in J4. destruct Q; discriminate. }
      assert (PF : l_pf (lq d i) = false). { unfold okb in O. rewrite E in O. now apply negb_true_iff. }
      split; [|split; [|split; [|split; [reflexivity|split; [reflexivity|split; [|split; [reflexivity|split; [reflexivity|split]]]]]]]].
      * apply (LI_ext _ (setq QF (enq (qof d QF) i) (upd_l i f d))); [intros []; reflexivity|reflexivity|]. apply LI_enq; auto; [unfold okb; cbn; now rewrite PF|congruence].
      * eapply K_trans; [apply (K_upd d i f)|apply K_ext; reflexivity]; [now rewrite E|intros e; now repeat split|discriminate].
      * eapply AL_trans; [apply (AL_upd d i f)|apply AL_ext; reflexivity]. discriminate.
      * intros j X. exfalso. cbn [set_fin upd_l set_lq lq] in X. unfold fupd in X. destruct (Nat.eqb_spec j i) as [NE|NE]; [discriminate|]. destruct (M j X) as (_ & _ & Y). apply NE. symmetry. exact Y.
      * intros j. cbn [set_fin upd_l set_lq lq]. unfold fupd. destruct (Nat.eqb_spec j i) as [->|]; [right; now split|now left].
      * cbn. discriminate.
    + split; [exact H|]. split; [apply K_refl|]. split; [apply AL_refl|]. split; [reflexivity|]. split; [reflexivity|]. split; [|split; [reflexivity|split; [reflexivity|split; [now left|discriminate]]]].
      intros j X. exfalso. destruct (M j X) as (_ & _ & Y). subst j. apply is_l_eq in X. congruence.
  - cbn [ld un]. split; [exact H|]. split; [apply K_refl|]. split; [apply AL_refl|]. split; [reflexivity|]. split; [reflexivity|]. split; [|split; [reflexivity|split; [reflexivity|split; [now left|discriminate]]]].
    intros j X. exfalso. destruct (M j X) as (_ & Y & _). congruence.
Qed.

(** *** The answers of the cache *)
(** [pend]: the requests of the last cycle, every one from a load still waiting for it, and no load waits otherwise. *)
Definition rid (d : ldqs) (k : nat) : Z := make_lsu_load_req_id (Z.of_nat k) (wgen d k).
Record PI (d : ldqs) (pend : list dlreq) : Prop := {
  pi_a : forall q, In q pend -> exists k, k < 16 /\ q_id q = rid d k /\ qv (wdl d) k = true /\ l_st (lq d (qi (wdl d) k)) = LWaitDcacheResp /\ q_addr q = l_pa (lq d (qi (wdl d) k)) /\ (wgen d k = wgen d k mod 2 ^ 27)%Z;
  pi_b : forall k, qv (wdl d) k = true -> l_st (lq d (qi (wdl d) k)) = LWaitDcacheResp -> exists q, In q pend /\ q_id q = rid d k;
  pi_n : NoDup (map q_id pend) }.
Lemma rid_inj d k j : k < 16 -> j < 16 -> rid d k = rid d j -> k = j.
Proof. intros A B E. destruct (c25_req_id_injective (Z.of_nat k) (wgen d k) (Z.of_nat j) (wgen d j)) as [X _]; [lia|lia|exact E|lia]. Qed.
Definition taken_by (d : ldqs) (r : dlresp) (k : nat) : ldqe -> ldqe := fun e =>
  match dl_rep r with
  | RHit => set_l_rep RHit (set_l_st LReadyToWb (set_l_res (extract_data (dl_data r) (l_pa e) (l_f3 e)) e))
  | rp => set_l_rep rp (set_l_st LReadyToIssue e)
  end.
Lemma load_resp_at d r q pend : LI [] d -> PI d (q :: pend) -> dl_id r = q_id q -> exists k, k < 16 /\ q_id q = rid d k /\ qv (wdl d) k = true /\ l_st (lq d (qi (wdl d) k)) = LWaitDcacheResp /\ q_addr q = l_pa (lq d (qi (wdl d) k)) /\
  lq (load_resp d r) = lq (upd_l (qi (wdl d) k) (taken_by d r k) d) /\ (forall Q, qof (load_resp d r) Q = qof d Q) /\ wgen (load_resp d r) = wgen d /\ lbad (load_resp d r) = lbad d.
Proof.
  intros H P E. destruct (pi_a _ _ P q (or_introl eq_refl)) as (k & KL & KI & KV & KS & KA & KG). exists k. repeat (split; [assumption|]).
  destruct (c25_req_id_roundtrip (Z.of_nat k) (wgen d k) ltac:(lia)) as (R1 & R2 & R3). unfold load_resp. rewrite E, KI. unfold rid.
  assert (T31 : Z.testbit (make_lsu_load_req_id (Z.of_nat k) (wgen d k)) 31 = false).
  { destruct (Z.eq_dec (make_lsu_load_req_id (Z.of_nat k) (wgen d k)) 0) as [->|NZ]; [reflexivity|]. apply Z.bits_above_log2; [lia|]. apply Z.log2_lt_pow2; lia. }
  rewrite T31, R1, Nat2Z.id, KV. cbn [negb]. rewrite R2, <- KG, Z.eqb_refl. cbn [negb]. unfold is_l. rewrite KS. cbn [lst_eqb]. unfold taken_by. destruct (dl_rep r); repeat split; intros []; reflexivity.
Qed.
Lemma taken_ok d r k p e : okb p e = true -> l_st e = LWaitDcacheResp -> okb p (taken_by d r k e) = true.
Proof. intros O S. unfold okb, taken_by in *. rewrite S in O. destruct p as [[[| | |] ?]|]; try discriminate. destruct (dl_rep r); cbn [set_l_rep set_l_st set_l_res l_st l_pf l_mmio]; exact O. Qed.
Lemma load_resp_ok d r q pend : LI [] d -> PI d (q :: pend) -> dl_id r = q_id q -> G d (load_resp d r) /\ LI [] (load_resp d r) /\ PI (load_resp d r) pend /\
  (forall i, l_st (lq d i) <> LWaitDcacheResp -> lq (load_resp d r) i = lq d i) /\ wgen (load_resp d r) = wgen d /\ wdl (load_resp d r) = wdl d.
Proof.
  intros H P E. destruct (load_resp_at d r q pend H P E) as (k & KL & KI & KV & KS & KA & EL & EQ & EW & EB). set (d' := load_resp d r) in *. clearbody d'.
  set (i := qi (wdl d) k) in *. change (qv (qof d QD) k = true) in KV. at_ H KV II IN IP IO. change (qi (qof d QD) k) with i in *.
  assert (LI' : LI [] d'). { apply (LI_ext _ (upd_l i (taken_by d r k) d)); [intros Q; rewrite EQ; reflexivity|intros; now rewrite EL|]. apply LI_stay; auto. intros p O. now apply taken_ok. }
  assert (TS : l_st (taken_by d r k (lq d i)) = LReadyToWb \/ l_st (taken_by d r k (lq d i)) = LReadyToIssue) by (unfold taken_by; destruct (dl_rep r); cbn; auto).
  assert (WD : wdl d' = wdl d) by exact (EQ QD).
  split; [|split; [exact LI'|split; [|split; [|split; [exact EW|exact WD]]]]].
  - constructor; [intros _; exact LI'| | | |exact EB|intros j J; rewrite EL; apply (EM_upd d i); [congruence|exact J]].
    + eapply K_trans; [apply (K_upd d i (taken_by d r k))|apply K_ext; intros; now rewrite EL]; [now rewrite KS| |destruct TS as [-> | ->]; discriminate]. intros e. unfold taken_by. destruct (dl_rep r); now repeat split.
    + eapply AL_trans; [apply (AL_upd d i (taken_by d r k))|apply AL_ext; intros; now rewrite EL]. destruct TS as [-> | ->]; discriminate.
    + apply AL_cap; [|change (wml d') with (qof d' QW); rewrite EQ; reflexivity]. eapply AL_trans; [apply (AL_upd d i (taken_by d r k))|apply AL_ext; intros; now rewrite EL]. destruct TS as [-> | ->]; discriminate.
  - destruct P as [A B C]. cbn [map] in C. inversion C as [|? ? C1 C2]; subst. constructor; [| |exact C2].
    + intros q' Q'. destruct (A q' (or_intror Q')) as (k' & X1 & X2 & X3 & X4 & X5 & X6). assert (NK : k' <> k). { intros ->. apply C1. rewrite KI, <- X2. now apply in_map. }
      exists k'. unfold rid. rewrite EW, WD. assert (NI : qi (wdl d) k' <> i). { intros X. apply NK. change (qi (qof d QD) k' = qi (qof d QD) k) in X. now apply (LI_inj [] d QD k' QD k). }
      rewrite EL. cbn [upd_l set_lq lq]. rewrite fupd_ne by exact NI. repeat (split; [assumption|]). exact X6.
    + intros k' V' S'. rewrite WD in V', S'. rewrite EL in S'. cbn [upd_l set_lq lq] in S'. unfold fupd in S'. destruct (Nat.eqb_spec (qi (wdl d) k') i) as [X|X]; [destruct TS as [Y|Y]; rewrite Y in S'; discriminate|].
      destruct (B k' V' S') as (q' & [Q'|Q'] & ID').
      * exfalso. apply X. subst q'. rewrite KI in ID'. assert (LI_k : k' < 16) by (change (qv (qof d QD) k' = true) in V'; now destruct (LI_at _ _ _ _ H V') as (_ & _ & Y & _)). apply rid_inj in ID'; auto. now subst.
      * exists q'. split; [exact Q'|]. unfold rid. now rewrite EW.
  - intros j J. rewrite EL. cbn [upd_l set_lq lq]. apply fupd_ne. intros ->. contradiction.
Qed.
(** The answers [rs] to the requests [pend]: every waiting load takes the answer to its own request. *)
Lemma load_resps_ok rs : forall pend d, LI [] d -> PI d pend -> map dl_id rs = map q_id pend -> let d' := fold_left load_resp rs d in
  G d d' /\ LI [] d' /\ PI d' [] /\ wgen d' = wgen d /\ wdl d' = wdl d /\ (forall i, l_st (lq d i) <> LWaitDcacheResp -> lq d' i = lq d i) /\
  (forall n r q, nth_error rs n = Some r -> nth_error pend n = Some q -> exists k, let i := qi (wdl d) k in
     k < 16 /\ q_id q = rid d k /\ qv (wdl d) k = true /\ l_st (lq d i) = LWaitDcacheResp /\ q_addr q = l_pa (lq d i) /\ lq d' i = taken_by d r k (lq d i)).
Proof.
  induction rs as [|r t IH]; intros pend d H P E; cbv zeta; (destruct pend as [|q pend]; [|]); try discriminate.
  - cbn. split; [apply G_refl|]. split; [exact H|]. split; [exact P|]. do 3 (split; [reflexivity|]). intros [|n]; discriminate.
  - cbn [map] in E. injection E as E1 E2. cbn [fold_left]. destruct (load_resp_ok d r q pend H P E1) as (A1 & A2 & A3 & A4 & A5 & A6). destruct (IH pend _ A2 A3 E2) as (B1 & B2 & B3 & B4 & B5 & B6 & B7). cbv zeta in *.
    destruct (load_resp_at d r q pend H P E1) as (k & KL & KI & KV & KS & KA & EL & EQ & EW & EB).
    split; [now apply (G_trans _ (load_resp d r))|]. split; [exact B2|]. split; [exact B3|]. split; [congruence|]. split; [congruence|]. split.
    + intros i I. rewrite B6, A4; auto. now rewrite A4.
    + intros [|n] r0 q0 N1 N2; cbn in N1, N2.
      * injection N1 as <-. injection N2 as <-. exists k. repeat (split; [assumption|]). rewrite B6.
        -- rewrite EL. cbn [upd_l set_lq lq]. apply fupd_eq.
        -- rewrite EL. cbn [upd_l set_lq lq]. rewrite fupd_eq. unfold taken_by. destruct (dl_rep r); discriminate.
      * destruct (B7 n r0 q0 N1 N2) as (k' & X1 & X2 & X3 & X4 & X5 & X6). unfold rid in X2. rewrite A5 in X2. rewrite A6 in *. exists k'.
        assert (NE : qi (wdl d) k' <> qi (wdl d) k). { intros Y. rewrite Y, EL in X4. cbn [upd_l set_lq lq] in X4. rewrite fupd_eq in X4. unfold taken_by in X4. destruct (dl_rep r); discriminate. }
        assert (SE : lq (load_resp d r) (qi (wdl d) k') = lq d (qi (wdl d) k')) by (rewrite EL; cbn [upd_l set_lq lq]; now apply fupd_ne).
        rewrite SE in *. repeat (split; [assumption|]). exact X6.
Qed.
Lemma no_waiting d i : LI [] d -> PI d [] -> l_st (lq d i) <> LWaitDcacheResp.
Proof.
  intros H P S. destruct (LI_where [] d i H (fun x => x)) as [(Q & k & V & E)|O]; [|unfold okb in O; rewrite S in O; discriminate].
  at_ H V A B C D. rewrite E in D. unfold okb in D. rewrite S in D. destruct Q; try discriminate. subst i. destruct (pi_b _ _ P k V S) as (q & [] & _).
Qed.
Lemma wake_loads_is addr ks : forall n d, exists w, wake_loads addr ks n d = set_wwait w d.
Proof.
  assert (Z : forall d, exists w, d = set_wwait w d) by (intros []; eexists; reflexivity).
  assert (T : forall d w1 w2, set_wwait w2 (set_wwait w1 d) = set_wwait w2 d) by reflexivity.
  induction ks as [|k t IH]; intros n d; cbn [wake_loads]; [apply Z|]. destruct (_ || _); [apply IH|]. destruct (negb _); [apply IH|].
  destruct (l_rep _); [apply IH|apply IH| |]; [destruct (line_match _ _)|destruct (_ <? _)]; try apply IH; match goal with |- exists w, wake_loads addr t ?m ?x = _ => destruct (IH m x) as [w W] end; exists w; now rewrite W.
Qed.
(** The lists after the answers: moves among the cache queue and the finished queue. *)
Lemma finish_hit_ok d k : LI [] d -> G d (finish_hit d k) /\ LI [] (finish_hit d k) /\ (forall i, lq (finish_hit d k) i = lq d i) /\ wgen (finish_hit d k) = wgen d /\ qn (wdl (finish_hit d k)) = qn (wdl d).
Proof.
  intros H. unfold finish_hit. destruct (_ && _) eqn:E; [|split; [apply G_refl|now repeat split]]. apply andb_true_iff in E as [E E3]. apply andb_true_iff in E as [V S]. apply is_l_eq in S. apply Nat.ltb_lt in E3. unfold LDQ_SIZE in E3.
  set (i := qi (wdl d) k) in *. change (qv (qof d QD) k = true) in V. at_ H V A B C OK. change (qi (qof d QD) k) with i in *.
  assert (PF : okb (Some (QF, 0)) (lq d i) = true). { unfold okb in OK |- *. rewrite S in *. now apply andb_true_iff in OK as [OK _]. }
  assert (LI' : LI [] (set_wdl (kill (wdl d) k) (set_fin (enq (fin d) i) d))).
  { apply (LI_ext _ (setq QD (kill (qof d QD) k) (setq QF (enq (qof d QF) i) (upd_l i (fun e => e) d)))); [intros []; reflexivity| |].
    - intros j. rewrite !lq_setq. cbn [set_wdl set_fin lq upd_l set_lq]. unfold fupd. destruct (Nat.eqb_spec j i) as [->|]; reflexivity.
    - apply (LI_move [] d QD k QF (fun e => e)); auto. discriminate. }
  split; [|split; [exact LI'|now repeat split]]. constructor; [intros _; exact LI'|apply K_ext; reflexivity|apply AL_ext; reflexivity|apply AL_cap; [apply AL_ext; reflexivity|reflexivity]|reflexivity|apply EM_ext; reflexivity].
Qed.
Lemma finish_hits_ok ks : forall d, LI [] d -> let d' := fold_left finish_hit ks d in G d d' /\ LI [] d' /\ (forall i, lq d' i = lq d i) /\ wgen d' = wgen d /\ qn (wdl d') = qn (wdl d).
Proof.
  induction ks as [|k t IH]; intros d H; cbv zeta; cbn [fold_left]; [split; [apply G_refl|now repeat split]|].
  destruct (finish_hit_ok d k H) as (A & B & C & D & E). destruct (IH _ B) as (A' & B' & C' & D' & E'). cbv zeta in *. split; [now apply (G_trans _ (finish_hit d k))|]. split; [exact B'|]. split; [intros i; now rewrite C'|]. split; congruence.
Qed.
Lemma pop_G d Q n : n <= qn (qof d Q) -> G d (setq Q (pop_invalid n (qof d Q)) d).
Proof.
  intros N. constructor; [intros H; now apply LI_pop|apply K_ext; intros; now rewrite lq_setq|apply AL_ext; intros; now rewrite lq_setq| |now destruct Q|apply EM_ext; intros; now rewrite lq_setq].
  apply AL_cap; [apply AL_ext; intros; now rewrite lq_setq|]. destruct Q; try reflexivity. apply pop_qn.
Qed.
Lemma dcache_in_ok rs fill pend d : LI [] d -> PI d pend -> map dl_id rs = map q_id pend -> let d' := comb_dcache2lsu_ldq rs fill d in
  G d d' /\ LI [] d' /\ (forall i, l_st (lq d' i) <> LWaitDcacheResp) /\ (forall i, l_st (lq d i) <> LWaitDcacheResp -> lq d' i = lq d i) /\
  (forall n r q, nth_error rs n = Some r -> nth_error pend n = Some q -> exists k, let i := qi (wdl d) k in
     k < 16 /\ q_id q = rid d k /\ qv (wdl d) k = true /\ l_st (lq d i) = LWaitDcacheResp /\ q_addr q = l_pa (lq d i) /\ lq d' i = taken_by d r k (lq d i)).
Proof.
  intros H P E. cbv zeta. unfold comb_dcache2lsu_ldq. destruct (load_resps_ok rs pend d H P E) as (A1 & A2 & A3 & A4 & A5 & A6 & A7). cbv zeta in *. set (d1 := fold_left load_resp rs d) in *. clearbody d1.
  pose proof (fun i => no_waiting d1 i A2 A3) as NW. assert (X : exists w, match fill with Some a => wake_loads a (window (wdl d1)) 0 d1 | None => d1 end = set_wwait w d1).
  { destruct fill; [apply wake_loads_is|]. exists (wwait d1). now destruct d1. }
  destruct X as [w ->]. set (d2 := set_wwait w d1). assert (G2 : G d d2). { apply (G_trans _ d1); [exact A1|]. constructor; [apply LI_ext; [intros []; reflexivity|reflexivity]|apply K_ext; reflexivity|apply AL_ext; reflexivity|apply AL_cap; [apply AL_ext; reflexivity|reflexivity]|reflexivity|apply EM_ext; reflexivity]. }
  assert (L2 : LI [] d2) by now apply G2. destruct (finish_hits_ok (window (wdl d2)) d2 L2) as (B1 & B2 & B3 & B4 & B5). cbv zeta in *. set (d3 := fold_left finish_hit (window (wdl d2)) d2) in *.
  assert (P3 : G d3 (setq QD (pop_invalid (Nat.min (qn (wdl d2)) WINDOW) (qof d3 QD)) d3)) by (apply pop_G; cbn [qof]; lia). cbn [setq qof] in P3.
  split; [apply (G_trans _ d3); [now apply (G_trans _ d2)|exact P3]|]. split; [now apply P3|]. cbn [set_wdl lq]. split; [intros i; rewrite B3; apply NW|]. split; [intros i I; rewrite B3; now apply A6|].
  intros n r q N1 N2. destruct (A7 n r q N1 N2) as (k & X1 & X2 & X3 & X4 & X5 & X6). exists k. repeat (split; [assumption|]). rewrite B3. exact X6.
Qed.

(** *** Reports *)
Definition wb_of (e : ldqe) : wb := WB (l_rob e) (l_brm e) (if l_pf e then l_diag e else l_pa e) (if l_pf e then l_diag e else l_res e) (l_preg e) true (l_pf e) false false.
Definition done (e : ldqe) : Prop := l_st e = LReadyToWb /\ l_pf e = false \/ l_st e = LPageFault /\ l_pf e = true.
Definition wrote (d d' : ldqs) (is : list nat) : Prop :=
  NoDup is /\ (forall i, In i is -> done (lq d i) /\ lq d' i = set_l_st LEmpty (lq d i)) /\ (forall i, ~ In i is -> lq d' i = lq d i).
Lemma NoDup_app_intro {A} (a b : list A) : NoDup a -> NoDup b -> (forall x, In x a -> ~ In x b) -> NoDup (a ++ b).
Proof.
  induction a as [|x a IH]; intros A1 B1 D; [exact B1|]. inversion A1 as [|? ? X Y]; subst. cbn. constructor.
  - intros I. apply in_app_or in I as [I|I]; [contradiction|]. exact (D x (or_introl eq_refl) I).
  - apply IH; auto. intros y I. apply D. now right.
Qed.
Lemma load_wb_ok y k : LI [] (y_d y) -> exists is, y_out (load_wb y k) = y_out y ++ map (fun i => wb_of (lq (y_d y) i)) is /\ wrote (y_d y) (y_d (load_wb y k)) is /\ LI [] (y_d (load_wb y k)) /\
  wml (y_d (load_wb y k)) = wml (y_d y) /\ lbad (y_d (load_wb y k)) = lbad (y_d y) /\ qn (fin (y_d (load_wb y k))) = qn (fin (y_d y)).
Proof.
  intros H. assert (ID : exists is, y_out y = y_out y ++ map (fun i => wb_of (lq (y_d y) i)) is /\ wrote (y_d y) (y_d y) is /\ LI [] (y_d y) /\ wml (y_d y) = wml (y_d y) /\ lbad (y_d y) = lbad (y_d y) /\ qn (fin (y_d y)) = qn (fin (y_d y))).
  { exists []. split; [cbn; now rewrite app_nil_r|]. split; [split; [constructor|split; [intros i []|reflexivity]]|]. now repeat split. }
  unfold load_wb. destruct (_ <=? _); [exact ID|]. set (d := y_d y) in *. destruct (qv (fin d) k) eqn:V; cbn [negb]; [|exact ID]. set (i := qi (fin d) k) in *.
  destruct (negb _) eqn:E; [exact ID|]. apply negb_false_iff in E. cbn [y_out y_d]. change (qv (qof d QF) k = true) in V. at_ H V A B C OK. change (qi (qof d QF) k) with i in *.
  assert (DN : done (lq d i)). { unfold okb in OK. apply orb_true_iff in E as [E|E]; apply lst_eqb_eq in E; rewrite E in OK; [left|right]; split; auto. now apply negb_true_iff. }
  exists [i]. split; [reflexivity|]. split.
  - split; [constructor; [intros []|constructor]|]. split.
    + intros j [<-|[]]. split; [exact DN|]. cbn [set_fin upd_l set_lq lq]. apply fupd_eq.
    + intros j J. cbn [set_fin upd_l set_lq lq]. apply fupd_ne. intros ->. apply J. now left.
  - split; [|now repeat split]. apply (LI_ext _ (setq QF (kill (qof d QF) k) (upd_l i (set_l_st LEmpty) d))); [intros []; reflexivity|reflexivity|]. apply LI_kill; auto.
Qed.
Lemma load_wbs_ok ks : forall y, LI [] (y_d y) -> let y' := fold_left load_wb ks y in exists is, y_out y' = y_out y ++ map (fun i => wb_of (lq (y_d y) i)) is /\ wrote (y_d y) (y_d y') is /\ LI [] (y_d y') /\
  wml (y_d y') = wml (y_d y) /\ lbad (y_d y') = lbad (y_d y) /\ qn (fin (y_d y')) = qn (fin (y_d y)).
Proof.
  induction ks as [|k t IH]; intros y H; cbv zeta; cbn [fold_left].
  - exists []. split; [cbn; now rewrite app_nil_r|]. split; [split; [constructor|split; [intros i []|reflexivity]]|]. now repeat split.
  - destruct (load_wb_ok y k H) as (is & A1 & (A2 & A3 & A4) & A5 & A6 & A7 & A8). destruct (IH _ A5) as (js & B1 & (B2 & B3 & B4) & B5 & B6 & B7 & B8). cbv zeta in *. set (y1 := load_wb y k) in *.
    assert (DJ : forall i, In i js -> ~ In i is). { intros i J I. destruct (B3 i J) as [D _]. destruct (A3 i I) as [_ D']. rewrite D' in D. destruct D as [[D _]|[D _]]; discriminate. }
    exists (is ++ js). split; [|split; [split; [|split]|]].
    + rewrite B1, A1, map_app, app_assoc. f_equal. apply map_ext_in. intros i J. now rewrite (A4 i (DJ i J)).
    + apply NoDup_app_intro; auto. intros i I J. exact (DJ i J I).
    + intros i I. apply in_app_or in I as [I|I].
      * destruct (A3 i I) as [D E]. split; [exact D|]. rewrite (B4 i); [exact E|]. intros J. exact (DJ i J I).
      * destruct (B3 i I) as [D E]. rewrite (A4 i (DJ i I)) in D, E. now split.
    + intros i N. rewrite (B4 i), (A4 i); [reflexivity| |]; intros X; apply N, in_or_app; auto.
    + split; [exact B5|]. split; [congruence|]. split; congruence.
Qed.
