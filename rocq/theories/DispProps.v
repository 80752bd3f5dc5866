(** C40 theorems. *)
From Verif Require Import Base DispModel DispSpec DispProofs.

Lemma F2_of_nth : forall A B (R : A -> B -> Prop) l l', length l = length l' ->
  (forall j b, nth_error l' j = Some b -> exists a, nth_error l j = Some a /\ R a b) -> Forall2 R l l'.
Proof.
  intros A B R l l'. revert l. induction l' as [|b l' IH]; intros [|a l] L H; try discriminate; constructor.
  - destruct (H 0%nat b eq_refl) as (x & E & X). injection E as <-. exact X.
  - apply IH; [now injection L|]. intros j c C. apply (H (S j) c C).
Qed.
Definition match1 (vx : bool * inst) (a : aslot) : Prop := av a = fst vx /\ id (ai a) = id (snd vx) /\ den (ai a) = den (snd vx) /\ da (ai a) = da (snd vx).
Lemma slots_match : forall e st o st' p1 rs, facts e st o st' p1 rs ->
  exists sl1 sl2, slots st = sl1 ++ sl2 /\ Forall2 match1 sl1 p1 /\ Forall2 match1 sl2 rs.
Proof.
  intros e st o st' p1 rs K. apply F2_app_r. apply F2_of_nth; [rewrite <- (k_al _ _ _ _ _ _ K); symmetry; apply (k_len _ _ _ _ _ _ K)|].
  intros j a H. destruct (k_slot _ _ _ _ _ _ K j a H) as (v & x & E & V & _ & I & _ & _ & Dn & Da & _). exists (v, x). split; [assumption|]. repeat split; cbn; assumption.
Qed.
Lemma dispatched_is : forall e st o st' p1 rs, facts e st o st' p1 rs -> dispatched o = map ai (filter av p1).
Proof. intros e st o st' p1 rs K. unfold dispatched. rewrite (k_al _ _ _ _ _ _ K), (k_fr _ _ _ _ _ _ K), chosen_av. reflexivity. Qed.
Lemma ids_p1 : forall sl1 p1, Forall2 match1 sl1 p1 -> ids sl1 = map id (map ai (filter av p1)).
Proof.
  intros sl1 p1 F. unfold ids. induction F as [|[v x] a l l' (V & I & _) F IH]; [reflexivity|]. cbn in V, I. cbn [filter fst]. rewrite V.
  destruct v; cbn [map snd]; rewrite IH; congruence.
Qed.
Lemma ids_keep1 : forall e sl1 p1 sl2 rs fr, Forall2 match1 sl1 p1 -> ids (keep e (sl1 ++ sl2) (p1 ++ rs) (map av p1 ++ fr)) = ids (keep e sl2 rs fr).
Proof.
  intros e sl1 p1 sl2 rs fr F. induction F as [|[v x] a l l' (V & _) F IH]; [reflexivity|]. cbn in V. cbn [app map keep keep_one]. rewrite V, andb_negb_r.
  unfold ids in *. cbn [filter fst]. exact IH.
Qed.
Lemma ids_keep2 : forall e sl2 rs, Forall2 match1 sl2 rs -> ids (keep e sl2 rs (map (fun _ => false) rs)) = ids sl2.
Proof.
  intros e sl2 rs F. unfold ids. induction F as [|[v x] a l l' (V & I & _) F IH]; [reflexivity|]. cbn [map keep keep_one]. rewrite andb_true_r.
  destruct v; cbn [filter fst map snd]; [rewrite IH; reflexivity|exact IH].
Qed.
Lemma keep_len : forall e sl al fr, length al = length sl -> length fr = length sl -> length (keep e sl al fr) = length sl.
Proof. induction sl as [|vx sl IH]; intros [|a al] [|f fr] L1 L2; try discriminate; cbn in *; [reflexivity|]. rewrite IH; lia. Qed.
Lemma keep_in : forall e sl al fr v x, In (v, x) (keep e sl al fr) -> exists v0 x0, In (v0, x0) sl /\ den x = den x0 /\ da x = da x0.
Proof.
  induction sl as [|[v0 x0] sl IH]; intros [|a al] [|f fr] v x; cbn [keep]; try (intros []).
  - cbn [keep_one] in H. destruct (v0 && negb f); injection H as <- <-; exists v0, x0; repeat split; left; reflexivity.
  - destruct (IH _ _ _ _ H) as (v1 & x1 & I & J). exists v1, x1. split; [right; exact I|exact J].
Qed.

Definition inv (st : dis) (A D : list Z) (h : list ev) : Prop :=
  wf st /\ A = D ++ ids (slots st) /\ (forall p, busy st p = true <-> in_flight h p) /\
  (forall v x, In (v, x) (slots st) -> den x = true -> da x <> 0).
Lemma fire_none : forall e st o st' p1 rs, facts e st o st' p1 rs -> gflush e = true -> filter av p1 = [].
Proof.
  intros e st o st' p1 rs K G. destruct (filter av p1) as [|a l] eqn:E; [reflexivity|exfalso].
  assert (I : In a (filter av p1)) by (rewrite E; left; reflexivity). apply filter_In in I as [I V]. apply In_nth_error in I as [j J].
  destruct (k_p1 _ _ _ _ _ _ K j a J V) as (_ & _ & C & _). congruence.
Qed.
Lemma reach_inv : forall st A D h, reach st A D h -> inv st A D h.
Proof.
  intros st A D h R. induction R as [sl f c H L1 L2|st A D h e o st' R IH (En & Eo) C].
  - unfold inv, wf. cbn. repeat split; try assumption.
    + unfold ids. clear - H. assert (filter fst sl = []) as ->; [|reflexivity]. induction sl as [|[v x] sl IHl]; [reflexivity|]. cbn. destruct (H v x (or_introl eq_refl)) as [-> _]. apply IHl. intros; apply H; now right.
    + discriminate.
    + intros F. destruct (fl_nil _ F).
    + intros v x I Dn. destruct (H _ _ I) as [_ X]. congruence.
  - destruct IH as ((W1 & W2) & IA & IB & IS). destruct (cycle_facts _ _ _ _ C) as (p1 & rs & K); [congruence|].
    pose proof (dispatched_is _ _ _ _ _ _ K) as Dd. destruct (slots_match _ _ _ _ _ _ K) as (sl1 & sl2 & Sl & F1 & F2).
    pose proof (k_len _ _ _ _ _ _ K) as Kl.
    assert (Lf : length (o_fire o) = length (o_alloc o)) by (rewrite (k_fr _ _ _ _ _ _ K), (k_al _ _ _ _ _ _ K), !app_length, !map_length; reflexivity).
    split; [|split; [|split]].
    + unfold wf. rewrite (k_next _ _ _ _ _ _ K). split.
      * destruct (e_flush e || e_mispred e); [now rewrite map_length|]. destruct (o_ready o); [now rewrite map_length|]. rewrite keep_len; congruence.
      * clear - C W1 W2. unfold cycle in C. destruct (alloc_loop e 0 [] [] (slots st)) as [[al0 so] lo] eqn:A.
        destruct (disp_loop e _ _ _ _ _) as [[f c] m] eqn:Dl. destruct (fire_loop _ _ _ _ _) as [fr ps]. injection C as _ <-. cbn [succ].
        destruct (alloc_more _ _ _ _ _ _ _ _ A) as (La & _ & _).
        pose proof (Forall2_length _ _ _ _ _ (wake_same e (busy st) al0 [])) as Lw. rewrite (disp_len _ _ _ _ _ _ _ _ _ Dl); congruence.
    + rewrite (k_next _ _ _ _ _ _ K), Dd. destruct (e_flush e || e_mispred e) eqn:Fl.
      * replace (ids (map (fun vx => (false, snd vx)) (slots st))) with (@nil Z); [now rewrite app_nil_r|].
        unfold ids. clear. induction (slots st) as [|[v x] l IH]; [reflexivity|exact IH].
      * rewrite IA, Sl. unfold ids at 1. rewrite filter_app, map_app. fold (ids sl1). fold (ids sl2). rewrite (ids_p1 _ _ F1).
        destruct (o_ready o) eqn:Rd.
        -- destruct (k_ready1 _ _ _ _ _ _ K Rd) as [-> _]. inversion F2; subst. cbn [ids filter map]. unfold ids at 1. cbn [filter map]. rewrite app_nil_r, <- !app_assoc. do 2 f_equal.
           unfold ids. clear. induction (e_new e) as [|[v x] l IH]; [reflexivity|]. cbn [filter map fst snd]. destruct v; cbn [map]; [f_equal|]; exact IH.
        -- rewrite app_nil_r, (k_al _ _ _ _ _ _ K), (k_fr _ _ _ _ _ _ K), ids_keep1, ids_keep2 by assumption. now rewrite app_assoc.
    + intros p. rewrite (k_busy _ _ _ _ _ _ K), <- (k_al _ _ _ _ _ _ K), busy_set_is by assumption. rewrite busy_wake_is, andb_true_iff, IB, negb_true_iff.
      rewrite app_assoc, fl_dests, fl_wakes. unfold dispatched.
      assert (X : existsb (Z.eqb p) (e_wake e) = false <-> ~ In p (e_wake e)).
      { split; intros H.
        - intros I. assert (existsb (Z.eqb p) (e_wake e) = true) by (apply existsb_exists; exists p; split; [assumption|apply Z.eqb_refl]). congruence.
        - destruct (existsb (Z.eqb p) (e_wake e)) eqn:E; [|reflexivity]. apply existsb_exists in E as (y & I & Y). apply Z.eqb_eq in Y as <-. contradiction. }
      rewrite X. split; (intros [H|H]; [left; exact H|right]).
      * destruct H as (a & I & H). exists (ai a). split; [now apply in_map|exact H].
      * destruct H as (x & I & H). apply in_map_iff in I as (a & <- & I). eauto.
    + rewrite (k_next _ _ _ _ _ _ K). intros v x I Dn. destruct (e_flush e || e_mispred e).
      * apply in_map_iff in I as ([v0 x0] & E & I). injection E as <- <-. eapply IS; eassumption.
      * destruct (o_ready o).
        -- apply in_map_iff in I as ([v0 x0] & E & I). injection E as <- <-. apply (Eo v0 x0 I Dn).
        -- destruct (keep_in _ _ _ _ _ _ I) as (v0 & x0 & I0 & E1 & E2). rewrite E2. apply (IS _ _ I0). congruence.
Qed.

(** *** Order, gating and serialisation *)
Lemma fire_in_p1 : forall p1 (rs : list aslot) j, nth j (map av p1 ++ map (fun _ => false) rs) false = true -> exists a, nth_error p1 j = Some a /\ av a = true.
Proof.
  intros p1 rs j H. destruct (Nat.lt_ge_cases j (length p1)) as [L|L].
  - rewrite app_nth1 in H by (now rewrite map_length). destruct (nth_error p1 j) as [a|] eqn:E; [|apply nth_error_None in E; lia].
    exists a. split; [reflexivity|]. erewrite nth_error_nth in H; [exact H|]. now rewrite nth_error_map, E.
  - rewrite app_nth2 in H by (now rewrite map_length). rewrite nth_false in H. discriminate.
Qed.
(** Instruction in slot [j] of the group held this cycle. *)
Definition holds (st : dis) (j : nat) (x : inst) : Prop := nth_error (slots st) j = Some (true, x).
Definition fires (o : out) (j : nat) : Prop := nth j (o_fire o) false = true.
Lemma fires_p1 : forall e st o st' p1 rs j, facts e st o st' p1 rs -> fires o j -> exists a, nth_error p1 j = Some a /\ av a = true.
Proof. intros e st o st' p1 rs j K H. unfold fires in H. rewrite (k_fr _ _ _ _ _ _ K) in H. now apply fire_in_p1 in H. Qed.
Lemma p1_fires : forall e st o st' p1 rs j a, facts e st o st' p1 rs -> nth_error p1 j = Some a -> av a = true -> fires o j.
Proof.
  intros e st o st' p1 rs j a K H V. unfold fires. rewrite (k_fr _ _ _ _ _ _ K). assert (j < length p1)%nat by (apply nth_error_Some; congruence).
  rewrite app_nth1 by (now rewrite map_length). erewrite nth_error_nth; [exact V|]. now rewrite nth_error_map, H.
Qed.
Lemma p1_slot : forall e st o st' p1 rs j a, facts e st o st' p1 rs -> nth_error p1 j = Some a ->
  exists v x, nth_error (slots st) j = Some (v, x) /\ av a = v /\ id (ai a) = id x /\ ty (ai a) = ty x.
Proof.
  intros e st o st' p1 rs j a K H. destruct (k_slot _ _ _ _ _ _ K j a) as (v & x & E & V & _ & I & T & _).
  - rewrite nth_error_app1; [assumption|apply nth_error_Some; congruence].
  - exists v, x. auto.
Qed.
(** Dispatched instructions are held ones and form a prefix of them in program order. *)
Theorem c40_prefix : forall e st o st' i j, cycle e st = (o, st') -> wf st -> fires o j ->
  (exists x, holds st j x) /\ ((i < j)%nat -> forall x, holds st i x -> fires o i).
Proof.
  intros e st o st' i j C [W1 W2] F. destruct (cycle_facts _ _ _ _ C) as (p1 & rs & K); [congruence|].
  destruct (fires_p1 _ _ _ _ _ _ _ K F) as (a & Ha & V). split.
  - destruct (p1_slot _ _ _ _ _ _ _ _ K Ha) as (v & x & E & V' & _). exists x. unfold holds. congruence.
  - intros L x H. destruct (nth_error p1 i) as [b|] eqn:Hb.
    + destruct (p1_slot _ _ _ _ _ _ _ _ K Hb) as (v & y & E & V' & _). unfold holds in H. rewrite H in E. injection E as <- <-. eapply p1_fires; eassumption.
    + apply nth_error_None in Hb. assert (j < length p1)%nat by (apply nth_error_Some; congruence). lia.
Qed.
(** Nothing is dispatched during a flush, a mispredict recovery or a ROB stall, or without ROB space. *)
Theorem c40_gates : forall e st o st' j, cycle e st = (o, st') -> wf st -> fires o j ->
  e_ready e = true /\ e_flush e = false /\ e_mispred e = false /\ e_stall e = false.
Proof.
  intros e st o st' j C [W1 W2] F. destruct (cycle_facts _ _ _ _ C) as (p1 & rs & K); [congruence|].
  destruct (fires_p1 _ _ _ _ _ _ _ K F) as (a & Ha & V). destruct (k_p1 _ _ _ _ _ _ K _ _ Ha V) as (_ & R & G & _). unfold gflush in G.
  apply orb_false_iff in G as [G G3]. apply orb_false_iff in G as [G1 G2]. auto.
Qed.
(** CSR-class instructions and atomics start only on an empty ROB with nothing older in the same cycle;
    an atomic or WFI is the last instruction of its cycle. *)
Theorem c40_serialised : forall e st o st' j x, cycle e st = (o, st') -> wf st -> holds st j x -> fires o j ->
  (In (ty x) [CSR; MRET; ECALL; EBREAK; AMO] -> e_empty e = true /\ forall i, (i < j)%nat -> ~ fires o i) /\
  (In (ty x) [AMO; WFI] -> forall i, (j < i)%nat -> ~ fires o i).
Proof.
  intros e st o st' j x C [W1 W2] Hj F. destruct (cycle_facts _ _ _ _ C) as (p1 & rs & K); [congruence|].
  destruct (fires_p1 _ _ _ _ _ _ _ K F) as (a & Ha & V). destruct (k_p1 _ _ _ _ _ _ K _ _ Ha V) as (_ & _ & _ & S & B).
  destruct (p1_slot _ _ _ _ _ _ _ _ K Ha) as (v & y & E & _ & _ & T). unfold holds in Hj. rewrite Hj in E. injection E as <- <-. split.
  - intros I. destruct S as [S1 S2]; [unfold serial; rewrite T; destruct I as [I|[I|[I|[I|[I|[]]]]]]; rewrite <- I; reflexivity|].
    split; [assumption|]. intros i L Fi. destruct (fires_p1 _ _ _ _ _ _ _ K Fi) as (b & Hb & Vb).
    assert (In b (firstn j p1)); [|rewrite (S2 _ H) in Vb; discriminate].
    rewrite <- (firstn_skipn j p1) in Hb. rewrite nth_error_app1 in Hb; [now apply nth_error_In in Hb|].
    rewrite firstn_length. assert (j < length p1)%nat by (apply nth_error_Some; congruence). lia.
  - intros I i L Fi. destruct (fires_p1 _ _ _ _ _ _ _ K Fi) as (b & Hb & Vb). assert (i < length p1)%nat by (apply nth_error_Some; congruence).
    rewrite B in H; [lia|]. unfold barrier. rewrite T. destruct I as [I|[I|[]]]; rewrite <- I; reflexivity.
Qed.

(** *** Issue queue requests *)
Lemma sub_map : forall q l, exists xs, sub (needs q) (map ai (filter av l)) xs /\ Forall2 (carries q) xs (onq q (upss l)).
Proof.
  intros q l. induction l as [|a l (xs & S & F)]; cbn [filter map].
  - exists []. split; constructor.
  - unfold upss. cbn [flat_map]. unfold ups at 1. rewrite onq_app. fold (upss l). destruct (av a); cbn [map].
    + destruct (decompose_q q (ai a)) as [(N & u & -> & Cu)|[N ->]].
      * exists (ai a :: xs). split; [now constructor|]. cbn. now constructor.
      * exists xs. split; [now constructor|exact F].
    + exists xs. split; assumption.
Qed.
(** Each queue receives, from port 0 upwards and in program order, exactly one micro-operation of every
    dispatched instruction that needs the queue, carrying that instruction's operands and tags;
    nothing else, and never more than it has room for. *)
Theorem c40_queue_requests_exact : forall e st o st' q, cycle e st = (o, st') -> wf st ->
  exists xs us, sub (needs q) (dispatched o) xs /\ Forall2 (carries q) xs us /\ ports_are (o_req o q) us /\
    (length us <= W)%nat /\ (length us <= e_iqr e q)%nat.
Proof.
  intros e st o st' q C [W1 W2]. destruct (cycle_facts _ _ _ _ C) as (p1 & rs & K); [congruence|].
  destruct (sub_map q p1) as (xs & S & F). exists xs, (onq q (upss p1)). rewrite (dispatched_is _ _ _ _ _ _ K).
  destruct (k_cap _ _ _ _ _ _ K q) as [X Y]. repeat split; try assumption. intros k. apply (k_req _ _ _ _ _ _ K).
Qed.
(** The dispatched instructions are the held ones, slot by slot, with resolved branches removed from their masks
    and the ROB position of their slot. *)
Theorem c40_dispatched_fields : forall e st o st' j x, cycle e st = (o, st') -> wf st -> holds st j x -> fires o j ->
  exists y, In y (dispatched o) /\ id y = id x /\ ty y = ty x /\ f7 y = f7 x /\ den y = den x /\ dp y = dp x /\
    s1e y = s1e x /\ s1 y = s1 x /\ s2e y = s2e x /\ s2 y = s2 x /\
    (forall i, 0 <= i -> Z.testbit (brm y) i = Z.testbit (brm x) i && negb (Z.testbit (e_clear e) i)) /\
    robi y = (e_enq e * BANKS + j)%nat /\ robf y = e_robflag e.
Proof.
  intros e st o st' j x C [W1 W2] Hj F. destruct (cycle_facts _ _ _ _ C) as (p1 & rs & K); [congruence|].
  destruct (fires_p1 _ _ _ _ _ _ _ K F) as (a & Ha & V). rewrite (dispatched_is _ _ _ _ _ _ K). exists (ai a).
  destruct (k_slot _ _ _ _ _ _ K j a) as (v & y & E & V' & _ & I1 & I2 & I3 & I4 & I5 & I6 & I7 & I8 & I9 & I10 & I11).
  { rewrite nth_error_app1; [assumption|apply nth_error_Some; congruence]. }
  unfold holds in Hj. rewrite Hj in E. injection E as <- <-. destruct (k_attr _ _ _ _ _ _ K j a Ha) as (A1 & A2 & _).
  split; [apply in_map, filter_In; split; [eapply nth_error_In; eassumption|assumption]|].
  repeat split; try assumption. intros i Hi. rewrite I11. apply Z.ldiff_spec.
Qed.

(** *** Load/store queue allocation *)
Lemma sub_filter : forall (P : inst -> Prop) (b : aslot -> bool) l, (forall a, av a = true -> (b a = true <-> P (ai a))) -> (forall a, b a = true -> av a = true) ->
  sub P (map ai (filter av l)) (map ai (filter b l)).
Proof.
  intros P b l H Hb. induction l as [|a l IH]; cbn [filter map]; [constructor|]. destruct (av a) eqn:V.
  - destruct (b a) eqn:B; cbn [map]; constructor; try assumption; rewrite <- H by assumption; congruence.
  - destruct (b a) eqn:B; [rewrite (Hb _ B) in V; discriminate|exact IH].
Qed.
Lemma stp_writes : forall a, av a = true -> (stp a = true <-> writes_mem (ai a)).
Proof. intros a V. unfold stp. rewrite V. apply store_iff. Qed.
Lemma ldp_reads : forall a, av a = true -> (ldp a = true <-> reads_mem (ai a)).
Proof. intros a V. unfold ldp. rewrite V. apply load_iff. Qed.
Lemma stp_av : forall a, stp a = true -> av a = true. Proof. intros a H. unfold stp in H. apply andb_true_iff in H. tauto. Qed.
Lemma ldp_av : forall a, ldp a = true -> av a = true. Proof. intros a H. unfold ldp in H. apply andb_true_iff in H. tauto. Qed.
Lemma filter_nth : forall (P : aslot -> bool) l k x, nth_error (map ai (filter P l)) k = Some x ->
  exists i a, nth_error l i = Some a /\ P a = true /\ ai a = x /\ count P (firstn i l) = k.
Proof.
  intros P l k x H. rewrite nth_error_map in H. pose proof (idxs_filter P l k) as I. destruct (nth_error (idxs P 0 l) k) as [i|].
  - destruct I as (a & A1 & A2 & A3 & A4). rewrite A3 in H. injection H as <-. eauto 6.
  - rewrite I in H. discriminate.
Qed.
Lemma sub_fun : forall A (P : A -> Prop) l a b, sub P l a -> sub P l b -> a = b.
Proof.
  intros A P l a b Sa. revert b. induction Sa; intros b Sb; inversion Sb; subst; try contradiction; auto; f_equal; auto.
Qed.
(** The store queue is asked for consecutive entries starting at its tail, one per dispatched store in program order,
    within its free space; the wrap flag follows the ring. *)
Theorem c40_stq_allocation : forall e st o st', cycle e st = (o, st') -> wf st ->
  exists xs, sub writes_mem (dispatched o) xs /\ ports_are (o_stq o) xs /\ (length xs <= e_sfree e)%nat /\ (length xs <= W)%nat /\
    forall k x, nth_error xs k = Some x ->
      stqi x = ((e_stail e + k) mod STQ_SIZE)%nat /\ stqf x = xorb (e_stflag e) (Nat.odd ((e_stail e + k) / STQ_SIZE)).
Proof.
  intros e st o st' C [W1 W2]. destruct (cycle_facts _ _ _ _ C) as (p1 & rs & K); [congruence|].
  exists (map ai (filter stp p1)). rewrite (dispatched_is _ _ _ _ _ _ K).
  assert (A : forall k x, nth_error (map ai (filter stp p1)) k = Some x -> exists a i, ai a = x /\ stp a = true /\ attrs e i k (count ldp (firstn i p1)) a).
  { intros k x H. destruct (filter_nth _ _ _ _ H) as (i & a & I1 & I2 & I3 & I4). exists a, i. rewrite <- I4. split; [assumption|split; [assumption|apply (k_attr _ _ _ _ _ _ K i a I1)]]. }
  assert (L : forall n, (forall k x, nth_error (map ai (filter stp p1)) k = Some x -> (k < n)%nat) -> (length (map ai (filter stp p1)) <= n)%nat).
  { intros n H. destruct (length (map ai (filter stp p1))) as [|m] eqn:E; [lia|]. destruct (nth_error (map ai (filter stp p1)) m) as [x|] eqn:N; [specialize (H _ _ N); lia|apply nth_error_None in N; lia]. }
  split; [apply sub_filter; [exact stp_writes|exact stp_av]|]. split; [intros k; apply (k_stq _ _ _ _ _ _ K)|].
  split; [|split].
  - apply L. intros k x H. destruct (A _ _ H) as (a & i & _ & S & (_ & _ & B & _)). now apply B.
  - apply L. intros k x H. destruct (A _ _ H) as (a & i & _ & S & (_ & _ & B & _)). now apply B.
  - intros k x H. destruct (A _ _ H) as (a & i & <- & S & (_ & _ & _ & _ & B)). apply B. now left.
Qed.
(** The load queue is asked for the offered entries in order, one per dispatched load, and only for offered ones. *)
Theorem c40_ldq_allocation : forall e st o st', cycle e st = (o, st') -> wf st ->
  exists xs, sub reads_mem (dispatched o) xs /\ ports_are (o_ldq o) xs /\ (length xs <= e_lfree e)%nat /\ (length xs <= W)%nat /\
    forall k x, nth_error xs k = Some x -> e_lav e k = true /\ ldqi x = e_lai e k.
Proof.
  intros e st o st' C [W1 W2]. destruct (cycle_facts _ _ _ _ C) as (p1 & rs & K); [congruence|].
  exists (map ai (filter ldp p1)). rewrite (dispatched_is _ _ _ _ _ _ K).
  assert (A : forall k x, nth_error (map ai (filter ldp p1)) k = Some x -> exists a i, ai a = x /\ ldp a = true /\ attrs e i (count stp (firstn i p1)) k a).
  { intros k x H. destruct (filter_nth _ _ _ _ H) as (i & a & I1 & I2 & I3 & I4). exists a, i. rewrite <- I4. split; [assumption|split; [assumption|apply (k_attr _ _ _ _ _ _ K i a I1)]]. }
  assert (L : forall n, (forall k x, nth_error (map ai (filter ldp p1)) k = Some x -> (k < n)%nat) -> (length (map ai (filter ldp p1)) <= n)%nat).
  { intros n H. destruct (length (map ai (filter ldp p1))) as [|m] eqn:E; [lia|]. destruct (nth_error (map ai (filter ldp p1)) m) as [x|] eqn:N; [specialize (H _ _ N); lia|apply nth_error_None in N; lia]. }
  split; [apply sub_filter; [exact ldp_reads|exact ldp_av]|]. split; [intros k; apply (k_ldq _ _ _ _ _ _ K)|].
  split; [|split].
  - apply L. intros k x H. destruct (A _ _ H) as (a & i & _ & S & (_ & _ & _ & B & _)). now apply B.
  - apply L. intros k x H. destruct (A _ _ H) as (a & i & _ & S & (_ & _ & _ & B & _)). now apply B.
  - intros k x H. destruct (A _ _ H) as (a & i & <- & S & (_ & _ & _ & B & _)). destruct (B S) as (_ & _ & B3 & B4). auto.
Qed.
(** A dispatched load carries the store-queue position just after the older stores of its own cycle:
    forwarding looks at exactly the stores older than it. *)
Theorem c40_load_store_boundary : forall e st o st' l1 x l2 ys, cycle e st = (o, st') -> wf st ->
  dispatched o = l1 ++ x :: l2 -> reads_mem x -> sub writes_mem l1 ys ->
  stqi x = ((e_stail e + length ys) mod STQ_SIZE)%nat /\ stqf x = xorb (e_stflag e) (Nat.odd ((e_stail e + length ys) / STQ_SIZE)).
Proof.
  intros e st o st' l1 x l2 ys C [W1 W2] Dd Rx Sy. destruct (cycle_facts _ _ _ _ C) as (p1 & rs & K); [congruence|].
  rewrite (dispatched_is _ _ _ _ _ _ K) in Dd.
  assert (G : forall p l1, map ai (filter av p) = l1 ++ x :: l2 -> exists i a, nth_error p i = Some a /\ av a = true /\ ai a = x /\ map ai (filter av (firstn i p)) = l1).
  { clear. induction p as [|a p IH]; intros l1 E; [destruct l1; discriminate|]. cbn [filter] in E. destruct (av a) eqn:V.
    - destruct l1 as [|y l1]; cbn [map app] in E; injection E as E1 E2.
      + exists 0%nat, a. auto.
      + destruct (IH _ E2) as (i & b & B1 & B2 & B3 & B4). exists (S i), b. repeat split; try assumption. cbn [firstn filter]. rewrite V. cbn [map]. congruence.
    - destruct (IH _ E) as (i & b & B1 & B2 & B3 & B4). exists (S i), b. repeat split; try assumption. cbn [firstn filter]. now rewrite V. }
  destruct (G _ _ Dd) as (i & a & A1 & A2 & <- & A4). destruct (k_attr _ _ _ _ _ _ K i a A1) as (_ & _ & _ & _ & B).
  assert (E : ys = map ai (filter stp (firstn i p1))).
  { eapply sub_fun; [exact Sy|]. rewrite <- A4. apply sub_filter; [exact stp_writes|exact stp_av]. }
  rewrite E, map_length. apply B. right. now apply ldp_reads.
Qed.

(** *** Ready bits *)
(** In every reachable state, a source of a dispatched instruction is marked waiting exactly when its register's
    latest event - including this cycle's wakeups and the older instructions dispatched with it - is a dispatch
    of its producer rather than a wakeup. *)
Theorem c40_ready_bits_exact : forall st A D h e o st' l1 x l2, reach st A D h -> cycle e st = (o, st') ->
  dispatched o = l1 ++ x :: l2 ->
  (s1e x = true -> (s1b x = true <-> in_flight (h ++ map Woke (e_wake e) ++ dests l1) (s1 x))) /\
  (s2e x = true -> (s2b x = true <-> in_flight (h ++ map Woke (e_wake e) ++ dests l1) (s2 x))).
Proof.
  intros st A D h e o st' l1 x l2 R C Dd. destruct (reach_inv _ _ _ _ R) as ((W1 & W2) & _ & IB & IS).
  destruct (cycle_facts _ _ _ _ C) as (p1 & rs & K); [congruence|]. rewrite (dispatched_is _ _ _ _ _ _ K) in Dd.
  assert (G : forall p l1, map ai (filter av p) = l1 ++ x :: l2 -> exists i a, nth_error p i = Some a /\ av a = true /\ ai a = x /\ map ai (filter av (firstn i p)) = l1).
  { clear. induction p as [|a p IH]; intros l1 E; [destruct l1; discriminate|]. cbn [filter] in E. destruct (av a) eqn:V.
    - destruct l1 as [|y l1]; cbn [map app] in E; injection E as E1 E2.
      + exists 0%nat, a. auto.
      + destruct (IH _ E2) as (i & b & B1 & B2 & B3 & B4). exists (S i), b. repeat split; try assumption. cbn [firstn filter]. rewrite V. cbn [map]. congruence.
    - destruct (IH _ E) as (i & b & B1 & B2 & B3 & B4). exists (S i), b. repeat split; try assumption. cbn [firstn filter]. now rewrite V. }
  destruct (G _ _ Dd) as (i & a & A1 & A2 & <- & A4).
  assert (Hd : forall b, In b (firstn i p1) -> den (ai b) = true -> da (ai b) <> 0).
  { intros b I Db. apply In_nth_error in I as [j J]. assert (Jp : nth_error p1 j = Some b).
    { rewrite <- (firstn_skipn i p1). rewrite nth_error_app1; [assumption|apply nth_error_Some; congruence]. }
    destruct (k_slot _ _ _ _ _ _ K j b) as (v & y & E & _ & _ & _ & _ & _ & E1 & E2 & _); [rewrite nth_error_app1; [assumption|apply nth_error_Some; congruence]|].
    rewrite E2. apply (IS v y); [eapply nth_error_In; eassumption|congruence]. }
  assert (Hf : forall p, (exists b, In b (firstn i p1) /\ arv b = true /\ den (ai b) = true /\ dp (ai b) = p) <-> (exists y, In y l1 /\ den y = true /\ dp y = p)).
  { intros p. rewrite <- A4. split.
    - intros (b & I & Ar & Db & Pb). exists (ai b). repeat split; try assumption. apply in_map, filter_In. split; [assumption|].
      apply In_nth_error in I as [j J]. assert (Jp : nth_error p1 j = Some b).
      { rewrite <- (firstn_skipn i p1). rewrite nth_error_app1; [assumption|apply nth_error_Some; congruence]. }
      destruct (k_slot _ _ _ _ _ _ K j b) as (v & y & _ & V & X & _); [rewrite nth_error_app1; [assumption|apply nth_error_Some; congruence]|]. rewrite V. now apply X.
    - intros (y & I & Db & Pb). apply in_map_iff in I as (b & <- & I). apply filter_In in I as [I V]. exists b. repeat split; try assumption.
      apply In_nth_error in I as [j J]. assert (Jp : nth_error p1 j = Some b).
      { rewrite <- (firstn_skipn i p1). rewrite nth_error_app1; [assumption|apply nth_error_Some; congruence]. }
      apply (k_p1 _ _ _ _ _ _ K _ _ Jp V). }
  destruct (k_wake _ _ _ _ _ _ K i a A1 A2) as [E1 E2].
  split; intros En; [rewrite E1|rewrite E2]; rewrite wake_src_is by assumption; rewrite app_assoc, fl_dests, fl_wakes, IB, Hf; tauto.
Qed.

(** *** Every instruction accepted from rename is dispatched exactly once, in order, unless squashed here *)
Theorem c40_exactly_once_in_order : forall st A D h, reach st A D h -> A = D ++ ids (slots st).
Proof. intros st A D h R. now destruct (reach_inv _ _ _ _ R) as (_ & E & _). Qed.
(** Rename may send a new group exactly when every held instruction leaves and none of them is an atomic or WFI. *)
Theorem c40_ready_iff_drained : forall e st o st', cycle e st = (o, st') -> wf st ->
  (o_ready o = true <-> forall j x, holds st j x -> fires o j /\ ty x <> AMO /\ ty x <> WFI).
Proof.
  intros e st o st' C [W1 W2]. destruct (cycle_facts _ _ _ _ C) as (p1 & rs & K); [congruence|]. split.
  - intros R j x H. destruct (k_ready1 _ _ _ _ _ _ K R) as [-> B]. unfold holds in H.
    pose proof (k_len _ _ _ _ _ _ K) as L. rewrite (k_al _ _ _ _ _ _ K), app_nil_r in L.
    destruct (nth_error p1 j) as [a|] eqn:Ha; [|apply nth_error_None in Ha; assert (j < length (slots st))%nat by (apply nth_error_Some; congruence); lia].
    destruct (p1_slot _ _ _ _ _ _ _ _ K Ha) as (v & y & E & V & _ & T). rewrite H in E. injection E as <- <-.
    split; [eapply p1_fires; eassumption|]. specialize (B a (nth_error_In _ _ Ha) V). unfold barrier in B. rewrite T in B. split; intros Y; rewrite Y in B; discriminate.
  - intros H. destruct (o_ready o) eqn:R; [reflexivity|exfalso]. destruct (k_ready0 _ _ _ _ _ _ K R) as [(b & s' & E & V & _)|(a & I & V & B)].
    + assert (N : nth_error (p1 ++ rs) (length p1) = Some b) by (rewrite nth_error_app2, Nat.sub_diag, E by lia; reflexivity).
      destruct (k_slot _ _ _ _ _ _ K _ _ N) as (v & x & Hx & V' & _). destruct (H (length p1) x) as [F _]; [unfold holds; congruence|].
      destruct (fires_p1 _ _ _ _ _ _ _ K F) as (c & Hc & _). assert (length p1 < length p1)%nat by (apply nth_error_Some; congruence). lia.
    + apply In_nth_error in I as [j Hj]. destruct (p1_slot _ _ _ _ _ _ _ _ K Hj) as (v & x & E & V' & _ & T). destruct (H j x) as (_ & N1 & N2); [unfold holds; congruence|].
      unfold barrier in B. rewrite T in B. destruct (ty x); try discriminate; congruence.
Qed.

(** *** Completion accounting *)
Lemma expect_bits : forall x g, In g [0; 1; 2] -> (Z.testbit (expect_of x) g = true <-> exists q, needs q x /\ group_of x q = g).
Proof.
  intros x g G. unfold expect_of, needs, reads_mem, writes_mem, jumps, group_of, decompose, amo_op. rewrite !shr2.
  destruct (ty x) eqn:T; cbn [itype_beq andb fold_left fst cplt_of map];
  try (destruct (Z.eqb_spec (f7 x / 4) SC) as [Es|Es]; cbn [fold_left fst cplt_of]); try (destruct (Z.eqb_spec (f7 x / 4) LR) as [El|El]; cbn [fold_left fst cplt_of]);
  try (unfold SC, LR in *; lia);
  destruct G as [<-|[<-|[<-|[]]]]; (split; [intros B; try discriminate B|intros (q & N & H); try reflexivity; exfalso; destruct q; cbn in N, H; intuition (try discriminate; try congruence)]).
  all: try (exists IQ_INT; cbn; split; [repeat split; intros Z0; intuition discriminate|reflexivity]).
  all: try (exists IQ_BR; cbn; split; [tauto|reflexivity]).
  all: try (exists IQ_LD; cbn; split; [tauto|reflexivity]).
  all: try (exists IQ_STA; cbn; split; [tauto|reflexivity]).
  all: try (exists IQ_STD; cbn; split; [tauto|reflexivity]).
  all: try (exists IQ_STA; cbn; split; [right; split; [reflexivity|congruence]|reflexivity]).
  all: try (exists IQ_STD; cbn; split; [right; split; [reflexivity|congruence]|reflexivity]).
  all: try (exists IQ_LD; cbn; split; [right; split; [reflexivity|congruence]|reflexivity]).
Qed.
(** The ROB expects exactly the completion groups of the micro-operations sent out, and no two micro-operations of
    one instruction report in the same group: the instruction is complete when, and only when, all of them are. *)
Theorem c40_expected_completions : forall e st o st' j x, cycle e st = (o, st') -> wf st -> holds st j x -> fires o j ->
  (forall g, In g [0; 1; 2] -> (Z.testbit (nth j (o_expect o) 0) g = true <-> exists q, needs q x /\ group_of x q = g)) /\
  (forall q q', needs q x -> needs q' x -> group_of x q = group_of x q' -> q = q').
Proof.
  intros e st o st' j x C [W1 W2] Hj F. destruct (cycle_facts _ _ _ _ C) as (p1 & rs & K); [congruence|].
  destruct (fires_p1 _ _ _ _ _ _ _ K F) as (a & Ha & V). split.
  - intros g G. destruct (k_expect _ _ _ _ _ _ K) as (f & E & Lf & Hf).
    assert (N : nth_error (o_alloc o) j = Some a) by (rewrite (k_al _ _ _ _ _ _ K), nth_error_app1; [assumption|apply nth_error_Some; congruence]).
    assert (B : nth j (o_expect o) 0 = expect_of (ai a)).
    { rewrite E. specialize (Hf _ _ Ha V). clear - N Hf V Lf. revert j f N Hf Lf. induction (o_alloc o) as [|b l IH]; intros [|j] [|t f] N Hf Lf; try discriminate; cbn [nth_error nth combine map] in *.
      - injection N as ->. subst t. cbn [fst snd]. now rewrite V.
      - apply IH; auto. }
    rewrite B, expect_bits by assumption.
    destruct (k_slot _ _ _ _ _ _ K j a) as (v & y & Ey & _ & _ & _ & T & F7 & _); [rewrite nth_error_app1; [assumption|apply nth_error_Some; congruence]|].
    unfold holds in Hj. rewrite Hj in Ey. injection Ey as <- <-. unfold needs, reads_mem, writes_mem, jumps, group_of. rewrite T, F7. reflexivity.
  - intros q q' N N' G. unfold needs, reads_mem, writes_mem, jumps, group_of in *.
    destruct (ty x) eqn:T; cbn [itype_beq andb] in *; try (destruct (Z.eqb_spec (f7 x / 4) SC) as [Es|Es]);
    destruct q, q'; try reflexivity; try discriminate G; exfalso; intuition (try discriminate; try congruence).
Qed.

(** *** No needless stall *)
(** A held instruction whose older companions all leave without blocking it stays only for lack of a resource it needs. *)
Theorem c40_no_needless_stall : forall e st o st' j x, cycle e st = (o, st') -> wf st -> holds st j x -> ~ fires o j ->
  (forall i y, (i < j)%nat -> holds st i y -> fires o i /\ ty y <> AMO /\ ty y <> WFI) ->
  e_ready e = false \/ e_flush e = true \/ e_mispred e = true \/ e_stall e = true \/
  (In (ty x) [CSR; MRET; ECALL; EBREAK; AMO] /\ (e_empty e = false \/ exists i, (i < j)%nat /\ fires o i)) \/
  (exists ls, sub reads_mem (dispatched o) ls /\ reads_mem x /\ ((e_lfree e <= length ls)%nat \/ (W <= length ls)%nat \/ e_lav e (length ls) = false)) \/
  (exists ss, sub writes_mem (dispatched o) ss /\ writes_mem x /\ ((e_sfree e <= length ss)%nat \/ (W <= length ss)%nat)) \/
  (exists q us, needs q x /\ ports_are (o_req o q) us /\ ((W <= length us)%nat \/ (e_iqr e q <= length us)%nat)).
Proof.
  intros e st o st' j x C [W1 W2] Hj NF Old. destruct (cycle_facts _ _ _ _ C) as (p1 & rs & K); [congruence|].
  pose proof (k_len _ _ _ _ _ _ K) as L. rewrite (k_al _ _ _ _ _ _ K) in L.
  assert (Lj : (j < length (slots st))%nat) by (apply nth_error_Some; unfold holds in Hj; congruence).
  assert (Out : (length p1 <= j)%nat).
  { destruct (Nat.le_gt_cases (length p1) j) as [|G]; [assumption|exfalso]. destruct (nth_error p1 j) as [a|] eqn:Ha; [|apply nth_error_None in Ha; lia].
    destruct (p1_slot _ _ _ _ _ _ _ _ K Ha) as (v & y & E & V & _). unfold holds in Hj. rewrite Hj in E. injection E as <- <-. apply NF. eapply p1_fires; eassumption. }
  assert (Rd : o_ready o = false).
  { destruct (o_ready o) eqn:R; [|reflexivity]. exfalso. apply NF. apply (proj1 (c40_ready_iff_drained _ _ _ _ C (conj W1 W2)) R j x Hj). }
  destruct (k_ready0 _ _ _ _ _ _ K Rd) as [(b & s' & E & V & S & Ra)|(a & I & V & B)].
  2:{ exfalso. apply In_nth_error in I as [i Hi]. assert (i < length p1)%nat by (apply nth_error_Some; congruence).
      destruct (p1_slot _ _ _ _ _ _ _ _ K Hi) as (v & y & E & V' & _ & T). destruct (Old i y) as (_ & N1 & N2); [lia|unfold holds; congruence|].
      unfold barrier in B. rewrite T in B. destruct (ty y); try discriminate; congruence. }
  assert (N : nth_error (p1 ++ rs) (length p1) = Some b) by (rewrite nth_error_app2, Nat.sub_diag, E by lia; reflexivity).
  destruct (k_slot _ _ _ _ _ _ K _ _ N) as (v & y & Hy & V' & _ & _ & T & F7 & _).
  assert (J : j = length p1).
  { destruct (Nat.eq_dec j (length p1)) as [|Ne]; [assumption|exfalso]. destruct (Old (length p1) y) as [F _]; [lia|unfold holds; congruence|].
    destruct (fires_p1 _ _ _ _ _ _ _ K F) as (c & Hc & _). assert (length p1 < length p1)%nat by (apply nth_error_Some; congruence). lia. }
  subst j. unfold holds in Hj. rewrite Hj in Hy. injection Hy as _ <-.
  assert (RM : reads_mem (ai b) <-> reads_mem x) by (unfold reads_mem; rewrite T, F7; tauto).
  assert (WM : writes_mem (ai b) <-> writes_mem x) by (unfold writes_mem; rewrite T, F7; tauto).
  destruct S as [S|[S|[(S1 & S2)|[S|(q & Q1 & Q2)]]]].
  - auto.
  - unfold gflush in S. rewrite !orb_true_iff in S. tauto.
  - do 4 right. left. split.
    + unfold serial in S1. rewrite T in S1. destruct (ty x); try discriminate; cbn; tauto.
    + destruct S2 as [S2|(c & I & Vc)]; [auto|]. right. apply In_nth_error in I as [i Hi]. exists i. split; [apply nth_error_Some; congruence|eapply p1_fires; eassumption].
  - rewrite (dispatched_is _ _ _ _ _ _ K). destruct (Ra S) as [(X1 & X2)|(X1 & X2)].
    + do 5 right. left. exists (map ai (filter ldp p1)). rewrite map_length. split; [apply sub_filter; [exact ldp_reads|exact ldp_av]|]. split; [apply RM, ldp_reads; assumption|exact X2].
    + do 6 right. left. exists (map ai (filter stp p1)). rewrite map_length. split; [apply sub_filter; [exact stp_writes|exact stp_av]|]. split; [apply WM, stp_writes; assumption|exact X2].
  - do 7 right. exists q, (onq q (upss p1)). split; [|split; [intros k; apply (k_req _ _ _ _ _ _ K)|exact Q2]].
    destruct q; cbn [needs] in *; unfold jumps in *; rewrite ?T in Q1; tauto.
Qed.

(** *** Examples *)
Definition mki (i : Z) (t : itype) (g : Z) (d p a b : Z) : inst :=
  mkInst i t g (negb (d =? 0)) d p true a false true b false 1 0 false 0 false 0 0.
Definition e0 (ns : list (bool * inst)) : env :=
  mkEnv 5 false true true false 15 false 4 4 (fun _ => true) (fun k => Z.of_nat k + 7) (fun _ => 8%nat) [40] false false 2 ns.
Definition st1 : dis := mkDis [(true, mki 100 STORE 0 0 0 40 41); (true, mki 101 LOAD 0 9 50 41 0)] (fun p => p =? 40) [false; true] [[]; []].
(** A store and a load leave together: one entry each in STA, STD and LD, store at the last ring position, the load's boundary wraps. *)
Example c40_pair :
  let '(o, st') := cycle (e0 [(false, mki 0 NOP 0 0 0 0 0); (false, mki 0 NOP 0 0 0 0 0)]) st1 in
  o_fire o = [true; true] /\ o_ready o = true /\ option_map uid (o_req o IQ_STA 0%nat) = Some 100 /\ option_map uid (o_req o IQ_LD 0%nat) = Some 101 /\
  o_req o IQ_STD 1%nat = None /\ o_req o IQ_INT 0%nat = None /\ option_map stqi (o_stq o 0%nat) = Some 15%nat /\
  option_map (fun x => (stqi x, stqf x, ldqi x)) (o_ldq o 0%nat) = Some (0%nat, true, 7) /\ option_map us1b (o_req o IQ_STA 0%nat) = Some false /\
  busy st' 40 = false /\ busy st' 50 = true /\ o_expect o = [6; 1].
Proof. vm_compute. repeat split. Qed.
(** With no room in STD the store is rolled back out of STA and the load behind it waits. *)
Example c40_rollback :
  let e := e0 [] in
  let e' := mkEnv (e_enq e) false true true false 15 false 4 4 (e_lav e) (e_lai e) (fun q => match q with IQ_STD => 0%nat | _ => 8%nat end) [] false false 0 [] in
  let '(o, st') := cycle e' st1 in
  o_fire o = [false; false] /\ o_ready o = false /\ o_req o IQ_STA 0%nat = None /\ o_req o IQ_LD 0%nat = None /\ o_stq o 0%nat = None /\ ids (slots st') = [100; 101].
Proof. vm_compute. repeat split. Qed.
(** A consumer dispatched with its producer is marked waiting although the register's old value was ready. *)
Example c40_same_cycle_dependence :
  let st := mkDis [(true, mki 1 ADD 0 5 33 2 3); (true, mki 2 ADD 0 6 34 33 3)] (fun _ => false) [true; true] [[]; []] in
  let '(o, _) := cycle (e0 [(false, mki 0 NOP 0 0 0 0 0); (false, mki 0 NOP 0 0 0 0 0)]) st in
  map s1b (dispatched o) = [false; true] /\ in_flight ([] ++ map Woke [40] ++ dests [mki 1 ADD 0 5 33 2 3]) 33.
Proof. split; [vm_compute; reflexivity|]. exists [Woke 40], []. split; [reflexivity|intros []]. Qed.
(** An atomic waits for the ROB to drain and goes alone. *)
Example c40_atomic_alone :
  let st := mkDis [(true, mki 1 AMO 0 5 33 2 3); (true, mki 2 ADD 0 6 34 3 3)] (fun _ => false) [true; true] [[]; []] in
  let '(o, st') := cycle (e0 []) st in
  o_fire o = [true; false] /\ o_ready o = false /\ ids (slots st') = [2] /\ wf st /\
  option_map (fun u => (us1 u, us1b u)) (o_req o IQ_STD 0%nat) = Some (33, true) /\ o_expect o = [7; 1].
Proof. vm_compute. repeat split. Qed.
Example c40_reach_ex : exists st A D h, reach st A D h /\ A = [11; 12] /\ D = [11] /\ ids (slots st) = [12].
Proof.
  set (nn := (false, mki 0 NOP 0 0 0 0 0)).
  assert (R0 : reach (mkDis [nn; nn] (fun _ => false) [true; true] [[]; []]) [] [] []).
  { constructor; [|reflexivity|reflexivity]. intros v x [E|[E|[]]]; injection E as <- <-; auto. }
  set (e1 := e0 [(true, mki 11 AMO 0 5 33 2 3); (true, mki 12 ADD 0 6 34 3 3)]).
  assert (K1 : env_ok e1) by (split; [reflexivity|intros v x I _; destruct I as [E|[E|[]]]; injection E as <- <-; discriminate]).
  destruct (cycle e1 (mkDis [nn; nn] (fun _ => false) [true; true] [[]; []])) as [o1 t1] eqn:C1.
  assert (R1 := r_step _ _ _ _ e1 o1 t1 R0 K1 C1).
  set (e2 := e0 [nn; nn]).
  assert (K2 : env_ok e2) by (split; [reflexivity|intros v x I D; destruct I as [E|[E|[]]]; injection E as <- <-; discriminate D]). destruct (cycle e2 t1) as [o2 s2] eqn:C2.
  assert (R2 := r_step _ _ _ _ e2 o2 s2 R1 K2 C2).
  vm_compute in C1. injection C1 as <- <-. vm_compute in C2. injection C2 as <- <-. eexists _, _, _, _. split; [exact R2|]. vm_compute. repeat split.
Qed.

Print Assumptions c40_prefix.
Print Assumptions c40_gates.
Print Assumptions c40_serialised.
Print Assumptions c40_queue_requests_exact.
Print Assumptions c40_dispatched_fields.
Print Assumptions c40_stq_allocation.
Print Assumptions c40_ldq_allocation.
Print Assumptions c40_load_store_boundary.
Print Assumptions c40_ready_bits_exact.
Print Assumptions c40_exactly_once_in_order.
Print Assumptions c40_ready_iff_drained.
Print Assumptions c40_expected_completions.
Print Assumptions c40_no_needless_stall.
