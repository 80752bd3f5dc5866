(** The index queues of the load/store unit. *)
From Coq Require Import Permutation.
From Verif Require Import Base BaseLemmas Ring MemModel LsuModel.
Local Open Scope nat_scope.
Ltac Zify.zify_post_hook ::= Z.div_mod_to_equations.

Definition slots (q : queue) : list nat := map (slot q) (seq 0 (qn q)).
(** The valid members, oldest first. *)
Definition live (q : queue) : list nat := map (qi q) (filter (qv q) (slots q)).
Definition QI (q : queue) : Prop := qh q < 16 /\ qn q <= 16 /\ forall k, qv q k = true -> exists j, j < qn q /\ k = slot q j.
Lemma slot_lt q j : slot q j < 16. Proof. unfold slot. apply Nat.mod_upper_bound. lia. Qed.
Lemma slot_eq q i j : i < 16 -> j < 16 -> slot q i = slot q j -> i = j. Proof. intros. eapply (slot_inj 16 (qh q)); try lia; assumption. Qed.
Lemma in_slots q k : In k (slots q) <-> exists j, j < qn q /\ k = slot q j.
Proof. unfold slots. rewrite in_map_iff. split; intros (j & A & B); exists j; [apply in_seq in B; split; [lia|now symmetry]|split; [now symmetry|apply in_seq; lia]]. Qed.
Lemma nodup_map_in {A B} (f : A -> B) l : (forall x y, In x l -> In y l -> f x = f y -> x = y) -> NoDup l -> NoDup (map f l).
Proof.
  induction l as [|a t IH]; intros H ND; cbn; constructor; inversion ND; subst.
  - intros X. apply in_map_iff in X as (y & E & Y). assert (y = a) by (apply H; [now right|now left|exact E]). congruence.
  - apply IH; [|assumption]. intros x y X Y. apply H; now right.
Qed.
Lemma slots_nodup q : qn q <= 16 -> NoDup (slots q).
Proof.
  intros N. apply nodup_map_in; [|apply seq_NoDup]. intros x y X Y E. apply in_seq in X, Y. apply (slot_eq q); try lia; exact E.
Qed.
Lemma live_in q i : In i (live q) <-> exists k, In k (slots q) /\ qv q k = true /\ qi q k = i.
Proof.
  unfold live. rewrite in_map_iff. split.
  - intros (k & A & B). apply filter_In in B as [B C]. exists k. tauto.
  - intros (k & A & B & C). exists k. split; [exact C|]. apply filter_In. tauto.
Qed.
Lemma filter_len {A} (f : A -> bool) l : length (filter f l) <= length l.
Proof. induction l as [|a t IH]; cbn; [lia|]. destruct (f a); cbn; lia. Qed.
Lemma live_len q : length (live q) <= qn q.
Proof.
  unfold live. rewrite map_length. etransitivity; [apply filter_len|]. unfold slots. now rewrite map_length, seq_length.
Qed.
Lemma filter_ext_in' {A} (f g : A -> bool) l : (forall x, In x l -> f x = g x) -> filter f l = filter g l.
Proof. apply filter_ext_in. Qed.
Lemma live_ext q q' : qh q' = qh q -> qn q' = qn q -> (forall k, In k (slots q) -> qv q' k = qv q k /\ (qv q k = true -> qi q' k = qi q k)) -> live q' = live q.
Proof.
  intros A B H. unfold live. assert (S : slots q' = slots q) by (unfold slots, slot; now rewrite A, B). rewrite S.
  rewrite (filter_ext_in' _ (qv q) _ (fun x X => proj1 (H x X))). apply map_ext_in. intros k K. apply filter_In in K as [K1 K2]. now apply H.
Qed.

Lemma enq_spec q i : QI q -> qn q < 16 -> QI (enq q i) /\ live (enq q i) = live q ++ [i].
Proof.
  intros (A & B & C) N. split.
  - split; [exact A|]. split; [cbn; lia|]. intros k K. cbn [enq qv] in K. unfold fupd in K. destruct (Nat.eqb_spec k (slot q (qn q))) as [EK|NE]; [subst k|].
    + exists (qn q). split; [cbn; lia|reflexivity].
    + destruct (C k K) as (j & J & EK); subst k. exists j. split; [cbn; lia|reflexivity].
  - unfold live. assert (S : slots (enq q i) = slots q ++ [slot q (qn q)]).
    { unfold slots. cbn [qn enq]. rewrite seq_S, map_app. reflexivity. }
    rewrite S, filter_app, map_app. f_equal.
    + assert (NI : forall x, In x (slots q) -> x <> slot q (qn q)).
      { intros x X ->. apply in_slots in X as (j & J & E). apply slot_eq in E; lia. }
      rewrite (filter_ext_in' _ (qv q)); [|intros x X; cbn [enq qv]; now rewrite fupd_ne by now apply NI].
      apply map_ext_in. intros k K. apply filter_In in K as [K _]. cbn [enq qi]. now rewrite fupd_ne by now apply NI.
    + cbn [filter enq qv]. rewrite fupd_eq. cbn. now rewrite fupd_eq.
Qed.
Lemma perm_cons_mid {A} (a : A) l1 l2 : Permutation (l1 ++ a :: l2) (a :: l1 ++ l2). Proof. symmetry. apply Permutation_middle. Qed.
Lemma kill_spec q k : QI q -> qv q k = true -> QI (kill q k) /\ Permutation (live q) (qi q k :: live (kill q k)) /\ slots (kill q k) = slots q /\ (forall j, qi (kill q k) j = qi q j).
Proof.
  intros (A & B & C) V. split; [|split; [|split; [reflexivity|reflexivity]]].
  - split; [exact A|]. split; [exact B|]. intros j J. cbn [kill qv] in J. unfold fupd in J. destruct (Nat.eqb_spec j k); [discriminate|]. destruct (C j J) as (x & X & EK); subst j. exists x. tauto.
  - assert (IK : In k (slots q)) by (apply in_slots; exact (C k V)). pose proof (slots_nodup q B) as ND. destruct (in_split _ _ IK) as (l1 & l2 & E).
    unfold live. change (slots (kill q k)) with (slots q). rewrite E in *. apply NoDup_remove_2 in ND.
    rewrite !filter_app. cbn [filter kill qv qi]. rewrite fupd_eq, V.
    rewrite (filter_ext_in' (fupd (qv q) k false) (qv q) l1), (filter_ext_in' (fupd (qv q) k false) (qv q) l2);
      try (intros x X; apply fupd_ne; intros ->; apply ND; apply in_or_app; tauto).
    rewrite !map_app. cbn [map]. apply perm_cons_mid.
Qed.
Lemma kill_dead q k : QI q -> qv q k = false -> live (kill q k) = live q /\ QI (kill q k).
Proof.
  intros (A & B & C) V. split.
  - apply live_ext; try reflexivity. intros j _. cbn [kill qv qi]. unfold fupd. destruct (Nat.eqb_spec j k) as [->|]; [now rewrite V|tauto].
  - split; [exact A|]. split; [exact B|]. intros j J. cbn [kill qv] in J. unfold fupd in J. destruct (Nat.eqb_spec j k); [discriminate|]. destruct (C j J) as (x & X & EK); subst j. exists x. tauto.
Qed.
Lemma deq_spec q : QI q -> 0 < qn q -> qv q (qh q) = false -> QI (deq q) /\ live (deq q) = live q.
Proof.
  intros (A & B & C) N V. split.
  - split; [cbn [deq qh]; apply Nat.mod_upper_bound; lia|]. split; [cbn; lia|]. intros k K. cbn [deq qv] in K. unfold fupd in K. destruct (Nat.eqb_spec k (qh q)) as [EK|NE]; [discriminate|].
    destruct (C k K) as (j & J & EK); subst k. destruct j as [|j]; [exfalso; apply NE; unfold slot; rewrite Nat.add_0_r; now apply Nat.mod_small|].
    exists j. split; [cbn; lia|]. unfold slot. cbn [deq qh]. lia.
  - destruct q as [v i h n]. cbn [qv qi qh qn] in *. destruct n as [|n]; [lia|]. unfold live, slots. cbn [deq qn pred qi qv qh].
    cbn [seq map]. assert (S0 : slot (Qu v i h (S n)) 0 = h) by (unfold slot; cbn; rewrite Nat.add_0_r; exact (Nat.mod_small h 16 A)).
    rewrite S0. cbn [filter]. rewrite V.
    assert (SE : map (slot (Qu v i h (S n))) (seq 1 n) = map (slot (Qu (fupd v h false) i ((h + 1) mod 16) n)) (seq 0 n)).
    { rewrite <- seq_shift, map_map. apply map_ext. intros j. unfold slot. cbn [qh]. lia. }
    rewrite SE. f_equal. apply filter_ext_in'. intros x X. unfold fupd. destruct (Nat.eqb_spec x h) as [->|]; [now rewrite V|reflexivity].
Qed.
Lemma pop_spec n : forall q, QI q -> n <= qn q -> QI (pop_invalid n q) /\ live (pop_invalid n q) = live q /\ qn (pop_invalid n q) <= qn q.
Proof.
  induction n as [|n IH]; intros q Q N; cbn [pop_invalid]; [auto|]. destruct (qv q (qh q)) eqn:V; [auto|].
  destruct (deq_spec q Q ltac:(lia) V) as [A B]. destruct (IH (deq q) A ltac:(cbn; lia)) as (C & D & E). split; [exact C|]. split; [congruence|]. cbn in E. lia.
Qed.
Lemma wipe_spec q : QI q -> QI (wipe q) /\ live (wipe q) = [].
Proof. intros (A & B & C). split; [|reflexivity]. split; [exact A|]. split; [cbn; lia|]. intros k K. discriminate. Qed.
(** Purging: what remains are the members that are not dead. *)
Lemma purge_gen (dead : nat -> bool) ks : forall q, QI q -> NoDup ks -> let q' := fold_left (fun q k => if dead (qi q k) then kill q k else q) ks q in
  QI q' /\ qh q' = qh q /\ qn q' = qn q /\ (forall k, qi q' k = qi q k) /\ (forall k, qv q' k = qv q k && negb (existsb (Nat.eqb k) ks && dead (qi q k))).
Proof.
  induction ks as [|a t IH]; intros q Q ND; cbn [fold_left existsb].
  - split; [exact Q|]. repeat split. intros k. cbn. now rewrite andb_true_r.
  - inversion ND as [|? ? NA NT]; subst. cbv zeta.
    assert (QQ : QI (if dead (qi q a) then kill q a else q)).
    { destruct (dead (qi q a)); [|exact Q]. destruct (qv q a) eqn:V; [apply kill_spec; assumption|now apply kill_dead]. }
    destruct (IH _ QQ NT) as (A & B & C & D & E). split; [exact A|].
    assert (X : qh (if dead (qi q a) then kill q a else q) = qh q /\ qn (if dead (qi q a) then kill q a else q) = qn q /\ (forall k, qi (if dead (qi q a) then kill q a else q) k = qi q k)).
    { destruct (dead _); repeat split. }
    destruct X as (X1 & X2 & X3). split; [congruence|]. split; [congruence|]. split; [intros k; rewrite D; apply X3|].
    intros k. rewrite E, X3. destruct (Nat.eqb_spec k a) as [->|NE]; cbn [orb].
    + assert (EX : existsb (Nat.eqb a) t = false).
      { destruct (existsb (Nat.eqb a) t) eqn:EX; [|reflexivity]. apply existsb_exists in EX as (x & Y & Z). apply Nat.eqb_eq in Z. subst. contradiction. }
      rewrite EX. cbn [andb negb]. rewrite andb_true_r. destruct (dead (qi q a)); cbn [kill qv]; [rewrite fupd_eq; now rewrite andb_false_r|now rewrite andb_true_r].
    + destruct (dead (qi q a)); cbn [kill qv]; [now rewrite fupd_ne|reflexivity].
Qed.
Lemma purge_spec dead q : QI q -> QI (purge dead q) /\ live (purge dead q) = filter (fun i => negb (dead i)) (live q) /\ qn (purge dead q) = qn q.
Proof.
  intros Q. pose proof Q as (A & B & C). unfold purge. fold (slots q).
  destruct (purge_gen dead (slots q) q Q (slots_nodup q B)) as (D & E & F & G & H). cbv zeta in *. set (q' := fold_left _ _ _) in *.
  split; [exact D|]. split; [|exact F]. unfold live. assert (S : slots q' = slots q) by (unfold slots, slot; now rewrite E, F). rewrite S.
  assert (M : forall l, (forall x, In x l -> In x (slots q)) -> map (qi q') (filter (qv q') l) = filter (fun i => negb (dead i)) (map (qi q) (filter (qv q) l))).
  { induction l as [|a t IH]; intros SUB; [reflexivity|]. cbn [filter map]. rewrite H.
    assert (EX : existsb (Nat.eqb a) (slots q) = true) by (apply existsb_exists; exists a; split; [apply SUB; now left|apply Nat.eqb_refl]). rewrite EX. cbn [andb].
    specialize (IH (fun x X => SUB x (or_intror X))). destruct (qv q a); cbn [andb map filter]; [|exact IH].
    destruct (dead (qi q a)) eqn:DD; cbn [negb map]; [exact IH|]. now rewrite G, IH. }
  apply M. auto.
Qed.
(** The deferred pops of comb_stlf. *)
Lemma iter_r {A} (f : A -> A) n : forall x, Nat.iter (S n) f x = Nat.iter n f (f x).
Proof. induction n as [|n IH]; intros x; [reflexivity|]. change (f (Nat.iter (S n) f x) = f (Nat.iter n f (f x))). now rewrite IH. Qed.
Lemma iter_deq n : forall q, QI q -> n <= qn q -> (forall j, j < n -> qv q (slot q j) = false) -> QI (Nat.iter n deq q) /\ live (Nat.iter n deq q) = live q /\ qn (Nat.iter n deq q) = qn q - n.
Proof.
  induction n as [|n IH]; intros q Q N V; [cbn; rewrite Nat.sub_0_r; auto|].
  rewrite iter_r. assert (V0 : qv q (qh q) = false).
  { specialize (V 0 ltac:(lia)). unfold slot in V. rewrite Nat.add_0_r, Nat.mod_small in V by apply Q. exact V. }
  destruct (deq_spec q Q ltac:(lia) V0) as [A B]. destruct (IH (deq q) A ltac:(cbn; lia)) as (C & D & E).
  - intros j J. cbn [deq qv]. unfold fupd. destruct (Nat.eqb_spec (slot (deq q) j) (qh q)); [reflexivity|].
    specialize (V (S j) ltac:(lia)). unfold slot in V |- *. cbn [deq qh]. now replace (((qh q + 1) mod 16 + j) mod 16) with ((qh q + S j) mod 16) by lia.
  - split; [exact C|]. split; [congruence|]. rewrite E. cbn. lia.
Qed.
Lemma in_window q k : In k (window q) -> In k (slots q).
Proof. unfold window. intros H. apply in_map_iff in H as (j & <- & J). apply in_seq in J. apply in_slots. exists j. split; [lia|reflexivity]. Qed.
Lemma window_nodup q : QI q -> NoDup (window q).
Proof.
  intros (_ & B & _). apply nodup_map_in; [|apply seq_NoDup]. intros x y X Y E. apply in_seq in X, Y. apply (slot_eq q); try lia; exact E.
Qed.
