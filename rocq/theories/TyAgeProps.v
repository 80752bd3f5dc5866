(** C65, continued: the counters and the replacement of the type predictor. *)
From Verif Require Import Base BaseLemmas BpModel TyModel TySpec TyProofs TyProps.
From Coq Require Import Lia.
Local Open Scope Z_scope.

(** The two-bit counters do not overflow, and the age always equals the
    confidence: an entry does not grow old by not being used. *)
Theorem c65_counters h t b x w : yreach h t -> let e := t b x w in
  0 <= te_conf e <= 3 /\ te_age e = te_conf e /\ (te_valid e = true <-> te_conf e <> 0).
Proof.
  intros R. revert w. induction R as [|h t us R IH]; intros w; [cbn; repeat split; try lia; intros H; lia || discriminate|].
  cbv zeta in *. rewrite cycle_set.
  assert (G: forall l e, (forall w, 0 <= te_conf (e w) <= 3 /\ te_age (e w) = te_conf (e w) /\ (te_valid (e w) = true <-> te_conf (e w) <> 0)) ->
    forall w, 0 <= te_conf (fold_left (swrite (t b x)) l e w) <= 3 /\ te_age (fold_left (swrite (t b x)) l e w) = te_conf (fold_left (swrite (t b x)) l e w) /\
      (te_valid (fold_left (swrite (t b x)) l e w) = true <-> te_conf (fold_left (swrite (t b x)) l e w) <> 0)).
  { clear w us. induction l as [|[k ty] l IHl]; intros e H w; [apply H|]. cbn [fold_left]. apply IHl. intros v.
    unfold swrite, ty_update. cbn [fst snd].
    assert (I: forall n, 0 <= n <= 3 -> 0 <= ty_inc n <= 3 /\ ty_inc n <> 0) by (intros n N; unfold ty_inc, TYMAX; destruct (Z.leb_spec 3 n); lia).
    destruct (ty =? BR_NONCTL); destruct (ty_hit (t b x) k) as [w'|]; try apply H; unfold wset; destruct (v =? _)%nat; try apply H; cbn; try (repeat split; lia || discriminate || (intros C; lia || discriminate || congruence)).
    destruct (IH w') as (A & B & C). destruct (_ =? ty); cbn; [|repeat split; lia || discriminate].
    destruct (I _ A). rewrite B. repeat split; try lia. }
  apply (G (of_set b x us) (t b x)). exact IH.
Qed.
(** An instruction is forgotten only for another one in a full set, and only if
    the other entry of the set is at least as sure. *)
Theorem c65_evicted h t q ty pc : yreach h t ->
  ty_of (ty_predict t pc) <> BR_NONCTL -> ty_of (ty_predict (ty_cycle t [(q, ty)]) pc) = BR_NONCTL -> ~ same_key q pc ->
  same_set q pc /\ ty <> BR_NONCTL /\
  exists w, (w < 2)%nat /\ te_tag (t (ty_bank pc) (ty_set pc) w) = ty_tag pc /\
    forall w', (w' < 2)%nat -> let e' := t (ty_bank pc) (ty_set pc) w' in
      te_valid e' = true /\ te_tag e' <> ty_tag q /\ te_conf (t (ty_bank pc) (ty_set pc) w) <= te_conf e'.
Proof.
  intros R P0 P1 NK. pose proof (reach_uniq _ _ R (ty_bank pc) (ty_set pc)) as U.
  set (E := t (ty_bank pc) (ty_set pc)) in *.
  destruct (mt_dec E (ty_tag pc)) as [(w & L & M)|N]; [|exfalso; apply P0; unfold ty_predict; fold E; now rewrite (sel_miss _ _ N)].
  assert (VT: te_valid (E w) = true /\ te_tag (E w) = ty_tag pc).
  { unfold mt, ty_matches in M. apply andb_true_iff in M. destruct M as [M1 M2]. apply Z.eqb_eq in M2. now split. }
  rewrite predict_cycle in P1. fold E in P1.
  unfold of_set in P1. cbn [filter map fst snd] in P1.
  destruct ((ty_bank q =? ty_bank pc)%nat && (ty_set q =? ty_set pc)) eqn:S.
  2:{ exfalso. apply P0. unfold ty_predict. fold E. exact P1. }
  apply andb_true_iff in S. destruct S as [S1 S2]. apply Nat.eqb_eq in S1. apply Z.eqb_eq in S2.
  assert (SS: same_set q pc) by (apply same_set_iff; now split). split; [exact SS|].
  assert (NT: ty_tag q <> ty_tag pc) by (intros X; apply NK, same_key_iff; split; [now apply same_set_iff|exact X]).
  cbn [map fst snd] in P1.
  assert (SE: scycle E [(ty_tag q, ty)] = swrite E E (ty_tag q, ty)) by reflexivity.
  assert (KEEP: (forall v, swrite E E (ty_tag q, ty) v = E v \/ v <> w) -> False).
  { intros K. assert (M': mt (scycle E [(ty_tag q, ty)]) w (ty_tag pc)).
    { unfold mt. rewrite SE. destruct (K w) as [->|C]; [exact M|congruence]. }
    rewrite (sel_hit _ _ w (scycle_uniq E _ U) L M') in P1. unfold ty_of in P1. cbn [fst] in P1. rewrite SE in P1.
    destruct (K w) as [C|C]; [rewrite C in P1|congruence]. apply P0. unfold ty_predict. fold E. rewrite (sel_hit _ _ w U L M). exact P1. }
  destruct (ty_hit E (ty_tag q)) as [w1|] eqn:H.
  { exfalso. apply KEEP. intros v. unfold swrite. cbn [fst snd].
    assert (NW: w1 <> w).
    { intros ->. destruct (hit_some _ _ _ H) as [_ M2]. unfold mt, ty_matches in M2. apply andb_true_iff in M2. destruct M2 as [_ M2].
      apply Z.eqb_eq in M2. destruct VT. congruence. }
    unfold ty_update. rewrite H. destruct (ty =? BR_NONCTL); unfold wset; destruct (Nat.eqb_spec v w1) as [->|]; auto. }
  assert (TN: ty <> BR_NONCTL).
  { intros ->. apply KEEP. intros v. left. unfold swrite, ty_update. cbn [fst snd]. now rewrite Z.eqb_refl, H. }
  split; [exact TN|].
  assert (VW: ty_victim E = w).
  { destruct (Nat.eq_dec (ty_victim E) w) as [X|X]; [exact X|]. exfalso. apply KEEP. intros v. unfold swrite, ty_update. cbn [fst snd]. rewrite H.
    destruct (Z.eqb_spec ty BR_NONCTL); [now left|]. unfold wset. destruct (Nat.eqb_spec v (ty_victim E)) as [->|]; auto. }
  assert (FULL: forall w', (w' < 2)%nat -> te_valid (E w') = true).
  { intros w' L'. destruct (te_valid (E w')) eqn:V; [reflexivity|]. pose proof (victim_empty E w' L' V) as X. rewrite VW in X. destruct VT. congruence. }
  exists w. split; [exact L|]. split; [apply VT|]. intros w' L' e'. subst e'. split; [now apply FULL|]. split.
  - intros X. apply (hit_none E (ty_tag q) w' H L'). unfold mt, ty_matches. rewrite FULL, X, Z.eqb_refl by exact L'. reflexivity.
  - pose proof (c65_counters h t (ty_bank pc) (ty_set pc) w R) as (_ & A & _). pose proof (c65_counters h t (ty_bank pc) (ty_set pc) w' R) as (_ & A' & _).
    fold E in A, A'. rewrite <- A, <- A'. unfold ty_victim in VW.
    destruct (find _ _) as [w2|] eqn:F.
    { apply find_some in F. destruct F as [I F]. apply in_seq in I. unfold TYW in I. rewrite FULL in F by lia. discriminate. }
    unfold TYW in VW. cbn [seq fold_left Nat.sub fst snd] in VW.
    destruct (Z.ltb_spec (te_age (E 1%nat)) (te_age (E 0%nat))); cbn [fst] in VW; subst w;
      assert (C: w' = 0%nat \/ w' = 1%nat) by lia; destruct C as [-> | ->]; lia.
Qed.
Example c65_age_ex : let t := fold_right (fun us t => ty_cycle t us) ttab0 [[(4608, BR_CALL)]; [(4096, BR_DIRECT)]; [(4096, BR_DIRECT)]] in
  (te_conf (t 0%nat 0 0%nat), te_age (t 0%nat 0 0%nat), te_conf (t 0%nat 0 1%nat)) = (2, 2, 1) /\
  ty_of (ty_predict (ty_cycle t [(5120, BR_JAL)]) 4608) = BR_NONCTL.
Proof. split; vm_compute; reflexivity. Qed.

Print Assumptions c65_counters.
Print Assumptions c65_evicted.
