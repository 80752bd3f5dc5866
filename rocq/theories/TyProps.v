(** C65: the type predictor. *)
From Verif Require Import Base BaseLemmas BpModel TyModel TySpec TyProofs.
From Coq Require Import Lia.
Local Open Scope Z_scope.

Definition ty_of (p : Z * bool * bool) : Z := fst (fst p).

Lemma sel_hit e k w : uniq e -> (w < 2)%nat -> mt e w k -> ty_select e k = (te_type (e w), true, TYMAX <=? te_conf (e w)).
Proof. intros U L M. unfold ty_select. now rewrite (hit_is e k w U L M). Qed.
Lemma sel_miss e k : (forall w, (w < 2)%nat -> ~ mt e w k) -> ty_select e k = (BR_NONCTL, false, false).
Proof. intros N. unfold ty_select. destruct (ty_hit e k) as [w|] eqn:H; [|reflexivity]. destruct (hit_some _ _ _ H) as [L M]. destruct (N w L M). Qed.
Lemma mt_dec e k : (exists w, (w < 2)%nat /\ mt e w k) \/ forall w, (w < 2)%nat -> ~ mt e w k.
Proof. destruct (ty_hit e k) as [w|] eqn:H; [left; exists w; exact (hit_some _ _ _ H)|right; intros w L; exact (hit_none _ _ w H L)]. Qed.

(** A control-flow prediction repeats what the latest cycle that updated this
    instruction's key said about it. *)
Theorem c65_origin h t pc : yreach h t -> ty_of (ty_predict t pc) <> BR_NONCTL ->
  exists later us earlier, h = later ++ us :: earlier /\ settles us pc (ty_of (ty_predict t pc)) /\
    forall us', In us' later -> untouched us' pc.
Proof.
  induction 1 as [|h t us R IH]; [intros []; reflexivity|]. rewrite predict_cycle.
  set (E := t (ty_bank pc) (ty_set pc)) in *. set (l := of_set (ty_bank pc) (ty_set pc) us).
  pose proof (reach_uniq _ _ R (ty_bank pc) (ty_set pc)) as U. fold E in U.
  destruct (mt_dec (scycle E l) (ty_tag pc)) as [(w & L & M)|N]; [|rewrite (sel_miss _ _ N); intros []; reflexivity].
  rewrite (sel_hit _ _ w (scycle_uniq E l U) L M). cbn [ty_of fst].
  destruct (scycle_origin E l w _ U L M) as [[A B]|(_ & l1 & ty & l2 & D & N & T & F & _)].
  - rewrite A. unfold mt in M. rewrite A in M. fold (mt E w (ty_tag pc)) in M.
    assert (P: ty_of (ty_predict t pc) = te_type (E w)) by (unfold ty_predict; fold E; now rewrite (sel_hit _ _ w U L M)).
    rewrite P in IH. intros NN. destruct (IH NN) as (later & us0 & earlier & H1 & H2 & H3).
    exists (us :: later), us0, earlier. split; [now rewrite H1|]. split; [exact H2|].
    intros us' [<-|I]; [|now apply H3]. intros q y I K. apply (B y). apply in_of_set. now exists q.
  - intros _. exists [], us, h. split; [reflexivity|]. split; [|intros us' []]. rewrite T. exact (split_of_set us pc l1 ty l2 D F).
Qed.
(** An instruction has at most one entry. *)
Theorem c65_one_entry h t b x w w' : yreach h t -> (w < 2)%nat -> (w' < 2)%nat ->
  te_valid (t b x w) = true -> te_valid (t b x w') = true -> te_tag (t b x w) = te_tag (t b x w') -> w = w'.
Proof.
  intros R L L' V V' T. apply (proj1 (reach_uniq _ _ R b x) w w' (te_tag (t b x w)) L L').
  - unfold mt, ty_matches. now rewrite V, Z.eqb_refl.
  - unfold mt, ty_matches. now rewrite V', T, Z.eqb_refl.
Qed.

Lemma of_set_none us pc : (forall q y, In (q, y) us -> ~ same_set q pc) -> of_set (ty_bank pc) (ty_set pc) us = [].
Proof.
  intros H. unfold of_set. replace (filter _ us) with (@nil (Z * Z)); [reflexivity|]. symmetry.
  induction us as [|[q y] us IH]; [reflexivity|]. cbn [filter fst].
  destruct ((ty_bank q =? ty_bank pc)%nat && (ty_set q =? ty_set pc)) eqn:M; [|apply IH; intros q' y' I; apply (H q' y'); now right].
  exfalso. apply (H q y (or_introl eq_refl)). apply same_set_iff. apply andb_true_iff in M. destruct M as [M1 M2].
  apply Nat.eqb_eq in M1. apply Z.eqb_eq in M2. now split.
Qed.
Lemma of_set_app a b n x : of_set n x (a ++ b) = of_set n x a ++ of_set n x b.
Proof. unfold of_set. now rewrite filter_app, map_app. Qed.
Lemma of_set_single a p ty b pc : same_set p pc ->
  (forall q y, In (q, y) (a ++ b) -> ~ same_set q pc) -> of_set (ty_bank pc) (ty_set pc) (a ++ (p, ty) :: b) = [(ty_tag p, ty)].
Proof.
  intros S H. rewrite of_set_app. rewrite (of_set_none a pc) by (intros q y I; apply (H q y); apply in_or_app; now left).
  change ((p, ty) :: b) with ([(p, ty)] ++ b). rewrite of_set_app, (of_set_none b pc) by (intros q y I; apply (H q y); apply in_or_app; now right).
  apply same_set_iff in S. destruct S as [S1 S2]. unfold of_set. cbn [filter fst]. rewrite S1, S2, Nat.eqb_refl, Z.eqb_refl. reflexivity.
Qed.

(** Updates elsewhere do not change a prediction. *)
Theorem c65_frame t us pc : (forall q y, In (q, y) us -> ~ same_set q pc) -> ty_predict (ty_cycle t us) pc = ty_predict t pc.
Proof. intros H. rewrite predict_cycle, (of_set_none us pc H). reflexivity. Qed.

Lemma set_single E k ty k' : uniq E ->
  (k' = k \/ ty = BR_NONCTL \/ ty_hit E k <> None \/ exists w, (w < 2)%nat /\ te_valid (E w) = false) ->
  ty_of (ty_select (scycle E [(k, ty)]) k') = if k' =? k then ty else ty_of (ty_select E k').
Proof.
  intros U C. pose proof (scycle_uniq E [(k, ty)] U) as U'.
  assert (SE: scycle E [(k, ty)] = swrite E E (k, ty)) by reflexivity. unfold swrite in SE. cbn [fst snd] in SE.
  destruct (update_cases E k ty) as [(T & H & W)|[(T & H & W)|(T & c & a & W & HC)]]; rewrite W in SE; rewrite SE in *.
  - destruct (Z.eqb_spec k' k) as [->|N]; [|reflexivity]. rewrite sel_miss; [now rewrite T|intros w L; exact (hit_none _ _ w H L)].
  - destruct (ty_hit E k) as [w|] eqn:HH; [|congruence]. destruct (hit_some _ _ _ HH) as [L M].
    assert (WF: way_for E k = w) by (unfold way_for; now rewrite HH). rewrite WF in *.
    destruct (Z.eqb_spec k' k) as [->|N].
    + rewrite sel_miss; [now rewrite T|]. intros w' L'. unfold mt, wset. destruct (Nat.eqb_spec w' w) as [E0|N0]; [discriminate|].
      intros M'. apply N0. exact (proj1 U w' w k L' L M' M).
    + f_equal. unfold ty_select.
      assert (HE: ty_hit (wset E w tent0) k' = ty_hit E k').
      { destruct (ty_hit E k') as [w'|] eqn:H'.
        - destruct (hit_some _ _ _ H') as [L' M']. apply (hit_is _ _ _ U' L'). unfold mt, wset.
          destruct (Nat.eqb_spec w' w) as [->|N0]; [|exact M']. unfold mt, ty_matches in M, M'.
          apply andb_true_iff in M, M'. destruct M as [_ M], M' as [_ M']. apply Z.eqb_eq in M, M'. congruence.
        - destruct (ty_hit (wset E w tent0) k') as [w'|] eqn:H2; [|reflexivity]. destruct (hit_some _ _ _ H2) as [L' M'].
          unfold mt, wset in M'. destruct (Nat.eqb_spec w' w) as [E0|N0]; [discriminate|]. destruct (hit_none _ _ w' H' L' M'). }
      rewrite HE. destruct (ty_hit E k') as [w'|] eqn:H'; [|reflexivity]. unfold wset. destruct (Nat.eqb_spec w' w) as [->|]; [|reflexivity].
      destruct (hit_some _ _ _ H') as [_ M']. unfold mt, ty_matches in M, M'.
      apply andb_true_iff in M, M'. destruct M as [_ M], M' as [_ M']. apply Z.eqb_eq in M, M'. congruence.
  - set (w := way_for E k) in *. assert (L: (w < 2)%nat) by apply way_lt.
    assert (MW: mt (wset E w (TEnt true k ty c a)) w k) by (unfold mt, wset, ty_matches; rewrite Nat.eqb_refl; cbn; apply Z.eqb_refl).
    destruct (Z.eqb_spec k' k) as [->|N].
    + rewrite (sel_hit _ _ w U' L MW). unfold wset. rewrite Nat.eqb_refl. reflexivity.
    + destruct C as [C|[C|C]]; [contradiction|contradiction|].
      assert (NE: ~ mt E w k').
      { unfold w, way_for. destruct (ty_hit E k) as [w0|] eqn:HH.
        - destruct (hit_some _ _ _ HH) as [_ M]. intros M'. unfold mt, ty_matches in M, M'.
          apply andb_true_iff in M, M'. destruct M as [_ M], M' as [_ M']. apply Z.eqb_eq in M, M'. congruence.
        - destruct C as [C|(w0 & L0 & V0)]; [congruence|]. unfold mt, ty_matches. rewrite (victim_empty E w0 L0 V0). discriminate. }
      destruct (mt_dec E k') as [(w' & L' & M')|NM].
      * assert (N0: w' <> w) by (intros ->; contradiction).
        assert (M2: mt (wset E w (TEnt true k ty c a)) w' k') by (unfold mt, wset; rewrite (proj2 (Nat.eqb_neq _ _) N0); exact M').
        rewrite (sel_hit _ _ w' U' L' M2), (sel_hit _ _ w' U L' M'). unfold wset. now rewrite (proj2 (Nat.eqb_neq _ _) N0).
      * rewrite (sel_miss E k' NM), sel_miss; [reflexivity|]. intros w' L'. unfold mt, wset.
        destruct (Nat.eqb_spec w' w) as [E0|N0]; [|apply (NM w' L')]. unfold ty_matches. cbn [te_valid te_tag andb].
        intros X. apply Z.eqb_eq in X. congruence.
Qed.
(** An update is remembered at once, if no other of its set comes in the same cycle. *)
Theorem c65_learned h t a p ty b pc : yreach h t -> same_key p pc ->
  (forall q y, In (q, y) (a ++ b) -> ~ same_set q pc) -> ty_of (ty_predict (ty_cycle t (a ++ (p, ty) :: b)) pc) = ty.
Proof.
  intros R K H. rewrite predict_cycle, (of_set_single a p ty b pc (same_key_set _ _ K) H).
  apply same_key_iff in K. destruct K as [_ K]. rewrite K, set_single by (first [apply (reach_uniq _ _ R)|now left]). now rewrite Z.eqb_refl.
Qed.

Lemma said_set us pc acc :
  fold_left (fun acc u => if (fst u / 4) mod 2 ^ 19 =? (pc / 4) mod 2 ^ 19 then snd u else acc) us acc =
  fold_left (fun acc u => if fst u =? ty_tag pc then snd u else acc) (of_set (ty_bank pc) (ty_set pc) us) acc.
Proof.
  revert acc. induction us as [|[q y] us IH]; intros acc; [reflexivity|]. cbn [fold_left fst snd]. rewrite IH.
  unfold of_set at 2. cbn [filter fst]. fold (same_key q pc).
  destruct ((ty_bank q =? ty_bank pc)%nat && (ty_set q =? ty_set pc)) eqn:M.
  - cbn [map fold_left fst snd]. fold (of_set (ty_bank pc) (ty_set pc) us). f_equal.
    apply andb_true_iff in M. destruct M as [M1 M2]. apply Nat.eqb_eq in M1. apply Z.eqb_eq in M2.
    destruct (Z.eqb_spec (ty_tag q) (ty_tag pc)) as [T|T].
    + destruct (Z.eqb_spec ((q / 4) mod 2 ^ 19) ((pc / 4) mod 2 ^ 19)) as [K|K]; [reflexivity|]. destruct K. now apply same_key_iff.
    + destruct (Z.eqb_spec ((q / 4) mod 2 ^ 19) ((pc / 4) mod 2 ^ 19)) as [K|K]; [|reflexivity]. apply same_key_iff in K. tauto.
  - fold (of_set (ty_bank pc) (ty_set pc) us). f_equal.
    destruct (Z.eqb_spec ((q / 4) mod 2 ^ 19) ((pc / 4) mod 2 ^ 19)) as [K|K]; [|reflexivity]. apply same_key_iff in K.
    destruct K as [[K1 K2] _]. rewrite K1, K2, Nat.eqb_refl, Z.eqb_refl in M. discriminate.
Qed.
Lemma of_set_short us pc :
  (forall a u b v c, us = a ++ u :: b ++ v :: c -> same_set (fst u) pc -> same_set (fst v) pc -> False) ->
  of_set (ty_bank pc) (ty_set pc) us = [] \/
  exists a p y b, us = a ++ (p, y) :: b /\ same_set p pc /\ of_set (ty_bank pc) (ty_set pc) us = [(ty_tag p, y)].
Proof.
  intros H. induction us as [|[q y] us IH]; [now left|].
  destruct ((ty_bank q =? ty_bank pc)%nat && (ty_set q =? ty_set pc)) eqn:M.
  - right. assert (S: same_set q pc).
    { apply same_set_iff. apply andb_true_iff in M. destruct M as [M1 M2]. apply Nat.eqb_eq in M1. apply Z.eqb_eq in M2. now split. }
    exists [], q, y, us. split; [reflexivity|]. split; [exact S|]. apply (of_set_single [] q y us pc S).
    intros q' y' I S'. cbn [app] in I. apply in_split in I. destruct I as (b & c & ->). exact (H [] (q, y) b (q', y') c eq_refl S S').
  - destruct IH as [IH|(a & p & y0 & b & E & S & IH)].
    + intros a u b v c E. apply (H ((q, y) :: a) u b v c). now rewrite E.
    + left. unfold of_set. cbn [filter fst]. rewrite M. exact IH.
    + right. exists ((q, y) :: a), p, y0, b. split; [now rewrite E|]. split; [exact S|].
      unfold of_set. cbn [filter fst]. rewrite M. exact IH.
Qed.
(** With at most two branches in a set, updated in different cycles, the
    predictions of the set are those of an ideal predictor. *)
Theorem c65_exact h t pc p q : yreach h t -> one_at_a_time h pc ->
  (forall us a y, In us h -> In (a, y) us -> same_set a pc -> y <> BR_NONCTL -> same_key a p \/ same_key a q) ->
  ty_of (ty_predict t pc) = last_said h pc.
Proof.
  intros R O K.
  assert (G: (forall w, (w < 2)%nat -> te_valid (t (ty_bank pc) (ty_set pc) w) = true ->
               te_tag (t (ty_bank pc) (ty_set pc) w) = ty_tag p \/ te_tag (t (ty_bank pc) (ty_set pc) w) = ty_tag q) /\
             forall pc', same_set pc' pc -> ty_of (ty_predict t pc') = last_said h pc').
  { induction R as [|h t us R IH]; [split; [intros w _ V; discriminate V|reflexivity]|].
    destruct IH as [IT IL].
    { intros us0 I. apply O. now right. }
    { intros us0 a y I. apply K. now right. }
    pose proof (reach_uniq _ _ R (ty_bank pc) (ty_set pc)) as U. set (E := t (ty_bank pc) (ty_set pc)) in *.
    assert (PE: forall pc', same_set pc' pc -> ty_predict t pc' = ty_select E (ty_tag pc') /\
       ty_predict (ty_cycle t us) pc' = ty_select (scycle E (of_set (ty_bank pc) (ty_set pc) us)) (ty_tag pc') /\
       last_said (us :: h) pc' = fold_left (fun acc u => if fst u =? ty_tag pc' then snd u else acc) (of_set (ty_bank pc) (ty_set pc) us) (last_said h pc')).
    { intros pc' S. rewrite predict_cycle. cbn [last_said]. rewrite said_set. apply same_set_iff in S. destruct S as [S1 S2].
      unfold ty_predict. rewrite S1, S2. repeat split. }
    destruct (of_set_short us pc (O us (or_introl eq_refl))) as [Z0|(a & x & y & b & EU & S & Z1)].
    - split.
      + intros w L V. rewrite cycle_set, Z0 in V |- *. exact (IT w L V).
      + intros pc' S. destruct (PE pc' S) as (P1 & P2 & P3). rewrite P2, P3, Z0. cbn [fold_left]. rewrite <- (IL pc' S), P1. reflexivity.
    - assert (KX: y <> BR_NONCTL -> ty_tag x = ty_tag p \/ ty_tag x = ty_tag q).
      { intros N. destruct (K us x y (or_introl eq_refl)) as [H|H]; [rewrite EU; apply in_or_app; right; now left|exact S|exact N|left|right];
          apply same_key_iff in H; tauto. }
      assert (C: y = BR_NONCTL \/ ty_hit E (ty_tag x) <> None \/ exists w, (w < 2)%nat /\ te_valid (E w) = false).
      { destruct (Z.eq_dec y BR_NONCTL) as [->|N]; [now left|]. right. destruct (ty_hit E (ty_tag x)) as [w|] eqn:H; [left; discriminate|right].
        destruct (te_valid (E 0%nat)) eqn:V0; [|exists 0%nat; split; [lia|exact V0]].
        destruct (te_valid (E 1%nat)) eqn:V1; [|exists 1%nat; split; [lia|exact V1]]. exfalso.
        assert (T0: te_tag (E 0%nat) <> ty_tag x).
        { intros X. apply (hit_none _ _ 0%nat H); [lia|]. unfold mt, ty_matches. now rewrite V0, X, Z.eqb_refl. }
        assert (T1: te_tag (E 1%nat) <> ty_tag x).
        { intros X. apply (hit_none _ _ 1%nat H); [lia|]. unfold mt, ty_matches. now rewrite V1, X, Z.eqb_refl. }
        assert (T01: te_tag (E 0%nat) <> te_tag (E 1%nat)).
        { intros X. assert (0 = 1)%nat; [|lia]. apply (proj1 U 0%nat 1%nat (te_tag (E 0%nat))); [lia|lia| |].
          - unfold mt, ty_matches. now rewrite V0, Z.eqb_refl.
          - unfold mt, ty_matches. now rewrite V1, X, Z.eqb_refl. }
        destruct (IT 0%nat ltac:(lia) V0), (IT 1%nat ltac:(lia) V1), (KX N); congruence. }
      split.
      + intros w L V. rewrite cycle_set, Z1 in V |- *. fold E in V |- *.
        destruct (scycle_origin E [(ty_tag x, y)] w (te_tag (scycle E [(ty_tag x, y)] w)) U L) as [[A _]|(_ & l1 & ty & l2 & D & N & _)].
        * unfold mt, ty_matches. now rewrite V, Z.eqb_refl.
        * rewrite A in V |- *. exact (IT w L V).
        * destruct l1 as [|z l1]; [|destruct l1; discriminate]. cbn [app] in D. injection D as D1 D2 _. rewrite <- D1. apply KX. congruence.
      + intros pc' S'. destruct (PE pc' S') as (P1 & P2 & P3). rewrite P2, P3, Z1. cbn [fold_left fst snd].
        rewrite set_single by (first [exact U|right; exact C]). rewrite Z.eqb_sym. destruct (ty_tag x =? ty_tag pc'); [reflexivity|].
        rewrite <- P1. apply IL, S'. }
  apply (proj2 G). reflexivity.
Qed.

(** A confident prediction was confirmed by the three latest cycles about it. *)
Theorem c65_confident h t pc ty hit : yreach h t -> ty_predict t pc = (ty, hit, true) -> forall i, (i < 3)%nat ->
  exists us, nth_error (about h pc) i = Some us /\ settles us pc ty.
Proof.
  intros R P.
  assert (G: forall w, (w < 2)%nat -> let e := t (ty_bank pc) (ty_set pc) in mt e w (ty_tag pc) ->
    forall i, (i < Z.to_nat (te_conf (e w)))%nat -> exists us, nth_error (about h pc) i = Some us /\ settles us pc (te_type (e w))).
  { clear P. induction R as [|h t us R IH]; intros w L e M i Hi; [discriminate M|].
    pose proof (reach_uniq _ _ R (ty_bank pc) (ty_set pc)) as U. set (E := t (ty_bank pc) (ty_set pc)) in *. cbv zeta in IH.
    assert (EW: e w = scycle E (of_set (ty_bank pc) (ty_set pc) us) w) by apply cycle_set.
    unfold mt in M. rewrite EW in M, Hi |- *. set (l := of_set (ty_bank pc) (ty_set pc) us) in *. fold (mt (scycle E l) w (ty_tag pc)) in M.
    assert (AB: forall v, existsb (fun u => (fst u / 4) mod 2 ^ 19 =? (pc / 4) mod 2 ^ 19) us = v -> about (us :: h) pc = if v then us :: about h pc else about h pc).
    { intros v V. unfold about. cbn [filter]. now rewrite V. }
    destruct (scycle_origin E l w _ U L M) as [[A B]|(_ & l1 & ty0 & l2 & D & N & T & F & HC)].
    - rewrite A in *. unfold mt in M. rewrite A in M. rewrite (AB false).
      + exact (IH w L M i Hi).
      + destruct (existsb _ us) eqn:X; [|reflexivity]. apply existsb_exists in X. destruct X as ([q y] & I & X). cbn [fst] in X.
        apply Z.eqb_eq in X. destruct (B y). apply in_of_set. exists q. split; [exact I|exact X].
    - assert (SS: settles us pc ty0) by exact (split_of_set us pc l1 ty0 l2 D F). rewrite T.
      rewrite (AB true).
      + destruct i as [|j]; [exists us; split; [reflexivity|exact SS]|]. cbn [nth_error].
        destruct HC as [HC|(w0 & H0 & T0 & HC)]; rewrite HC in Hi.
        * change (Z.to_nat 1) with 1%nat in Hi. lia.
        * destruct (hit_some _ _ _ H0) as [L0 M0]. rewrite <- T0. apply (IH w0 L0 M0).
          unfold ty_inc, TYMAX in Hi. destruct (3 <=? te_conf (E w0)) eqn:X; [apply Z.leb_le in X|apply Z.leb_gt in X]; lia.
      + apply existsb_exists. destruct SS as (a & p & b & EU & K & _). exists (p, ty0). split; [rewrite EU; apply in_or_app; right; now left|].
        cbn [fst]. apply Z.eqb_eq. exact K. }
  unfold ty_predict, ty_select in P. destruct (ty_hit _ _) as [w|] eqn:H; [|discriminate]. injection P as PT _ PC.
  destruct (hit_some _ _ _ H) as [L M]. intros i Hi. rewrite <- PT. apply (G w L M). apply Z.leb_le in PC. unfold TYMAX in PC. lia.
Qed.

(** *** What does not hold *)
(** Two branches of an empty set committed together: the first is forgotten. *)
Theorem c65_same_cycle_lost_refuted :
  exists us a b, us = [(a, BR_JAL); (b, BR_JAL)] /\ ~ same_key a b /\
    ty_of (ty_predict (ty_cycle ttab0 us) a) = BR_NONCTL /\ ty_of (ty_predict (ty_cycle ttab0 us) b) = BR_JAL.
Proof. exists [(4096, BR_JAL); (4608, BR_JAL)], 4096, 4608. split; [reflexivity|]. split; [vm_compute; discriminate|]. split; vm_compute; reflexivity. Qed.
(** Told that an address is no branch, it may keep saying that it is: the answer
    for two addresses 2 MiB apart committed together. *)
Theorem c65_last_word_refuted :
  exists h pc, last_said h pc = BR_NONCTL /\ ty_of (ty_predict (fold_right (fun us t => ty_cycle t us) ttab0 h) pc) = BR_JAL.
Proof. exists [[(4096, BR_JAL); (4096 + 2 ^ 21, BR_NONCTL)]], 4096. split; vm_compute; reflexivity. Qed.

(** *** Examples *)
Example c65_exact_ex : let h := [[(4096, BR_JAL)]; [(4608, BR_CALL)]; [(4096, BR_DIRECT); (4100, BR_RET)]] in
  map (fun pc => ty_of (ty_predict (fold_right (fun us t => ty_cycle t us) ttab0 h) pc)) [4096; 4608; 4100; 4104]
  = [BR_JAL; BR_CALL; BR_RET; BR_NONCTL] /\ map (last_said h) [4096; 4608; 4100; 4104] = [BR_JAL; BR_CALL; BR_RET; BR_NONCTL].
Proof. split; vm_compute; reflexivity. Qed.
Example c65_evicted_ex :
  map (fun pc => ty_of (ty_predict (fold_right (fun us t => ty_cycle t us) ttab0 [[(5120, BR_JAL)]; [(4608, BR_CALL)]; [(4096, BR_DIRECT)]; [(4096, BR_DIRECT)]]) pc)) [4096; 4608; 5120]
  = [BR_DIRECT; BR_NONCTL; BR_JAL].
Proof. vm_compute. reflexivity. Qed.
Example c65_confident_ex :
  ty_predict (fold_right (fun us t => ty_cycle t us) ttab0 [[(4096, BR_JAL)]; [(4096, BR_JAL)]; [(4096, BR_JAL)]]) 4096 = (BR_JAL, true, true).
Proof. vm_compute. reflexivity. Qed.

Print Assumptions c65_origin.
Print Assumptions c65_one_entry.
Print Assumptions c65_frame.
Print Assumptions c65_learned.
Print Assumptions c65_exact.
Print Assumptions c65_confident.
Print Assumptions c65_same_cycle_lost_refuted.
Print Assumptions c65_last_word_refuted.
