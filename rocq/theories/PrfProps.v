(** C41: the operand a reader gets.  The specification is a register array
    that each surviving write-back updates at once, without the latch. *)
From Verif Require Import Base BaseLemmas PrfModel.
Local Open Scope nat_scope.

(** *** Specification *)
(** The write-backs of a cycle that are not squashed. *)
Definition survives (i : prf_in) (w : wb) : Prop :=
  p_flush i = false /\ ~ (p_mispred i = true /\ Z.land (b_mask w) (p_brmask i) <> 0%Z).
Definition produces (i : prf_in) (p : nat) (v : Z) : Prop :=
  exists w, In (Some w) (p_entry i) /\ survives i w /\ b_dest w = Some p /\ b_val w = v.
(** [holds is p v]: after the cycles [is] (latest first) the newest surviving
    write-back of [p] had value [v], or there was none and [v = 0]. *)
Inductive holds : list prf_in -> nat -> Z -> Prop :=
| holds_init p : holds [] p 0%Z
| holds_new i is p v : produces i p v -> holds (i :: is) p v
| holds_old i is p v : (forall v', ~ produces i p v') -> holds is p v -> holds (i :: is) p v.
Definition unique_writers (i : prf_in) : Prop := forall p v v', produces i p v -> produces i p v' -> v = v'.
Fixpoint run (n : nat) (is : list prf_in) : prf := match is with [] => prf_init n | i :: is' => prf_step (run n is') i end.

(** *** Proofs *)
Definition overlay (l : list (option wb)) (d : Z) (p : nat) : Z := fold_left (fun d o => if writes p o then val_of d o else d) l d.
Lemma overlay_none l d p : (forall o, In o l -> writes p o = false) -> overlay l d p = d.
Proof. unfold overlay. induction l as [|o l IH]; intros H; [reflexivity|]. cbn. rewrite (H o (or_introl eq_refl)). apply IH. intros; apply H; now right. Qed.
Lemma overlay_val l d p v : (exists o, In o l /\ writes p o = true) -> (forall o, In o l -> writes p o = true -> val_of 0 o = v) -> overlay l d p = v.
Proof.
  unfold overlay. revert d. induction l as [|o l IH]; intros d (q & Q & W) H; [destruct Q|]. cbn.
  destruct (existsb (writes p) l) eqn:Ex.
  - apply existsb_exists in Ex. apply IH; [destruct Ex as (z & Z1 & Z2); eauto|]. intros; apply H; auto. now right.
  - assert (N : forall z, In z l -> writes p z = false).
    { intros z Z0. destruct (writes p z) eqn:Wz; [|reflexivity]. assert (existsb (writes p) l = true) by (apply existsb_exists; eauto). congruence. }
    destruct Q as [->|Q]; [|rewrite (N q Q) in W; discriminate]. rewrite W. pose proof (overlay_none l (val_of d q) p N) as O. unfold overlay in O. rewrite O.
    specialize (H q (or_introl eq_refl) W). destruct q; [exact H|discriminate].
Qed.
Lemma write_all_overlay l r p : p <> 0 -> write_all l r p = overlay l (r p) p.
Proof.
  intros P. unfold write_all. unfold fupd at 1. destruct (Nat.eqb_spec p 0) as [|_]; [contradiction|].
  unfold overlay. revert r. induction l as [|o l IH]; intros r; [reflexivity|]. cbn. rewrite IH. f_equal.
  destruct o as [w|]; cbn; [|reflexivity]. destruct (b_dest w) as [q|]; [|reflexivity].
  destruct (Nat.eqb_spec q 0) as [->|Q]; [destruct (Nat.eqb_spec 0 p); [congruence|reflexivity]|].
  unfold fupd. rewrite (Nat.eqb_sym p q). reflexivity.
Qed.
Lemma latch1_writes i o p : writes p (latch1 i o) = true <-> exists w, o = Some w /\ survives i w /\ b_dest w = Some p /\ val_of 0 (latch1 i o) = b_val w.
Proof.
  unfold latch1, survives, wb_killed, nz. destruct (p_flush i); cbn; [split; [discriminate|intros (? & _ & [? _] & _); discriminate]|].
  destruct o as [w|]; [|split; [discriminate|intros (? & H & _); discriminate]].
  destruct (p_mispred i); cbn [andb].
  - destruct (Z.eqb_spec (Z.land (b_mask w) (p_brmask i)) 0) as [E|E]; cbn.
    + destruct (b_dest w) as [q|] eqn:D; split; try discriminate.
      * intros Q. apply Nat.eqb_eq in Q. subst q. exists w. rewrite D. repeat split; auto. intros [_ X]. contradiction.
      * intros (w' & H & _ & D' & _). injection H as <-. rewrite D in D'. injection D' as ->. apply Nat.eqb_refl.
      * intros (w' & H & _ & D' & _). injection H as <-. congruence.
    + split; [discriminate|]. intros (w' & H & [_ X] & _). injection H as <-. exfalso. auto.
  - cbn. destruct (b_dest w) as [q|] eqn:D; split; try discriminate.
    + intros Q. apply Nat.eqb_eq in Q. subst q. exists w. rewrite D. repeat split; auto. intros [X _]. discriminate.
    + intros (w' & H & _ & D' & _). injection H as <-. rewrite D in D'. injection D' as ->. apply Nat.eqb_refl.
    + intros (w' & H & _ & D' & _). injection H as <-. congruence.
Qed.
Lemma holds_overlay n is p v : Forall unique_writers is -> p <> 0 -> holds is p v ->
  overlay (latch (run n is)) (regs (run n is) p) p = v.
Proof.
  intros U P. induction 1 as [p|i is p v H|i is p v H H' IH].
  - cbn. apply overlay_none. intros o O. apply repeat_spec in O. now subst.
  - cbn [run prf_step latch regs]. inversion U as [|? ? Ui Us]; subst. apply overlay_val.
    + destruct H as (w & I & S & D & V). exists (latch1 i (Some w)). split; [now apply in_map|]. apply latch1_writes. exists w. repeat split; auto; try apply S.
      unfold latch1. destruct S as [F S]. rewrite F. unfold wb_killed, nz. destruct (p_mispred i); cbn [andb]; [|reflexivity].
      destruct (Z.eqb_spec (Z.land (b_mask w) (p_brmask i)) 0); [reflexivity|]. exfalso. auto.
    + intros o O W. apply in_map_iff in O. destruct O as (o' & <- & O). apply latch1_writes in W. destruct W as (w & -> & S & D & V). rewrite V.
      apply (Ui p); [exists w; auto|exact H].
  - inversion U as [|? ? Ui Us]; subst. cbn [run prf_step latch regs]. rewrite overlay_none.
    + rewrite write_all_overlay by exact P. auto.
    + intros o O. destruct (writes p o) eqn:W; [|reflexivity]. apply in_map_iff in O. destruct O as (o' & <- & O).
      apply latch1_writes in W. destruct W as (w & -> & S & D & V). exfalso. apply (H (b_val w)). exists w. auto.
Qed.

(** C41: the value read for register [p] is the result a unit drives this
    cycle if there is one (the first such unit), else the newest surviving
    write-back. *)
Theorem c41_read_newest n is i p : Forall unique_writers is -> p <> 0 ->
  (forall w, find (writes p) (p_bypass i) = Some (Some w) -> read (run n is) i p = b_val w) /\
  ((forall w, In (Some w) (p_bypass i) -> b_dest w <> Some p) -> forall v, holds is p v -> read (run n is) i p = v).
Proof.
  intros U P. split.
  - intros w F. unfold read. rewrite F. reflexivity.
  - intros N v H. unfold read. destruct (find (writes p) (p_bypass i)) as [o|] eqn:F.
    + apply find_some in F. destruct F as [F W]. exfalso. destruct o as [w|]; [|discriminate]. cbn in W. destruct (b_dest w) as [q|] eqn:D; [|discriminate].
      apply Nat.eqb_eq in W. subst q. exact (N w F D).
    + exact (holds_overlay n is p v U P H).
Qed.
(** A result driven on the bypass network is what is read, when one unit
    drives the register. *)
Theorem c41_bypass_wins n is i p w : In (Some w) (p_bypass i) -> b_dest w = Some p ->
  (forall w', In (Some w') (p_bypass i) -> b_dest w' = Some p -> b_val w' = b_val w) -> read (run n is) i p = b_val w.
Proof.
  intros I D U. unfold read. destruct (find (writes p) (p_bypass i)) as [o|] eqn:F.
  - apply find_some in F. destruct F as [F W]. destruct o as [w'|]; [|discriminate]. cbn in *. destruct (b_dest w') as [q|] eqn:D'; [|discriminate].
    apply Nat.eqb_eq in W. subst q. now apply U.
  - exfalso. pose proof (find_none _ _ F _ I) as X. cbn in X. rewrite D, Nat.eqb_refl in X. discriminate.
Qed.
(** Once written back, a value is read in every later cycle until the next
    producer: no cycle falls between the latch and the register array. *)
Theorem c41_no_gap n is later i j p v : Forall unique_writers (later ++ i :: is) -> p <> 0 -> produces i p v ->
  (forall k, In k later -> forall v', ~ produces k p v') -> (forall w, In (Some w) (p_bypass j) -> b_dest w <> Some p) ->
  read (run n (later ++ i :: is)) j p = v.
Proof.
  intros U P H L B. apply (c41_read_newest n (later ++ i :: is) j p U P); [exact B|]. clear -H L.
  induction later as [|k later IH]; cbn; [now apply holds_new|]. apply holds_old; [apply L; now left|]. apply IH. intros; apply L; auto. now right.
Qed.
(** Nothing squashed is ever read: registers change only by surviving
    write-backs. *)
Theorem c41_squashed_invisible n is i j p : Forall unique_writers (i :: is) -> p <> 0 -> (forall v, ~ produces i p v) ->
  (forall w, In (Some w) (p_bypass j) -> b_dest w <> Some p) -> forall v, holds is p v -> read (run n (i :: is)) j p = v.
Proof. intros U P H B v Hv. apply (c41_read_newest n (i :: is) j p U P); [exact B|]. now apply holds_old. Qed.

(** Register zero: the array always has zero; a read is zero when no producer
    names it. *)
Theorem c41_zero_partial n is i : (forall k o, In k is -> In o (p_entry k) -> writes 0 o = false) ->
  (forall o, In o (p_bypass i) -> writes 0 o = false) -> read (run n is) i 0 = 0%Z.
Proof.
  intros H B. unfold read. destruct (find (writes 0) (p_bypass i)) as [o|] eqn:F; [apply find_some in F; destruct F as [F1 F2]; rewrite (B o F1) in F2; discriminate|].
  fold (overlay (latch (run n is)) (regs (run n is) 0) 0). rewrite overlay_none.
  - destruct is; reflexivity.
  - destruct is as [|k is]; cbn; intros o O; [apply repeat_spec in O; now subst|]. apply in_map_iff in O. destruct O as (o' & <- & O).
    destruct (writes 0 (latch1 k o')) eqn:W; [|reflexivity]. apply latch1_writes in W. destruct W as (w & -> & _ & D & _).
    specialize (H k (Some w) (or_introl eq_refl) O). cbn in H. rewrite D in H. discriminate.
Qed.
(** Refuted: in the cycle after a load to x0 writes back, register zero reads
    as the loaded value. *)
Definition lw_x0 (v : Z) : prf_in := PrfIn [] [None; None; Some (load_wb 0 0 v 0)] false false 0 0.
Theorem c41_zero_refuted : exists is i, p_bypass i = [] /\ Forall unique_writers is /\ operand (run 10 is) i true 0 = 77%Z.
Proof.
  exists [lw_x0 77], (PrfIn [] [] false false 0 0). split; [reflexivity|]. split; [|reflexivity].
  constructor; [|constructor]. intros p v v' (w & I & _ & _ & <-) (w' & I' & _ & _ & <-). cbn in I, I'.
  destruct I as [I|[I|[I|[]]]]; try discriminate. destruct I' as [I'|[I'|[I'|[]]]]; try discriminate. congruence.
Qed.

(** Loads are announced when their value is in the latch, i.e. readable. *)
Theorem c41_load_wake_readable n is m br p : Forall unique_writers is -> p <> 0 -> In p (wakes (run n is) m br) ->
  exists v k is', is = k :: is' /\ produces k p v /\
    forall j, (forall w, In (Some w) (p_bypass j) -> b_dest w <> Some p) -> read (run n is) j p = v.
Proof.
  intros U P W. unfold wakes in W. 
  match type of W with In _ (firstn _ ?l) => assert (W' : In p l) by (rewrite <- (firstn_skipn LSU_WB l); apply in_or_app; now left) end.
  clear W. rename W' into W.
  apply in_flat_map in W. destruct W as (o & O & W). destruct o as [w|]; [|destruct W]. destruct (b_dest w) as [q|] eqn:D; [|destruct W].
  destruct (b_load w && _); [|destruct W]. destruct W as [<-|[]].
  destruct is as [|k is]; [cbn in O; apply repeat_spec in O; discriminate|]. cbn [run prf_step latch] in O. apply in_map_iff in O. destruct O as (o' & E & O).
  assert (Pr : produces k q (b_val w)).
  { assert (Wr : writes q (latch1 k o') = true) by (rewrite E; cbn; rewrite D; apply Nat.eqb_refl).
    apply latch1_writes in Wr. destruct Wr as (w0 & -> & S & D0 & V). rewrite E in V. cbn in V. exists w0. auto. }
  exists (b_val w), k, is. split; [reflexivity|]. split; [exact Pr|]. intros j B. apply (c41_read_newest n (k :: is) j q U P); [exact B|]. now apply holds_new.
Qed.

(** The broadcast comb_awake reads is that of the cycle before.  It suppresses
    nothing: what it would kill never entered the latch.  So every load
    write-back of the last cycle that survived is announced, if there were no
    more than the two the load ports deliver. *)
Definition is_load (o : option wb) : bool := match o with Some w => b_load w | None => false end.
Lemma map_filter_loads (P : wb -> bool) (l : list (option wb)) :
  length (flat_map (fun o => match o with
    | Some w => match b_dest w with Some q => if b_load w && P w then [q] else [] | None => [] end
    | None => [] end) l) <= length (filter is_load l).
Proof.
  induction l as [|o l IH]; [apply le_n|]. cbn. rewrite app_length. destruct o as [w|]; cbn; [|lia].
  destruct (b_dest w); destruct (b_load w); cbn; try destruct (P w); cbn; lia.
Qed.
Lemma latch1_load i o : is_load (latch1 i o) = true -> is_load o = true.
Proof. unfold latch1. destruct (p_flush i); [discriminate|]. destruct o as [w|]; [|discriminate]. destruct (wb_killed i w); [discriminate|]. auto. Qed.
Lemma latch_loads i l : length (filter is_load (map (latch1 i) l)) <= length (filter is_load l).
Proof.
  induction l as [|o l IH]; [apply le_n|]. cbn. destruct (is_load (latch1 i o)) eqn:E; cbn; [rewrite (latch1_load _ _ E); cbn; lia|].
  destruct (is_load o); cbn; lia.
Qed.
Theorem c41_load_announced n i is w p : In (Some w) (p_entry i) -> survives i w -> b_load w = true -> b_dest w = Some p ->
  length (filter is_load (p_entry i)) <= 2 -> In p (wakes (run n (i :: is)) (p_mispred i) (p_brmask i)).
Proof.
  intros I [F S] L D C. unfold wakes. rewrite firstn_all2.
  - apply in_flat_map. exists (latch1 i (Some w)). split; [now apply in_map|]. unfold latch1. rewrite F. unfold wb_killed.
    assert (K : p_mispred i && nz (Z.land (b_mask w) (p_brmask i)) = false).
    { destruct (p_mispred i); [|reflexivity]. cbn. unfold nz. destruct (Z.eqb_spec (Z.land (b_mask w) (p_brmask i)) 0); [reflexivity|]. exfalso. auto. }
    rewrite K. cbn [b_dest b_load b_mask]. rewrite D, L. cbn [andb].
    assert (K' : p_mispred i && nz (Z.land (Z.ldiff (b_mask w) (p_clear i)) (p_brmask i)) = false).
    { destruct (p_mispred i); [|reflexivity]. cbn [andb] in *. unfold nz in *.
      assert (E : Z.land (b_mask w) (p_brmask i) = 0%Z) by (destruct (Z.eqb_spec (Z.land (b_mask w) (p_brmask i)) 0); [assumption|discriminate]).
      assert (E' : Z.land (Z.ldiff (b_mask w) (p_clear i)) (p_brmask i) = 0%Z).
      { apply Z.bits_inj'. intros k Hk. rewrite Z.land_spec, Z.ldiff_spec, Z.bits_0.
        pose proof (f_equal (fun z => Z.testbit z k) E) as B. cbn in B. rewrite Z.land_spec, Z.bits_0 in B.
        destruct (Z.testbit (b_mask w) k), (Z.testbit (p_brmask i) k); cbn in *; try reflexivity; try discriminate; now rewrite ?andb_false_r. }
      rewrite E'. reflexivity. }
    rewrite K'. cbn. now left.
  - cbn [run prf_step latch]. etransitivity; [apply map_filter_loads|]. pose proof (latch_loads i (p_entry i)). unfold LSU_WB. lia.
Qed.
(** What it does not do is suppress a load squashed in this very cycle: that
    load is still announced.  (Its register's readers are younger and go with it.) *)
Theorem c41_squashed_load_announced : exists n i j w p, In (Some w) (latch (run n [i])) /\ wb_killed j w = true /\ b_dest w = Some p /\ In p (wakes (run n [i]) (p_mispred i) (p_brmask i)).
Proof.
  exists 4, (PrfIn [] [Some (Wb (Some 9) 5 2 true)] false false 0 0), (PrfIn [] [] false true 2 2), (Wb (Some 9) 5 2 true), 9.
  vm_compute. auto.
Qed.

Definition ex_i (l : list (option wb)) : prf_in := PrfIn [] l false false 0 0.
Example c41_example : let is := [ex_i []; ex_i [None; Some (Wb (Some 9) 5 0 false)]; ex_i [Some (Wb (Some 9) 4 0 false)]] in
  Forall unique_writers is /\ read (run 10 is) (ex_i []) 9 = 5%Z /\
  read (run 10 is) (PrfIn [None; Some (Wb (Some 9) 6 0 false)] [] false false 0 0) 9 = 6%Z.
Proof.
  split; [|vm_compute; auto]. repeat constructor; intros p v v' (w & I & _ & _ & <-) (w' & I' & _ & _ & <-); cbn in I, I';
  repeat match goal with H : _ \/ _ |- _ => destruct H end; try discriminate; try contradiction; congruence.
Qed.

Print Assumptions c41_read_newest.
Print Assumptions c41_bypass_wins.
Print Assumptions c41_no_gap.
Print Assumptions c41_squashed_invisible.
Print Assumptions c41_zero_partial.
Print Assumptions c41_zero_refuted.
Print Assumptions c41_load_wake_readable.
Print Assumptions c41_load_announced.
Print Assumptions c41_squashed_load_announced.
