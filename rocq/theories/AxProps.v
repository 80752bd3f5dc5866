(** C82: crossing the clock boundary at the AXI port. *)
From Verif Require Import Base AxModel AxSpec AxProofs.
Local Open Scope Z_scope.

(** *** The boundary alone, whatever the interconnect does *)
(** In the extra ticks the interconnect finds neither a request nor a ready. *)
Theorem c82_invisible {S E} (t : E -> S * port -> S * port) es : forall x, Forall (fun p => q_v p = false /\ r_rdy p = false) (before t false es x).
Proof. induction es as [|e es IH]; intros x; cbn [before]; constructor; [split; reflexivity|apply IH]. Qed.
(** The ports of the data cache are left alone: it lives in the fast domain. *)
Theorem c82_fast_untouched {S E} (t : E -> S * port -> S * port) wr es x : run_extra t true wr es x = fold_left (fun x e => t e x) es x.
Proof.
  assert (G : forall es x b, fst (extra t true wr es x b) = fold_left (fun x e => t e x) es x).
  { clear es x. induction es as [|e es IH]; intros x b; [reflexivity|]. cbn [extra fold_left mask accumulate]. rewrite IH. destruct x; reflexivity. }
  destruct es as [|e es]; [reflexivity|]. unfold run_extra. rewrite <- (G _ _ (capture wr (snd x))). destruct (extra _ _ _ _ _ _) as [y b]. destruct y; reflexivity.
Qed.
(** The CPU hears of an acceptance, and of a ready, of any tick of its cycle. *)
Lemma extra_acc {S E} (t : E -> S * port -> S * port) wr es : forall x b,
  let '(_, b') := extra t false wr es x b in
  (b_acc b' = true <-> b_acc b = true \/ Exists (fun p => i_acc p = true) (after t false es x)) /\
  (b_rdy b' = true <-> b_rdy b = true \/ Exists (fun p => q_rdy p = true) (after t false es x)).
Proof.
  induction es as [|e es IH]; intros x b; cbn [extra after].
  - split; split; intros H; auto; destruct H as [H|H]; auto; inversion H.
  - specialize (IH (t e (fst x, mask false (snd x))) (accumulate false wr (snd (t e (fst x, mask false (snd x)))) b)).
    destruct (extra _ _ _ _ _ _) as [y b']. rewrite !Exists_cons. unfold accumulate in IH. cbn [b_acc b_rdy] in IH. destruct IH as [A B].
    split; [rewrite A|rewrite B, orb_true_iff]; destruct (i_acc (snd (t e (fst x, mask false (snd x))))); intuition congruence.
Qed.
Theorem c82_heard {S E} (t : E -> S * port -> S * port) wr es x : es <> [] ->
  let p := snd (run_extra t false wr es x) in
  (q_acc p = true <-> i_acc (snd x) = true \/ Exists (fun p => i_acc p = true) (after t false es x)) /\
  (q_rdy p = true <-> q_rdy (snd x) = true \/ Exists (fun p => q_rdy p = true) (after t false es x)).
Proof.
  intros N. cbn zeta. unfold run_extra. destruct es as [|e es]; [destruct (N eq_refl)|]. pose proof (extra_acc t wr (e :: es) x (capture wr (snd x))) as H.
  destruct (extra _ _ _ _ _ _) as [y b]. exact H.
Qed.

(** *** With an interconnect that queues responses *)
Lemma clear_facts p : r_v (clear_in p) = r_v p /\ r_rdy (clear_in p) = r_rdy p.
Proof. split; reflexivity. Qed.
(** An early master (the instruction cache) gets every response once, in order: what
    has arrived is what it took followed by what still waits.  If the interconnect
    goes by its own record, the master must not be ready for what it cannot see. *)
Theorem c82_early_once own wr s : reach own true wr (fun s y => own = true -> modest own true s y) s -> m_all s = m_got s ++ iq (m_c s).
Proof.
  intros R. assert (I : honest (m_c s) (m_p s) /\ m_all s = m_got s ++ iq (m_c s)); [|apply I].
  induction R as [|s y R IH K].
  - split; [|reflexivity]. split; [|split]; discriminate.
  - destruct IH as [[H1 [H2 H3]] A]. unfold cycle.
    pose proof (comb_out_facts own (m_c s) (drive (y_v y) (y_id y) (y_rdy y) (clear_in (m_p s)))) as C. cbn zeta in C.
    destruct (comb_out own (m_c s) (drive (y_v y) (y_id y) (y_rdy y) (clear_in (m_p s)))) as [c2 p2]. cbn [fst snd drive clear_in r_v r_rdy] in C. destruct C as [C1 [C2 [C3 [C4 _]]]].
    destruct (run_extra (tick own) false wr (y_extra y) (comb_in (y_main y) c2 p2)) as [c3 p3] eqn:EX.
    destruct (rest_facts own wr _ _ _ _ _ _ C2 C3 C4 EX) as [X1 [X2 _]]. cbn [m_c m_p m_got m_all]. split; [exact X2|].
    rewrite X1, C1, A, !app_assoc. f_equal. rewrite <- !app_assoc. f_equal. unfold takes, sees.
    assert (P : (if own then ishown (m_c s) else r_v (m_p s)) && y_rdy y = r_v (m_p s) && y_rdy y).
    { destruct own; [|reflexivity]. destruct (y_rdy y) eqn:EY; [|rewrite !andb_false_r; reflexivity]. pose proof (K eq_refl EY) as V. cbn [sees] in V. rewrite V, (H3 V). reflexivity. }
    rewrite P. destruct (r_v (m_p s) && y_rdy y) eqn:ER; [|reflexivity]. apply andb_prop in ER. destruct (H1 (proj1 ER)) as [t T]. rewrite T. reflexivity.
Qed.
(** So does a late one (the MMIO bridge), if it does not reuse the id of a response
    in the cycle it takes it; the response it has just taken leaves the queue in
    the next cycle. *)
Theorem c82_late_once own wr s : reach own false wr (fresh_ids own false wr) s ->
  m_all s = m_got s ++ (if r_v (m_p s) && r_rdy (m_p s) then tl (iq (m_c s)) else iq (m_c s)).
Proof.
  intros R. assert (I : honest (m_c s) (m_p s) /\ (r_rdy (m_p s) = true -> ishown (m_c s) = r_v (m_p s)) /\
    m_all s = m_got s ++ (if r_v (m_p s) && r_rdy (m_p s) then tl (iq (m_c s)) else iq (m_c s))); [|apply I].
  induction R as [|s y R IH K].
  - split; [|split; reflexivity]. split; [|split]; discriminate.
  - destruct IH as [[H1 [H2 H3]] [HR A]]. unfold fresh_ids, takes, sees in K. unfold cycle, takes, sees.
    pose proof (comb_out_facts own (m_c s) (clear_in (m_p s))) as C. cbn zeta in C.
    destruct (comb_out own (m_c s) (clear_in (m_p s))) as [c2 p2]. cbn [fst snd clear_in r_v r_rdy] in *. destruct C as [C1 [C2 [C3 [C4 [C5 _]]]]].
    assert (P : (if own then ishown (m_c s) else r_v (m_p s)) && r_rdy (m_p s) = r_v (m_p s) && r_rdy (m_p s)).
    { destruct own; [|reflexivity]. destruct (r_rdy (m_p s)) eqn:EY; [|rewrite !andb_false_r; reflexivity]. rewrite (HR eq_refl). reflexivity. }
    rewrite P in C1. rewrite <- C1 in A.
    destruct (run_extra (tick own) false wr (y_extra y) (comb_in (y_main y) c2 (drive (y_v y) (y_id y) (y_rdy y) p2))) as [c3 p3] eqn:EX.
    destruct (rest_facts own wr _ _ _ (drive (y_v y) (y_id y) (y_rdy y) p2) _ _ C2 C3 C4 EX) as [X1 [X2 [_ [X4 [X5 X6]]]]]. cbn [drive r_v r_rdy r_id] in X5, X6.
    cbn [m_c m_p m_got m_all]. split; [exact X2|]. split; [exact X4|]. rewrite X1, A.
    destruct (r_v p2 && y_rdy y) eqn:ET.
    + apply andb_prop in ET. destruct ET as [EV EY]. destruct (X6 EV EY (K _ _ eq_refl)) as [Y1 Y2]. rewrite Y1, Y2. cbn [andb]. destruct (C3 EV) as [t T]. rewrite T. cbn [app tl]. rewrite <- !app_assoc. reflexivity.
    + rewrite X5 by (destruct (r_v p2); [right; exact ET|left; reflexivity]). rewrite app_nil_r, app_assoc. reflexivity.
Qed.

(** An early master never sees a response together with the news that its request
    was accepted: this is what the instruction cache counts on (IcSpec.en_sep). *)
Lemma note_last es : forall l k a, flat_map (fun e => match e_acc e with Some k => [k] | None => [] end) es = l ++ [k] -> existsb accb es = true /\ note false es a = k.
Proof.
  induction es as [|e es IH]; intros l k a H; [destruct l; discriminate H|]. cbn [flat_map existsb note fold_left] in *. unfold accb at 1.
  destruct (flat_map (fun e => match e_acc e with Some k => [k] | None => [] end) es) as [|z zs] eqn:EF.
  - rewrite app_nil_r in H. destruct (e_acc e) as [k'|]; [|destruct l; discriminate H]. destruct l as [|? [|? ?]]; inversion H. subst k'. split; [reflexivity|].
    clear - EF. induction es as [|w es IHe]; [reflexivity|]. cbn [fold_left flat_map] in *. destruct (e_acc w); [discriminate EF|]. apply IHe. exact EF.
  - destruct (exists_last (l := z :: zs) ltac:(discriminate)) as [zs' [k' Z]]. rewrite Z in H. destruct (IH zs' k' (match e_acc e with Some k => k | None => a end) Z) as [B N].
    rewrite B. rewrite app_assoc in H. apply app_inj_tail in H. destruct H as [_ H]. subst k'. split; [destruct (e_acc e); reflexivity|exact N].
Qed.
Lemma note_none es : flat_map (fun e => match e_acc e with Some k => [k] | None => [] end) es = [] -> existsb accb es = false.
Proof. induction es as [|e es IH]; intros H; [reflexivity|]. cbn [flat_map existsb] in *. unfold accb at 1. destruct (e_acc e); [discriminate H|]. apply IH. exact H. Qed.
Lemma cycle_rest own early s y wr : exists c p, ishown c = r_v p /\ (r_v p = true -> exists t, iq c = (r_id p, r_d p) :: t) /\ (r_v p = false -> iq c = []) /\
  run_extra (tick own) false wr (y_extra y) (comb_in (y_main y) c p) = (m_c (cycle own early wr s y), m_p (cycle own early wr s y)).
Proof.
  unfold cycle. destruct early.
  - pose proof (comb_out_facts own (m_c s) (drive (y_v y) (y_id y) (y_rdy y) (clear_in (m_p s)))) as C. cbn zeta in C.
    destruct (comb_out own (m_c s) (drive (y_v y) (y_id y) (y_rdy y) (clear_in (m_p s)))) as [c2 p2]. cbn [fst snd] in C. destruct C as [_ [C2 [C3 [C4 _]]]].
    exists c2, p2. split; [exact C2|]. split; [exact C3|]. split; [exact C4|]. destruct (run_extra _ _ _ _ _). reflexivity.
  - pose proof (comb_out_facts own (m_c s) (clear_in (m_p s))) as C. cbn zeta in C.
    destruct (comb_out own (m_c s) (clear_in (m_p s))) as [c2 p2]. cbn [fst snd] in C. destruct C as [_ [C2 [C3 [C4 _]]]].
    exists c2, (drive (y_v y) (y_id y) (y_rdy y) p2). split; [exact C2|]. split; [exact C3|]. split; [exact C4|]. destruct (run_extra _ _ _ _ _). reflexivity.
Qed.
Theorem c82_separated own early s y l k : y_extra y <> [] -> accepts y = l ++ [k] ->
  let p := m_p (cycle own early false s y) in q_acc p = true /\ q_aid p = k /\ (r_v p = true -> r_id p <> k).
Proof.
  intros N L. cbn zeta. destruct (cycle_rest own early s y false) as [c [p [C2 [C3 [C4 EX]]]]]. destruct (rest_facts _ _ _ _ _ _ _ _ C2 C3 C4 EX) as [_ [_ [X _]]].
  destruct (X N) as [_ [X2 [X3 X4]]]. destruct (note_last _ _ _ (i_aid p) L) as [B Q]. rewrite X2, B. split; [reflexivity|]. rewrite (X3 eq_refl), Q. split; [reflexivity|].
  intros V E. rewrite V in X4. change (note false (y_extra y) (note false [y_main y] (i_aid p))) with (note false (y_main y :: y_extra y) (i_aid p)) in X4. rewrite B, Q, E, Z.eqb_refl in X4. discriminate X4.
Qed.
(** Nothing else is held back: without an acceptance under its id, the response put
    on the port in the last tick is visible. *)
Theorem c82_visible own early s y id d t : y_extra y <> [] -> let s' := cycle own early false s y in
  ishown (m_c s') = true -> iq (m_c s') = (id, d) :: t -> ~ In id (accepts y) -> r_v (m_p s') = true /\ r_id (m_p s') = id /\ r_d (m_p s') = d.
Proof.
  intros N. cbn zeta. intros S Q A. destruct (cycle_rest own early s y false) as [c [p [C2 [C3 [C4 EX]]]]].
  destruct (rest_facts _ _ _ _ _ _ _ _ C2 C3 C4 EX) as [_ [[H1 _] [X _]]]. destruct (X N) as [_ [_ [_ X4]]]. rewrite S in X4.
  assert (V : r_v (m_p (cycle own early false s y)) = true).
  { rewrite X4. change (note false (y_extra y) (note false [y_main y] (i_aid p))) with (note false (y_main y :: y_extra y) (i_aid p)).
    destruct (existsb accb (y_main y :: y_extra y)) eqn:B; [|reflexivity]. cbn [andb]. destruct (Z.eqb_spec (r_id (m_p (cycle own early false s y))) (note false (y_main y :: y_extra y) (i_aid p))) as [E|]; [|reflexivity]. exfalso.
    assert (NE : accepts y <> []). { intros Z. unfold accepts in Z. rewrite (note_none _ Z) in B. discriminate B. }
    destruct (exists_last NE) as [l [k L]]. destruct (note_last _ _ _ (i_aid p) L) as [_ K]. rewrite K in E.
    unfold run_extra in EX. destruct (y_extra y) as [|e es] eqn:EE; [destruct (N eq_refl)|].
    destruct (extra (tick own) false false (e :: es) (comb_in (y_main y) c p) (capture false (snd (comb_in (y_main y) c p)))) as [z b] eqn:EX2.
    unfold comb_in in EX2. destruct (extra_facts own false _ _ _ _ _ _ EX2) as [_ [F _]]. destruct (F ltac:(discriminate)) as [F1 [F2 _]]. injection EX as E1 E2.
    rewrite <- E1 in S, Q. rewrite <- E2 in E. rewrite <- F1 in S. destruct (F2 S) as [t' T]. rewrite T in Q. injection Q as Q1 Q2 Q3. unfold restore in E. cbn [r_id] in E.
    apply A. rewrite L. apply in_or_app. right. left. congruence. }
  split; [exact V|]. destruct (H1 V) as [t' T]. rewrite T in Q. injection Q as Q1 Q2 Q3. split; assumption.
Qed.

(** *** What the assumptions are there for *)
Definition quiet : ev := EV None true [].
Definition run own early wr (ys : list cyc) : mach := fold_left (cycle own early wr) ys mach0.
(** A read accepted in the main tick whose answer arrives in the first extra tick:
    hidden in this cycle, seen and taken in the next but one. *)
Definition ex_ys : list cyc :=
  [CY true 3 false (EV (Some 3) true []) [EV None true [(3, 77)]; quiet; quiet];
   CY false 0 false quiet [quiet; quiet; quiet];
   CY false 0 true quiet [quiet; quiet; quiet]].
Example c82_ex : r_v (m_p (run false true false (firstn 1 ex_ys))) = false /\ q_acc (m_p (run false true false (firstn 1 ex_ys))) = true /\
  q_aid (m_p (run false true false (firstn 1 ex_ys))) = 3 /\ r_v (m_p (run false true false (firstn 2 ex_ys))) = true /\
  m_got (run false true false ex_ys) = [(3, 77)] /\ m_got (run true false false ex_ys) = [(3, 77)].
Proof. repeat split; vm_compute; reflexivity. Qed.
(** A master ready for what it cannot see loses the response if the interconnect goes
    by its own record: the boundary has taken valid off the port, not told the
    interconnect.  The instruction cache is such a master in the state
    CANCEL_WAIT_ACCEPT (icache_module.cpp:1497). *)
Theorem c82_eager_refuted : exists s, reach true true false (fun _ _ => True) s /\ m_all s = [(3, 77)] /\ m_got s = [] /\ iq (m_c s) = [].
Proof.
  exists (run true true false [nth 0 ex_ys (CY false 0 false quiet []); CY false 0 true quiet [quiet; quiet; quiet]]).
  split; [|vm_compute; repeat split; reflexivity]. unfold run. cbn [fold_left nth ex_ys]. do 2 (apply reachS; [|exact I]). apply reach0.
Qed.
(** Two acceptances in one CPU cycle: only the last id is noted, and the answer to
    the first is seen in the cycle of its acceptance. *)
Theorem c82_two_accepts_refuted : exists y, accepts y = [3; 4] /\ y_extra y <> [] /\ let p := m_p (cycle false true false mach0 y) in q_aid p = 4 /\ r_v p = true /\ r_id p = 3.
Proof. exists (CY true 3 false (EV (Some 3) true []) [EV (Some 4) true [(3, 77)]; quiet]). split; [reflexivity|]. split; [discriminate|]. vm_compute. repeat split; reflexivity. Qed.
(** On a write port an acceptance in an extra tick is noted with the id on the wires,
    which the mask has cleared: for any id but 0 the answer is seen in the cycle of
    the acceptance.  (The MMIO bridge uses id 0 only.) *)
Theorem c82_write_id_refuted : exists y, accepts y = [3] /\ y_extra y <> [] /\ let p := m_p (cycle false true true mach0 y) in q_acc p = true /\ r_v p = true /\ r_id p = 3.
Proof. exists (CY true 3 false quiet [EV (Some 3) true [(3, 77)]; quiet]). split; [reflexivity|]. split; [discriminate|]. vm_compute. repeat split; reflexivity. Qed.
Theorem c82_write_separated own early s y : y_extra y <> [] -> accepts y <> [] -> y_id y = 0 ->
  let p := m_p (cycle own early true s y) in q_acc p = true /\ (r_v p = true -> r_id p <> 0).
Proof.
  intros N A I0. cbn zeta.
  assert (CR : exists c p, ishown c = r_v p /\ (r_v p = true -> exists t, iq c = (r_id p, r_d p) :: t) /\ (r_v p = false -> iq c = []) /\ q_id p = 0 /\
    run_extra (tick own) false true (y_extra y) (comb_in (y_main y) c p) = (m_c (cycle own early true s y), m_p (cycle own early true s y))).
  { unfold cycle. destruct early.
    - pose proof (comb_out_facts own (m_c s) (drive (y_v y) (y_id y) (y_rdy y) (clear_in (m_p s)))) as C. cbn zeta in C.
      destruct (comb_out own (m_c s) (drive (y_v y) (y_id y) (y_rdy y) (clear_in (m_p s)))) as [c2 p2]. cbn [fst snd drive q_id] in C. destruct C as [_ [C2 [C3 [C4 [_ C6]]]]].
      exists c2, p2. split; [exact C2|]. split; [exact C3|]. split; [exact C4|]. split; [rewrite C6; exact I0|]. destruct (run_extra _ _ _ _ _). reflexivity.
    - pose proof (comb_out_facts own (m_c s) (clear_in (m_p s))) as C. cbn zeta in C.
      destruct (comb_out own (m_c s) (clear_in (m_p s))) as [c2 p2]. cbn [fst snd] in C. destruct C as [_ [C2 [C3 [C4 _]]]].
      exists c2, (drive (y_v y) (y_id y) (y_rdy y) p2). split; [exact C2|]. split; [exact C3|]. split; [exact C4|]. split; [exact I0|]. destruct (run_extra _ _ _ _ _). reflexivity. }
  destruct CR as [c [p [C2 [C3 [C4 [C6 EX]]]]]]. destruct (rest_facts _ _ _ _ _ _ _ _ C2 C3 C4 EX) as [_ [_ [X _]]].
  destruct (X N) as [_ [X2 [_ X4]]]. destruct (exists_last A) as [l [j L]]. destruct (note_last _ _ _ 0 L) as [B _]. rewrite X2, B. split; [reflexivity|].
  intros V E. rewrite V, B, C6, E in X4. cbn [andb] in X4.
  assert (Z0 : forall es, note true es 0 = 0). { clear. induction es as [|e es IH]; [reflexivity|]. cbn [note fold_left]. destruct (e_acc e); exact IH. }
  rewrite Z0, Z.eqb_refl in X4. discriminate X4.
Qed.
(** A late master that has a request accepted under the id of the response it takes
    gets the response twice. *)
Theorem c82_reuse_refuted : exists s, reach false false false (fun _ _ => True) s /\ m_all s = [(3, 77)] /\ m_got s = [(3, 77); (3, 77)].
Proof.
  exists (run false false false [CY false 0 false quiet [EV None true [(3, 77)]; quiet]; CY true 3 true (EV (Some 3) true []) [quiet; quiet]; CY false 0 true quiet [quiet; quiet]]).
  split; [|vm_compute; repeat split; reflexivity]. unfold run. cbn [fold_left]. do 3 (apply reachS; [|exact I]). apply reach0.
Qed.

Print Assumptions c82_invisible.
Print Assumptions c82_fast_untouched.
Print Assumptions c82_heard.
Print Assumptions c82_early_once.
Print Assumptions c82_late_once.
Print Assumptions c82_separated.
Print Assumptions c82_visible.
Print Assumptions c82_write_separated.
Print Assumptions c82_eager_refuted.
Print Assumptions c82_two_accepts_refuted.
Print Assumptions c82_write_id_refuted.
Print Assumptions c82_reuse_refuted.
