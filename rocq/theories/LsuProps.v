(** Properties C21, C22, C24, C25 of the whole load/store unit. *)
From Verif Require Import Base BaseLemmas Ring MemModel MemSpec MemProofs LsuModel LsuStq LsuRun LsuSpec LsuHist LsuCycle.
Local Open Scope nat_scope.

(** C24. After any execution the store queue holds exactly the live stores in
    program order (allocated, not squashed, not drained), the number of stores
    ever drained fixes every slot and wrap flag, and the committed ones are a
    prefix. *)
Theorem c24_store_queue_in_order : forall l g, sreach l g ->
  map key (ring STQ_SIZE (sq (st l)) (sh (st l)) (sn (st l))) = g_ord g /\ sn (st l) <= STQ_SIZE /\ sh (st l) = g_b g mod STQ_SIZE /\
  (forall k, k < sn (st l) -> s_flag (sq (st l) ((g_b g + k) mod STQ_SIZE)) = Nat.odd ((g_b g + k) / STQ_SIZE)) /\
  length (g_hist g) = g_b g + scc (st l) /\
  (forall k, k < sn (st l) -> com (s_st (sq (st l) ((g_b g + k) mod STQ_SIZE))) = (k <? scc (st l))).
Proof.
  intros l g R. apply sreach_GI in R. destruct R as [V O (acc & H & _)]. pose proof (v_C _ _ V) as (C1 & C2 & C3).
  assert (SL : forall k, (sh (st l) + k) mod STQ_SIZE = (g_b g + k) mod STQ_SIZE) by (intros k; rewrite (v_sh _ _ V); unfold STQ_SIZE; apply mod16).
  split; [symmetry; exact O|]. split; [exact C2|]. split; [exact (v_sh _ _ V)|]. split; [|split; [exact (hi_len _ _ _ _ _ H)|]].
  - intros k K. rewrite <- SL. exact (v_flag _ _ V k K).
  - intros k K. rewrite <- SL. exact (C3 k K).
Qed.
(** C24. The data cache sees its stores out of order and may refuse them, but
    the memory it ends up with is that of the accepted stores taken in program
    order; and a store leaves the queue only after it was accepted. *)
Theorem c24_effects_in_program_order : forall l g, sreach l g -> (forall h, In h (g_hist g) -> plain h = true -> h_wf h) -> exists acc,
  (forall p, In p acc -> p < length (g_hist g) /\ plain (nth p (g_hist g) h0) = true) /\ NoDup acc /\ length acc = length (g_log g) /\
  (forall p, p < g_b g -> plain (nth p (g_hist g) h0) = true -> In p acc) /\
  (forall W x, bytes_of (fold_left perform (g_log g) W) x = run_stores (map (fun p => nth p (g_hist g) h0) (in_order acc (length (g_hist g)))) (bytes_of W) x).
Proof. exact effects. Qed.
(** C24. Once the committed stores have drained, memory is exactly the result of
    executing all committed, effective, cacheable stores in program order. *)
Theorem c24_drained_memory : forall l g, sreach l g -> (forall h, In h (g_hist g) -> plain h = true -> h_wf h) -> scc (st l) = 0 ->
  forall W x, bytes_of (fold_left perform (g_log g) W) x = run_stores (filter plain (g_hist g)) (bytes_of W) x.
Proof. exact drained. Qed.
(** C24. Only committed, effective, cacheable stores are ever in flight, with
    their own address, data and strobe. *)
Theorem c24_only_committed_sent : forall l g x q, sreach l g -> g_pend g x = Some q ->
  exists p, g_b g <= p < length (g_hist g) /\ x = p mod STQ_SIZE /\ plain (nth p (g_hist g) h0) = true /\ q = req x (nth p (g_hist g) h0).
Proof. exact in_flight. Qed.

(** A run: two stores to the same word (SW then SB), the second one retried by
    the cache; then a third that is squashed by a misprediction. *)
Definition idle : lin := LIn [] false false 0 0 None true [] [] None [] [] [] [] [] None [] [].
Definition ex_in : list (lin * nat) :=
  let al l := LIn [] false false 0 0 None true [] [] None [] [] [] [] [] None [] l in
  let ex d a := LIn [] false false 0 0 None true [] [] None d a [] [] [] None [] [] in
  let mm m := LIn [] false false 0 0 None true [] [] None [] [] [] [] m None [] [] in
  let rs r := LIn [] false false 0 0 None true [] r None [] [] [] [] [] None [] [] in
  [ (al [SA 0 3 false 2 false; SA 0 4 false 0 false], 0);
    (al [SA 2 5 false 2 false], 0);
    (ex [StD 0 3 false 0x11223344%Z; StD 1 4 false 0xAA%Z] [StA 0 3 false 0x1000%Z 2%Z 0 false; StA 1 4 false 0x1001%Z 0%Z 0 false], 0);
    (mm [MR (MHit 0x80001000) 0 0; MR (MHit 0x80001001) 1 1], 0);
    (LIn [] false true 2 0 None true [] [] None [] [] [] [] [] None [] [], 0);
    (LIn [0; 1] false false 0 0 None true [] [] None [] [] [] [] [] None [] [], 2);
    (rs [DS 0 RHit], 0); (idle, 0); (rs [DS 1 RConflict], 0); (idle, 0); (rs [DS 1 RHit], 0); (idle, 0) ].
Example c24_run_ex : exists l g, sreach l g /\ g_b g = 2 /\ scc (st l) = 0 /\ sn (st l) = 0 /\
  g_hist g = [HS 0x80001000 2 0x11223344 false false; HS 0x80001001 0 0xAA false false] /\
  map (fun x => bytes_of (fold_left perform (g_log g) (fun _ => 0%Z)) x) [0x80001000; 0x80001001; 0x80001002; 0x80001003; 0x80001004]%Z = [0x44; 0xAA; 0x22; 0x11; 0]%Z.
Proof.
  destruct (sruns lsu0 g0 ex_in) as [[l g]|] eqn:E; [|vm_compute in E; discriminate]. exists l, g. split; [exact (sruns_reach _ _ _ _ _ sreach0 E)|].
  assert (X : match sruns lsu0 g0 ex_in with Some (l, g) => (g_b g, scc (st l), sn (st l), g_hist g, map (fun x => bytes_of (fold_left perform (g_log g) (fun _ => 0%Z)) x) [0x80001000; 0x80001001; 0x80001002; 0x80001003; 0x80001004]%Z) =
    (2, 0, 0, [HS 0x80001000 2 0x11223344 false false; HS 0x80001001 0 0xAA false false], [0x44; 0xAA; 0x22; 0x11; 0]%Z) | None => False end) by (vm_compute; reflexivity).
  rewrite E in X. injection X as X1 X2 X3 X4 X5 X6 X7 X8 X9. repeat (split; [assumption|]). cbn [map]. congruence.
Qed.
(** C22. The data of a store-conditional that fails is never written to memory:
    what the cache performs are effective stores only (c24_only_committed_sent,
    c24_drained_memory).  But a younger load of the same address takes it from
    the store queue: the forwarding scan does not look at the outcome of the
    SC (RealLsu.cpp:549-582).  [wruns] also collects the write-backs. *)
Fixpoint wruns (l : lsu) (g : gs) (ws : list wb) (is : list (lin * nat)) : option (lsu * gs * list wb) :=
  match is with
  | [] => Some (l, g, ws)
  | (i, n) :: t =>
    if senvb (g_b g) (st l) i n then
      let '(l', o) := lsu_cycle l i in
      let q := squash i (scc (st l) + taken (st l) n) (g_ord g ++ map galloc (i_sa i)) in
      if sn (st l') <=? length q then wruns l' (gstep (st l) i n o g (length q - sn (st l'))) (ws ++ o_wb o) t else None
    else None
  end.
(** C22. Memory side: if every committed store so far failed (or trapped) or was
    to a device, the cache has neither performed nor been asked anything. *)
Theorem c22_failed_sc_never_written : forall l g, sreach l g -> (forall h, In h (g_hist g) -> plain h = false) -> g_log g = [] /\ forall x, g_pend g x = None.
Proof.
  intros l g R N. destruct (effects l g R) as (acc & A & _ & B & _).
  { intros h I P. rewrite (N h I) in P. discriminate. }
  assert (P0 : forall p, p < length (g_hist g) -> plain (nth p (g_hist g) h0) = true -> False) by (intros p L P; rewrite N in P; [discriminate|now apply nth_In]).
  split.
  - destruct acc as [|p acc]; [destruct (g_log g); [reflexivity|discriminate]|]. destruct (A p (or_introl eq_refl)) as [A1 A2]. exfalso. exact (P0 p A1 A2).
  - intros x. destruct (g_pend g x) as [q|] eqn:E; [|reflexivity]. destruct (in_flight l g x q R E) as (p & P1 & _ & P2 & _). exfalso. apply (P0 p); [lia|exact P2].
Qed.
(** The write-backs of loads that return data (register [p]). *)
Definition returns (p : nat) (v : Z) (ws : list wb) : Prop := exists w, In w ws /\ w_preg w = p /\ w_en w = true /\ w_pfl w = false /\ w_pfs w = false /\ w_sta w = false /\ w_res w = v.
(** The property: if no store of the run takes effect, and neither the cache nor
    a device ever answers a load, then no load can return a value.  Register 9 is
    the destination of the loads, register 7 of the SCs. *)
Definition sc_in : list (lin * nat) :=
  let al l d := LIn [] false false 0 0 None true [] [] None [] [] [] [] [] None d l in
  let mm m := LIn [] false false 0 0 None true [] [] None [] [] [] [] m None [] [] in
  let ml m := LIn [] false false 0 0 None true [] [] None [] [] [] m [] None [] [] in
  let ex d a r := LIn [] false false 0 0 None true [] [] None d a r [] [] None [] [] in
  [ (al [SA 0 3 false 2 false] [], 0); (al [] [LA 0 0 4 false], 0);
    (ex [StD 0 3 false 0xDEAD%Z] [StA 0 3 false 0x1000%Z 2%Z 7 true] [], 0);
    (mm [MR (MHit 0x80001000) 0 0], 0);
    (ex [] [] [LdR 0 4 false 0x1000%Z 2%Z 9 1 false false], 0);
    (ml [MR (MHit 0x80001000) 0 0], 0); (idle, 0);
    (LIn [0] false false 0 0 None true [] [] None [] [] [] [] [] None [] [], 1); (idle, 0) ].
Theorem c22_failed_sc_not_forwarded_refuted :
  ~ (forall is l g ws v, wruns lsu0 g0 [] is = Some (l, g, ws) -> Forall (fun x => i_dl (fst x) = [] /\ i_mmio (fst x) = None) is ->
     Forall (fun x => Forall (fun r => lr_preg r = 9) (i_ldr (fst x)) /\ Forall (fun r => sa_preg r = 7) (i_sta (fst x))) is ->
     filter plain (g_hist g) = [] -> sn (st l) = 0 -> ~ returns 9 v ws).
Proof.
  intros H. destruct (wruns lsu0 g0 [] sc_in) as [[[l g] ws]|] eqn:E; [|vm_compute in E; discriminate].
  assert (X : match wruns lsu0 g0 [] sc_in with Some (l, g, ws) => (filter plain (g_hist g), sn (st l), map (fun w => (w_preg w, w_en w, w_res w, w_pfl w || w_pfs w || w_sta w)) ws) =
     ([], 0, [(7, true, 1%Z, false); (9, true, 0xDEAD%Z, false)]) | None => False end) by (vm_compute; reflexivity).
  rewrite E in X. injection X as X1 X2 X3. apply (H _ l g ws 0xDEAD%Z E); try assumption.
  - repeat (constructor; [split; reflexivity|]). constructor.
  - unfold sc_in. repeat (constructor; [split; repeat (constructor; [reflexivity|]); constructor|]). constructor.
  - clear E H. destruct ws as [|w0 [|w1 [|]]]; try discriminate X3. cbn [map] in X3. assert (B4 : w_pfl w1 || w_pfs w1 || w_sta w1 = false) by congruence. assert (B : w_preg w1 = 9 /\ w_en w1 = true /\ w_res w1 = 0xDEAD%Z) by (repeat split; congruence). destruct B as (B1 & B2 & B3). exists w1.
    apply orb_false_iff in B4 as [B4 B5]. apply orb_false_iff in B4 as [B4 B6]. repeat split; try assumption. right. now left.
Qed.
Print Assumptions c24_store_queue_in_order.
Print Assumptions c24_effects_in_program_order.
Print Assumptions c24_drained_memory.
Print Assumptions c24_only_committed_sent.
Print Assumptions c22_failed_sc_not_forwarded_refuted.
Print Assumptions c22_failed_sc_never_written.
