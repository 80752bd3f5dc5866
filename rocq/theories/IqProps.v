(** C09, C10: the issue queues. *)
From Verif Require Import Base BaseLemmas IqModel IqSpec IqProofs.
From Coq Require Import Permutation.
Local Open Scope nat_scope.

(** *** A run used by the examples: a queue of four entries, two ports. *)
Definition cfg0 := Cfg 4 [(0, fun op => (op =? 0) || (op =? 1)); (1, fun op => (op =? 0) || (op =? 2))].
Definition free_fu (p op : nat) := true.
(* 1 waits for register 40; 2 waits for register 41, announced this very cycle; 3 is ready but needs port 1 *)
Definition ua := Uop 1 true true 40 true false 7 0 2 100.
Definition ub := Uop 2 true true 41 false true 0 1 6 200.
Definition uc := Uop 3 false false 0 false false 0 2 6 300.
Definition n1 := IqIn false free_fu [] [ua] false false 0 0.
Definition n2 := IqIn false free_fu [41] [ub; uc] false false 0 0.
Definition n3 := IqIn false free_fu [40] [] false true 4 2.
Definition cyc (s : iq * hist) (i : iq_in) := (iq_step cfg0 (fst s) i, h_step (snd s) i (map (fun pu => u_id (snd pu)) (grants cfg0 (fst s) i))).
Definition s0 := (iq_init, Hist [] [] [] []).
Definition s1 := cyc s0 n1.
Definition s2 := cyc s1 n2.
Definition s3 := cyc s2 n3.
Ltac env_tac := constructor; [vm_compute; lia|split; [repeat constructor; cbn; intuition discriminate|cbn; intuition lia]|repeat constructor].
Lemma s1_reach : reach cfg0 (fst s1) (snd s1).
Proof. apply reach_step; [apply reach_init|env_tac]. Qed.
Lemma s2_reach : reach cfg0 (fst s2) (snd s2).
Proof. apply reach_step; [apply s1_reach|env_tac]. Qed.
Lemma s3_reach : reach cfg0 (fst s3) (snd s3).
Proof. apply reach_step; [apply s2_reach|env_tac]. Qed.

(** The queue holds exactly the waiting micro-operations, each once, and each
    with its payload, with a source marked missing iff it has not been
    announced, and with the branch mask minus the resolved branches. *)
Theorem c09_contents : forall c st h, reach c st h ->
  (forall u, In u (held c st) -> exists w, In w (queue h) /\ stored_as w u) /\
  (forall w, In w (queue h) -> exists u, In u (held c st) /\ stored_as w u) /\
  NoDup (map u_id (held c st)) /\ NoDup (ids (queue h)) /\ length (held c st) = length (queue h).
Proof.
  intros c st h R. apply reach_inv in R. destruct R as [R P N L].
  split; [|split; [|split; [|split]]].
  - intros u H. apply held_in in H; [|apply R]. destruct H as (k & E). apply (r_to _ _ _ R _ _ E).
  - intros w H. destruct (r_of _ _ _ R w H) as (k & u & E & S). exists u. split; [|exact S]. apply held_in; [apply R|eauto].
  - apply (held_ids_nodup _ _ _ R).
  - apply R.
  - rewrite <- (map_length u_id (held c st)), (held_map u_id 0), map_length, <- (wf_count _ _ (r_wf _ _ _ R)). apply (count_len _ _ _ R).
Qed.
Print Assumptions c09_contents.
Example c09_contents_ex : reach cfg0 (fst s2) (snd s2) /\ map u_id (held cfg0 (fst s2)) = [1; 2; 3] /\
  map u_s1busy (held cfg0 (fst s2)) = [true; false; false].
Proof. split; [exact s2_reach|vm_compute; auto]. Qed.

(** Every micro-operation ever dispatched to the queue is, exactly once, either
    issued, or squashed, or still waiting. *)
Theorem c09_conservation : forall c st h, reach c st h ->
  Permutation (ever h) (issued h ++ squashed h ++ ids (queue h)) /\ NoDup (issued h ++ squashed h ++ ids (queue h)).
Proof.
  intros c st h R. apply reach_inv in R. destruct R as [R P N L]. split; [exact P|]. exact (Permutation_NoDup P N).
Qed.
Print Assumptions c09_conservation.
Example c09_conservation_ex : reach cfg0 (fst s3) (snd s3) /\ ever (snd s3) = [1; 2; 3] /\ issued (snd s3) = [2; 3] /\
  squashed (snd s3) = [] /\ ids (queue (snd s3)) = [1].
Proof. split; [exact s3_reach|vm_compute; auto]. Qed.

(** What is issued was waiting, with every source it uses announced (or
    available at dispatch), goes to a port that can execute it and whose unit
    accepts it, and not in a cycle with a flush or mispredict. *)
Theorem c09_issue_sound : forall c st h i p u, reach c st h -> In (p, u) (grants c st i) ->
  exists w cap, In w (queue h) /\ stored_as w u /\ s1_avail w = true /\ s2_avail w = true /\
    In (p, cap) (c_ports c) /\ cap (u_op u) = true /\ i_fu_ready i p (u_op u) = true /\ i_block i = false.
Proof. intros c st h i p u R. apply reach_inv in R. apply stored_grant. apply (v_rel _ _ _ R). Qed.
Print Assumptions c09_issue_sound.
Example c09_issue_sound_ex : map (fun pu => (fst pu, u_id (snd pu))) (grants cfg0 (fst s2) n3) = [(0, 2); (1, 3)] /\
  map (fun pu => u_id (snd pu)) (grants cfg0 (fst s1) n2) = [].
Proof. vm_compute. auto. Qed.

(** At most one micro-operation per port per cycle, none twice. *)
Theorem c09_one_per_port : forall c st h i, reach c st h -> NoDup (map fst (c_ports c)) ->
  NoDup (map fst (grants c st i)) /\ NoDup (map (fun pu => u_id (snd pu)) (grants c st i)).
Proof.
  intros c st h i R N. apply reach_inv in R. destruct R as [R _ _ _]. split; [apply grant_ports_nodup; [apply R|exact N]|].
  apply (out_ids_nodup c st _ i R).
Qed.
Print Assumptions c09_one_per_port.
Example c09_one_per_port_ex : NoDup (map fst (c_ports cfg0)) /\ length (grants cfg0 (fst s2) n3) = 2.
Proof. split; [repeat constructor; cbn; intuition lia|vm_compute; reflexivity]. Qed.

(** No wakeup is lost: a micro-operation whose sources were all announced
    (whenever that was, its dispatch cycle included) is issued as soon as the
    units accept, unless every port able to execute it takes another one. *)
Theorem c09_no_lost_wakeup : forall c st h i w p cap, reach c st h -> In w (queue h) ->
  s1_avail w = true -> s2_avail w = true ->
  In (p, cap) (c_ports c) -> cap (u_op (w_uop w)) = true -> i_block i = false ->
  (forall p' cap' op, In (p', cap') (c_ports c) -> cap' op = true -> i_fu_ready i p' op = true) ->
  In (wid w) (map (fun pu => u_id (snd pu)) (grants c st i)) \/ In p (map fst (grants c st i)).
Proof.
  intros c st h i w p cap R. apply reach_inv in R. intros Iw A1 A2 P C B F.
  destruct (grant_progress c st (queue h) i w p cap (v_rel _ _ _ R) Iw A1 A2 P C B F) as [X|X]; [right; exact X|left; exact X].
Qed.
Print Assumptions c09_no_lost_wakeup.
Example c09_no_lost_wakeup_ex : exists w, In w (queue (snd s2)) /\ wid w = 2 /\ u_s1busy (w_uop w) = true /\
  s1_avail w = true /\ s2_avail w = true /\ i_block n3 = false.
Proof. exists (Waiting ub [41] [0%Z]). split; [vm_compute; auto|vm_compute; auto]. Qed.

(** The free-slot count reported to dispatch is exact and never negative. *)
Theorem c09_free_slots_exact : forall c st h, reach c st h ->
  length (queue h) <= c_size c /\ free_slots c st = c_size c - length (queue h).
Proof.
  intros c st h R. apply reach_inv in R. destruct R as [R _ _ L]. rewrite (count_len _ _ _ R) in L. split; [exact L|].
  unfold free_slots. now rewrite (count_len _ _ _ R).
Qed.
Print Assumptions c09_free_slots_exact.
Example c09_free_slots_exact_ex : free_slots cfg0 (fst s2) = 1 /\ free_slots cfg0 (fst s3) = 3.
Proof. vm_compute. auto. Qed.

(** C10.  A mispredict removes exactly the entries whose mask meets the
    mispredicted branch's, keeping the others (and their order of slots)
    unchanged but for the resolved branches' bits. *)
Theorem c10_mispredict_exact : forall c st h i, reach c st h -> env_ok c st h i ->
  i_flush_all i = false -> i_flush_br i = true ->
  held c (iq_step c st i) =
  map (fun u => set_mask u (Z.ldiff (u_mask u) (i_clear i)))
      (filter (fun u => (Z.land (u_mask u) (i_br_mask i) =? 0)%Z) (held c (before_flush c st i))).
Proof.
  intros c st h i R E FA FB. apply reach_inv in R. destruct (before_flush_rel _ _ _ _ R E) as (q & Q).
  unfold iq_step. rewrite (held_flush c i _ q Q FA), FB. reflexivity.
Qed.
Print Assumptions c10_mispredict_exact.
Definition n3' := IqIn true free_fu [40] [] false true 4 2.
Example c10_mispredict_exact_ex : reach cfg0 (fst s2) (snd s2) /\ env_ok cfg0 (fst s2) (snd s2) n3' /\
  map u_id (held cfg0 (before_flush cfg0 (fst s2) n3')) = [1; 2; 3] /\
  map (fun u => (u_id u, u_mask u)) (held cfg0 (iq_step cfg0 (fst s2) n3')) = [(1, 0%Z)].
Proof. split; [exact s2_reach|]. split; [env_tac|vm_compute; auto]. Qed.

(** A flush leaves nothing, and the queue then behaves as after reset. *)
Theorem c10_flush_empties : forall c st i, i_flush_all i = true ->
  held c (iq_step c st i) = [] /\ count (iq_step c st i) = 0 /\
  (forall k, slots (iq_step c st i) k = None) /\
  (forall p k, wm1 (iq_step c st i) p k = false /\ wm2 (iq_step c st i) p k = false).
Proof.
  intros c st i F. unfold iq_step, comb_flush. rewrite F.
  assert (X : forall k, slots (if nz (i_clear i) then clear_br c (i_clear i) iq_init else iq_init) k = None).
  { intros k. destruct nz; [|reflexivity]. cbn [clear_br slots iq_init]. destruct (k <? c_size c); reflexivity. }
  split; [|split; [destruct nz; reflexivity|split; [exact X|destruct nz; cbn; auto]]].
  unfold held. induction (seq 0 (c_size c)) as [|k l IH]; [reflexivity|]. cbn [flat_map]. rewrite X. exact IH.
Qed.
Print Assumptions c10_flush_empties.
Example c10_flush_empties_ex : held cfg0 (fst s2) <> [] /\
  held cfg0 (iq_step cfg0 (fst s2) (IqIn true free_fu [40] [] true false 0 0)) = [].
Proof. split; vm_compute; [discriminate|reflexivity]. Qed.

(** Resolving branches without a mispredict removes only their bits. *)
Theorem c10_resolve_only_bits : forall c st h i, reach c st h -> env_ok c st h i ->
  i_flush_all i = false -> i_flush_br i = false ->
  held c (iq_step c st i) = map (fun u => set_mask u (Z.ldiff (u_mask u) (i_clear i))) (held c (before_flush c st i)).
Proof.
  intros c st h i R E FA FB. apply reach_inv in R. destruct (before_flush_rel _ _ _ _ R E) as (q & Q).
  unfold iq_step. rewrite (held_flush c i _ q Q FA), FB. reflexivity.
Qed.
Print Assumptions c10_resolve_only_bits.
Example c10_resolve_only_bits_ex :
  map (fun u => (u_id u, u_mask u)) (held cfg0 (iq_step cfg0 (fst s2) (IqIn true free_fu [] [] false false 0 2))) = [(1, 0%Z); (2, 4%Z); (3, 4%Z)].
Proof. vm_compute. reflexivity. Qed.
