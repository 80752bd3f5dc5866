(** Examples for C29, and what does not hold. *)
From Verif Require Import Base BaseLemmas MemSpec MemModel DcModel DcSpec RtModel RtSpec RtTrace PtwModel Sv32Spec PtwSpec PtwProofs PtwMain PtwTrace.
Ltac qs := repeat first [apply Forall_cons; [split; reflexivity|] | apply Forall_nil].

(** Root table in page 1, second-level table in page 2, a page mapped to page 7 and
    an aligned superpage. *)
Definition tb : Z -> Z := fun w =>
  if w =? 1025 then 2 * 1024 + 1 else if w =? 2051 then 7 * 1024 + 207 else if w =? 1027 then 5 * 1048576 + 207 else if w =? 1028 then 5 * 1048576 + 1024 + 207 else 0.
Definition SATP : Z := 2 ^ 31 + 1.
Definition VA : Z := 2 ^ 22 + 3 * 4096 + 8.
Definition rq (va : Z) : wreq := mkwq va SATP 1.
Definition idle_cycles (n : nat) : list vin := repeat nothing n.
(** A two-level walk, a superpage, a misaligned superpage and an invalid entry. *)
Example c29_example_walks :
  let ans va := c_resp (pw_c (v_p (snd (run true ([asking Dtlb (rq va)] ++ idle_cycles 10) tb))) Dtlb) in
  ans VA = Some (mkwr false VA (7 * 1024 + 207) 0) /\
  ans (3 * 2 ^ 22 + 5) = Some (mkwr false (3 * 2 ^ 22 + 5) (5 * 1048576 + 207) 1) /\
  ans (4 * 2 ^ 22) = Some (mkwr true (4 * 2 ^ 22) 0 0) /\ ans 0 = Some (mkwr true 0 0 0) /\
  walk (fun a => tb (a / 4)) SATP VA = Leaf (7 * 1024 + 207) 0 /\
  v_polite true 14 ([asking Dtlb (rq VA)] ++ idle_cycles 10) (vsys0 tb) = true.
Proof. vm_compute. repeat split. Qed.
(** Both clients ask; each is answered, and after the answer is taken nothing is shown. *)
Example c29_example_both :
  let l := [both (rq VA) (rq (3 * 2 ^ 22))] ++ idle_cycles 20 ++ [taking Dtlb] in
  let x := snd (run true l tb) in
  v_polite true 14 l (vsys0 tb) = true /\ consumed Dtlb (fst (run true l tb)) = true /\ last_begun (fst (run true l tb)) = Some Itlb /\
  c_resp (pw_c (v_p x) Dtlb) = None /\ c_resp (pw_c (v_p x) Itlb) = Some (mkwr false (3 * 2 ^ 22) (5 * 1048576 + 207) 1).
Proof. vm_compute. repeat split. Qed.
(** Main memory silent: the walker waits and is on the list; a flush then frees it. *)
Example c29_example_wait :
  let l := [asking Dtlb (rq VA); nothing; nothing; nothing] in
  let x := snd (run false l tb) in
  v_polite false 14 l (vsys0 tb) = true /\ waits_st (pw_st (v_p x)) = true /\ served (v_m x) = None /\ flag OWalk (t_wait (m_rt (v_m x))) = true /\
  wready (v_p (snd (run false (l ++ [flushing Dtlb]) tb))) Dtlb = true.
Proof. vm_compute. repeat split. Qed.
(** The private walker with a port that delays everything by one step. *)
Example c29_example_private :
  let t i k := fst (fst (ktick i k)) in let no := mkkp None false in let yes := mkkp None true in let ans d := mkkp (Some d) false in
  match kstart VA SATP kflush with
  | Some k => let k := t (ans (7 * 1024 + 207)) (t no (t yes (t no (t (ans 2049) (t no (t yes (t no k))))))) in
              k_st k = KDone /\ k_pte k = 7 * 1024 + 207 /\ k_lev k = 0
  | None => False
  end.
Proof. vm_compute. repeat split. Qed.

(** Pointer entries with the reserved bits D, A or U set should fault; the walker
    follows them. *)
Definition tb2 : Z -> Z := fun w => if w =? 1025 then 2 * 1024 + 64 + 1 else tb w.
Theorem c29_reserved_bits_refuted :
  ~ forall m0 tr x c r q, vreach m0 tr x -> no_mem tr -> c_resp (pw_c (v_p x) c) = Some r -> last_req c tr = Some q ->
      y_hist (m_y (v_m x)) = [] -> exists o, same_outcome o (walk_strict (fun a => m0 (w32 a / 4)) (q_satp q) (q_va q)) /\ r = resp_of q o.
Proof.
  intros H. pose (l := [asking Dtlb (rq VA)] ++ idle_cycles 10).
  destruct (run_ok true l tb2) as [R N]; [qs|vm_compute; reflexivity|].
  specialize (H tb2 _ _ Dtlb (mkwr false VA (7 * 1024 + 207) 0) (rq VA) R N).
  assert (E1 : c_resp (pw_c (v_p (snd (run true l tb2))) Dtlb) = Some (mkwr false VA (7 * 1024 + 207) 0)) by (vm_compute; reflexivity).
  assert (E2 : last_req Dtlb (fst (run true l tb2)) = Some (rq VA)) by (vm_compute; reflexivity).
  assert (E3 : y_hist (m_y (v_m (snd (run true l tb2)))) = []) by (vm_compute; reflexivity).
  destruct (H E1 E2 E3) as (o & S & E). assert (F : walk_strict (fun a => tb2 (w32 a / 4)) (q_satp (rq VA)) (q_va (rq VA)) = Fault) by (vm_compute; reflexivity). rewrite F in S.
  destruct o; [discriminate E|contradiction].
Qed.
(** Tables are addressed with 32 bits: a root beyond 4 GiB is taken from the low
    4 GiB instead. *)
Theorem c29_high_tables_refuted :
  ~ forall m0 tr x c r q, vreach m0 tr x -> no_mem tr -> c_resp (pw_c (v_p x) c) = Some r -> last_req c tr = Some q ->
      r_fault r = true \/ pte1_addr (q_satp q) (q_va q) < 2 ^ 32.
Proof.
  intros H. pose (q := mkwq VA (2 ^ 31 + 2 ^ 20 + 1) 1). pose (l := [asking Dtlb q] ++ idle_cycles 10).
  destruct (run_ok true l tb) as [R N]; [qs|vm_compute; reflexivity|].
  specialize (H tb _ _ Dtlb (mkwr false VA (7 * 1024 + 207) 0) q R N).
  assert (E1 : c_resp (pw_c (v_p (snd (run true l tb))) Dtlb) = Some (mkwr false VA (7 * 1024 + 207) 0)) by (vm_compute; reflexivity).
  assert (E2 : last_req Dtlb (fst (run true l tb)) = Some q) by (vm_compute; reflexivity).
  destruct (H E1 E2) as [X|X]; [discriminate X|]. vm_compute in X. discriminate X.
Qed.

Print Assumptions c29_walk_exact.
Print Assumptions c29_walk_static.
Print Assumptions c29_reads_prescribed.
Print Assumptions c29_answer_taken_once.
Print Assumptions c29_pending_begins.
Print Assumptions c29_alternates.
Print Assumptions c29_wait_not_forgotten.
Print Assumptions c29_wait_has_cause.
Print Assumptions c29_read_passed_on.
Print Assumptions c29_private_walker_exact.
Print Assumptions c29_private_walker_ends.
Print Assumptions c29_reserved_bits_refuted.
Print Assumptions c29_high_tables_refuted.
