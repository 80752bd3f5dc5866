(** Examples for C30, and what does not hold. *)
From Verif Require Import Base BaseLemmas MemSpec MemModel DcModel DcSpec RtModel RtSpec RtTrace PtwModel Sv32Spec PtwSpec PtwProofs PtwMain PtwTrace TlbModel TlbSpec TlbProofs TlbMain TlbTrace.

(** Root table in page 1, second-level table in page 2: a supervisor page 3 -> 7
    (R, W, X, A, D), a user page 4 -> 8 (R only), a page 5 -> 9 without A; a superpage. *)
Definition ptb : Z -> Z := fun w =>
  if w =? 1025 then 2 * 1024 + 1 else if w =? 2051 then 7 * 1024 + 207 else if w =? 2052 then 8 * 1024 + 83 else if w =? 2053 then 9 * 1024 + 15
  else if w =? 1027 then 5 * 1048576 + 207 else if w =? 2054 then (2 ^ 20 + 7) * 1024 + 207 else 0.
Definition VP (n : Z) : Z := 2 ^ 22 + n * 4096 + 8.
Definition sv (sum : bool) : csrs := mkcs (2 ^ 31 + 1) 1 false sum false 0.
Definition us : csrs := mkcs (2 ^ 31 + 1) 0 false false false 0.
(** A load misses, waits for the walk and gets the address; then hits at once; a store
    to the same page too; user mode is refused the page. *)
Example c30_example_load :
  let l := repeat (load (sv false) (VP 3)) 12 in let u := snd (urun l ptb) in
  outs Dtlb (load (sv false) (VP 3)) (usys0 ptb) = [(2, 0); (0, 0); (0, 0); (0, 0)] /\
  outs Dtlb (load (sv false) (VP 3 + 4)) u = [(0, 7 * 4096 + 12); (0, 0); (0, 0); (0, 0)] /\
  outs Dtlb (store (sv false) (VP 3)) u = [(0, 0); (0, 0); (0, 7 * 4096 + 8); (0, 0)] /\
  outs Dtlb (load us (VP 3)) u = [(1, 0); (0, 0); (0, 0); (0, 0)] /\
  outs Itlb (fetch (sv false) (VP 3)) u = [(2, 0)].
Proof. vm_compute. repeat split. Qed.
(** A user page from supervisor mode: refused without SUM, allowed with it. *)
Example c30_example_sum :
  let u := snd (urun (repeat (load (sv true) (VP 4)) 12) ptb) in
  outs Dtlb (load (sv true) (VP 4)) u = [(0, 8 * 4096 + 8); (0, 0); (0, 0); (0, 0)] /\
  outs Dtlb (load (sv false) (VP 4)) u = [(1, 0); (0, 0); (0, 0); (0, 0)] /\ outs Dtlb (store (sv true) (VP 4)) u = [(0, 0); (0, 0); (1, 0); (0, 0)].
Proof. vm_compute. repeat split. Qed.
(** A flush empties the table, and an address space with another ASID misses. *)
Example c30_example_flush :
  let l := repeat (fetch (sv false) (VP 3)) 12 in let u := snd (urun l ptb) in
  let u2 := snd (urun (l ++ [inp (DPorts csrs0 [] []) (mkio true true None csrs0)]) ptb) in
  outs Itlb (fetch (sv false) (VP 3)) u = [(0, 7 * 4096 + 8)] /\ outs Itlb (fetch (sv false) (VP 3)) u2 = [(2, 0)] /\
  outs Itlb (fetch (mkcs (2 ^ 31 + 2 ^ 22 + 1) 1 false false false 0) (VP 3)) u = [(2, 0)].
Proof. vm_compute. repeat split. Qed.
Ltac calm1 := split; [reflexivity|split; [reflexivity|vm_compute; reflexivity]].
Lemma in_run (k : list uin) z j : forall x t, In (z, j) (since_flush Dtlb (fst (u_runs true 14 k x t))) -> In j k \/ In (z, j) t.
Proof.
  induction k as [|y k IH]; intros x t H; [right|].
  - cbn [u_runs fst] in H. induction t as [|[a b] t IH]; [destruct H|]. cbn [since_flush] in H. destruct (flushes Dtlb b); [destruct H|]. destruct H as [H|H]; [left; exact H|right; auto].
  - cbn [u_runs] in H. destruct (IH _ _ H) as [Y|[Y|Y]]; [left; right; exact Y|injection Y as _ ->; left; left; reflexivity|right; exact Y].
Qed.
(** The hypotheses of the theorems hold together: a load answered from the table, the
    tables unchanged, the answer that of a fresh walk. *)
Example c30_example_fresh :
  let l := repeat (load (sv false) (VP 3)) 12 in let u := snd (urun l ptb) in let i := load (sv false) (VP 3) in
  exists r, ureach ptb (fst (urun l ptb)) u /\ ucycle u i (u_next true 14 u i) /\ answered u i Dtlb Read (VP 3) (sv false) r /\ po_result r <> 2 /\
  agrees r (translation (walk (fun a => ptb (w32 a / 4)) (2 ^ 31 + 1) (VP 3)) (ctx_of (sv false)) Read (2 ^ 31 + 1) (VP 3)).
Proof.
  intros l u i. assert (F : Forall calm l) by (apply Forall_forall; intros x X; apply repeat_spec in X; subst x; calm1). assert (C : calm i) by calm1.
  exists (mkpo true 0 (7 * 4096 + 8) 0 2 0 207).
  assert (R : ureach ptb (fst (urun l ptb)) u) by (apply urun_ok; exact F). assert (UC : ucycle u i (u_next true 14 u i)) by (apply urun_next; auto).
  assert (A : answered u i Dtlb Read (VP 3) (sv false) (mkpo true 0 (7 * 4096 + 8) 0 2 0 207)).
  { eapply (answered_load u i (sv false) [Some (VP 3); None] [None; None] 0); [reflexivity|reflexivity|]. vm_compute. reflexivity. }
  assert (N : po_result (mkpo true 0 (7 * 4096 + 8) 0 2 0 207) <> 2) by discriminate.
  repeat (split; [assumption|]). apply (c30_same_as_fresh_walk _ _ _ _ _ _ _ _ _ _ (fun a => ptb (w32 a / 4)) R UC A N); [vm_compute; split; congruence|].
  intros s U. assert (H0 : y_hist (m_y (v_m (u_v u))) = []) by (vm_compute; reflexivity).
  split.
  - apply c30_tables_unchanged. intros a j _ J. rewrite H0, firstn_nil. apply bytes_word.
  - destruct U as (z & j & cs & IN & CI & <-). assert (J : In j l) by (destruct (in_run l z j (usys0 ptb) [] IN) as [Y|[]]; exact Y).
    apply repeat_spec in J. subst j. injection CI as <-. intros _. cbn [sv s_satp]. set (o := walk _ _ _). destruct o; cbn; auto.
Qed.

(** Physical addresses have 32 bits: a mapping to a page beyond 4 GiB is used as one to
    a page below. *)
Theorem c30_high_pages_refuted :
  ~ forall m0 tr u i u' c k va cs r, ureach m0 tr u -> ucycle u i u' -> answered u i c k va cs r -> po_result r = 0 -> y_hist (m_y (v_m (u_v u))) = [] ->
      (forall s, used tr c s -> s = s_satp cs) -> Some (po_pa r) = translation (walk (fun a => m0 (w32 a / 4)) (s_satp cs) va) (ctx_of cs) k (s_satp cs) va.
Proof.
  intros H. pose (l := repeat (load (sv false) (VP 6)) 12). pose (u := snd (urun l ptb)). pose (i := load (sv false) (VP 6)).
  assert (F : Forall calm l) by (apply Forall_forall; intros x X; apply repeat_spec in X; subst x; calm1). assert (C : calm i) by calm1.
  assert (A : answered u i Dtlb Read (VP 6) (sv false) (mkpo true 0 (7 * 4096 + 8) 0 2 0 207)).
  { eapply (answered_load u i (sv false) [Some (VP 6); None] [None; None] 0); [reflexivity|reflexivity|]. vm_compute. reflexivity. }
  assert (H0 : y_hist (m_y (v_m (u_v u))) = []) by (vm_compute; reflexivity).
  specialize (H ptb (fst (urun l ptb)) u i _ Dtlb Read (VP 6) (sv false) _ (urun_ok l ptb F) (urun_next l ptb i F C) A eq_refl H0).
  assert (US : forall s, used (fst (urun l ptb)) Dtlb s -> s = s_satp (sv false)).
  { intros s (z & j & cs & IN & CI & <-). assert (J : In j l) by (destruct (in_run l z j (usys0 ptb) [] IN) as [Y|[]]; exact Y).
    apply repeat_spec in J. subst j. injection CI as <-. reflexivity. }
  specialize (H US). vm_compute in H. discriminate H.
Qed.

Print Assumptions c30_answers_come_from_walks.
Print Assumptions c30_same_as_fresh_walk.
Print Assumptions c30_tables_unchanged.
Print Assumptions c30_tables_settled.
Print Assumptions c30_asks_when_ready.
Print Assumptions c30_walk_never_lost.
Print Assumptions c30_flush_empties.
Print Assumptions c30_fetch_answered.
Print Assumptions c30_access_answered.
Print Assumptions c30_status_fields.
Print Assumptions c30_high_pages_refuted.
