(** Ages in the reorder buffer: lap flags and positions. *)
From Verif Require Import Base BaseLemmas ExecModel RobModel RobSpec RobProofs RobProps BrArbModel BrArbProps.
Local Open Scope nat_scope.
Ltac Zify.zify_post_hook ::= Z.div_mod_to_equations.

(** The lap flag of index [k] while [r] is the reorder buffer. *)
Definition lap (r : rob) (k : nat) : bool := xorb (deq_flag r) (rob_line k <? deq_ptr r).
(** Its place in program order, counted from the start of a lap. *)
Definition apos (r : rob) (k : nat) : Z :=
  ((if deq_flag r then 64 else 0) + (if (rob_line k <? deq_ptr r)%nat then 64 else 0) + Z.of_nat k)%Z.
Definition wbase (r : rob) : Z := ((if deq_flag r then 64 else 0) + 2 * Z.of_nat (deq_ptr r))%Z.

Lemma apos_placed r k s : k < 64 -> r_idx s = Z.of_nat k -> r_flag s = lap r k -> placed 64 s (apos r k).
Proof.
  intros K I F. unfold placed, apos. rewrite I, F. unfold lap. clear I F.
  destruct (deq_flag r), (rob_line k <? deq_ptr r); cbn [xorb]; (split; [lia|]); (split; [lia|]).
  - replace ((64 + 64 + Z.of_nat k) / 64)%Z with 2%Z by lia. reflexivity.
  - replace ((64 + 0 + Z.of_nat k) / 64)%Z with 1%Z by lia. reflexivity.
  - replace ((0 + 64 + Z.of_nat k) / 64)%Z with 1%Z by lia. reflexivity.
  - replace ((0 + 0 + Z.of_nat k) / 64)%Z with 0%Z by lia. reflexivity.
Qed.
Lemma apos_window r k : k < 64 -> deq_ptr r < 32 -> window 64 (wbase r) (apos r k).
Proof.
  intros K D. unfold window, apos, wbase, rob_line, BANKS.
  destruct (deq_flag r); destruct (Nat.ltb_spec (k / 2) (deq_ptr r)); lia.
Qed.

(** Positions increase along the contents. *)
Lemma apos_line r a b k k' : deq_ptr r < LINES -> a < LINES -> b < LINES -> a < b -> rob_line k = (deq_ptr r + a) mod LINES -> rob_line k' = (deq_ptr r + b) mod LINES ->
  (apos r k < apos r k')%Z.
Proof.
  intros D A B AB K K'. unfold apos. unfold rob_line, BANKS, LINES in *. destruct (deq_flag r);
  destruct (Nat.ltb_spec (k / 2) (deq_ptr r)); destruct (Nat.ltb_spec (k' / 2) (deq_ptr r)); lia.
Qed.
Lemma LB_sorted r l bs : forall b, (b + length bs <= 2) -> forall x k y k' z, map fst (LB l b bs) = x ++ k :: y ++ k' :: z -> (apos r k < apos r k')%Z.
Proof.
  induction bs as [|e bs IH]; intros b B x k y k' z H; [destruct x; discriminate|]. cbn [LB length] in *.
  destruct (e_valid e); [|exact (IH (S b) ltac:(lia) _ _ _ _ _ H)]. cbn [map fst] in H. destruct x as [|x0 x]; [|injection H as _ H; exact (IH (S b) ltac:(lia) _ _ _ _ _ H)].
  injection H as <- H. assert (I : In k' (map fst (LB l (S b) bs))) by (rewrite H; apply in_or_app; right; now left).
  apply LB_keys in I as (j & J & ->). unfold apos, rob_line, make_rob_idx, BANKS.
  replace ((l * 2 + (S b + j)) / 2) with l by lia. replace ((l * 2 + b) / 2) with l by lia.
  destruct (deq_flag r), (l <? deq_ptr r); lia.
Qed.
Lemma split_left (l1 l2 x : list nat) k w : l1 ++ l2 = x ++ k :: w -> length x < length l1 -> exists u, l1 = x ++ k :: u /\ u ++ l2 = w.
Proof.
  revert l1. induction x as [|x0 x IH]; intros [|c l1] H L; cbn [length app] in *; try lia.
  - injection H as -> H. exists l1. auto.
  - injection H as -> H. destruct (IH l1 H ltac:(lia)) as (u & -> & U). exists u. auto.
Qed.
Lemma win_sorted r n : wf r n -> forall m a, a + m <= LINES -> forall x k y k' z, map fst (win r a m) = x ++ k :: y ++ k' :: z -> (apos r k < apos r k')%Z.
Proof.
  intros W. induction m as [|m IH]; intros a A x k y k' z H; [destruct x; discriminate|]. rewrite win_S, map_app in H.
  assert (LK : forall j, In j (map fst (line_contents r ((deq_ptr r + a) mod LINES))) -> rob_line j = (deq_ptr r + a) mod LINES).
  { intros j J. rewrite line_contents_LB in J. apply LB_keys in J as (i & I & ->). rewrite (wf_len _ _ W) in I. unfold rob_line, make_rob_idx, BANKS in *. lia. }
  assert (WK : forall j, In j (map fst (win r (S a) m)) -> exists c, a < c < LINES /\ rob_line j = (deq_ptr r + c) mod LINES).
  { intros j J. apply (win_keys r n) in J as (c & C & E); [|exact W]. exists c. split; [lia|exact E]. }
  pose proof (wf_deq _ _ W) as D.
  set (l1 := map fst (line_contents r _)) in *. set (l2 := map fst (win r (S a) m)) in *.
  destruct (Nat.le_gt_cases (length l1) (length x)) as [L1|L1].
  - assert (X : x = l1 ++ skipn (length l1) x).
    { rewrite <- (firstn_skipn (length l1) x) at 1. f_equal. assert (Q : firstn (length l1) (l1 ++ l2) = firstn (length l1) (x ++ k :: y ++ k' :: z)) by now rewrite H. rewrite firstn_app, Nat.sub_diag, firstn_O, app_nil_r, firstn_all in Q. rewrite firstn_app in Q. replace (length l1 - length x) with 0 in Q by lia. rewrite firstn_O, app_nil_r in Q. symmetry. exact Q. }
    rewrite X, <- app_assoc in H. apply app_inv_head in H. exact (IH (S a) ltac:(lia) _ _ _ _ _ H).
  - pose proof (split_left l1 l2 x k _ H L1) as X.
    destruct X as (u & X & U). assert (IK : In k l1) by (rewrite X; apply in_or_app; right; now left).
    destruct (Nat.le_gt_cases (length u) (length y)) as [L2|L2].
    + assert (IK' : In k' l2). { clear - U L2. revert y U L2. induction u as [|u0 u IH]; intros y U L2; [cbn in U; rewrite U; apply in_or_app; right; now left|]. destruct y as [|y0 y]; [cbn in L2; lia|]. cbn in *. injection U as _ U. exact (IH y U ltac:(lia)). }
      destruct (WK _ IK') as (c & C & E). exact (apos_line r a c k k' D ltac:(lia) ltac:(lia) ltac:(lia) (LK _ IK) E).
    + destruct (split_left u l2 y k' z U L2) as (v & -> & _).
      unfold l1 in X. rewrite line_contents_LB in X. refine (LB_sorted r _ _ 0 _ _ _ _ _ _ X). rewrite (wf_len _ _ W). unfold BANKS. lia.
Qed.
Lemma older_pos r q a e y e' z : reach r q -> q = a ++ e :: y ++ e' :: z -> (apos r (q_idx e) < apos r (q_idx e'))%Z.
Proof.
  intros H Q. destruct (reach_inv r q H) as (n & W & F). pose proof (tracks_keys _ _ F) as K. rewrite (contents_win _ _ W), Q, map_app in K. cbn [map] in K. rewrite map_app in K.
  exact (win_sorted r n W n 0 (wf_n _ _ W) _ _ _ _ _ K).
Qed.

(** Lap flags do not change while the instruction is in flight. *)
Lemma step_deq r n i : wf r n -> b_flush (broadcast r i) = false -> deq_ptr (rob_step r i) = deq_ptr (comb_commit r i) /\ deq_flag (rob_step r i) = deq_flag (comb_commit r i).
Proof.
  intros W F. unfold rob_step. rewrite F. unfold comb_flush, comb_fire, comb_branch, comb_complete. destruct (_ && _); destruct (RobModel.i_mispred i); cbn [deq_ptr deq_flag]; auto.
Qed.
Lemma commit_deq r i : deq_ptr r < LINES -> (deq_ptr (comb_commit r i) = deq_ptr r /\ deq_flag (comb_commit r i) = deq_flag r) \/
  (deq_ptr (comb_commit r i) = (deq_ptr r + 1) mod LINES /\ deq_flag (comb_commit r i) = xorb (deq_flag r) (LINES <=? deq_ptr r + 1)).
Proof.
  intros D. assert (G : forall nl, let r' := (let ls := fupd (lines r) (deq_ptr r) nl in if drained nl then let d := line_inc (deq_ptr r) in Rob ls (enq_ptr r) d (enq_flag r) (if d =? 0 then negb (deq_flag r) else deq_flag r) else Rob ls (enq_ptr r) (deq_ptr r) (enq_flag r) (deq_flag r)) in
    (deq_ptr r' = deq_ptr r /\ deq_flag r' = deq_flag r) \/ (deq_ptr r' = (deq_ptr r + 1) mod LINES /\ deq_flag r' = xorb (deq_flag r) (LINES <=? deq_ptr r + 1))).
  { intros nl. cbv zeta. destruct (drained nl); [right|left; split; reflexivity]. cbn [deq_ptr deq_flag]. unfold line_inc, LINES in *.
    destruct (Nat.eqb_spec (deq_ptr r + 1) 32) as [E|E].
    - rewrite E. cbn. destruct (deq_flag r); auto.
    - split; [lia|]. destruct (Nat.eqb_spec (deq_ptr r + 1) 0) as [E0|_]; [lia|]. destruct (Nat.leb_spec 32 (deq_ptr r + 1)) as [L|L]; [lia|]. destruct (deq_flag r); reflexivity. }
  unfold comb_commit. cbv zeta. destruct (fst (decide r i)); [apply G|apply G|left; split; reflexivity].
Qed.
Lemma lap_keep r n i c k : wf r n -> b_flush (broadcast r i) = false -> rob_line k = (deq_ptr r + c) mod LINES -> c < LINES ->
  (forall n', wf (comb_commit r i) n' -> n' <= n -> deq_ptr (comb_commit r i) <> deq_ptr r -> c <> 0) -> lap (rob_step r i) k = lap r k.
Proof.
  intros W F K C Z. destruct (step_deq r n i W F) as [A B]. unfold lap. rewrite A, B. destruct (commit_ok r n i W) as (n' & W' & N & _).
  destruct (commit_deq r i (wf_deq _ _ W)) as [[E1 E2]|[E1 E2]]; [now rewrite E1, E2|]. pose proof (wf_deq _ _ W) as D.
  assert (NE : deq_ptr (comb_commit r i) <> deq_ptr r) by (rewrite E1; unfold LINES in *; lia). specialize (Z n' W' N NE). rewrite E1, E2, K.
  unfold LINES in *. destruct (Nat.leb_spec 32 (deq_ptr r + 1)); destruct (Nat.ltb_spec ((deq_ptr r + c) mod 32) ((deq_ptr r + 1) mod 32)); destruct (Nat.ltb_spec ((deq_ptr r + c) mod 32) (deq_ptr r)); destruct (deq_flag r); try reflexivity; exfalso; lia.
Qed.
Lemma lap_flight r q i e : reach r q -> b_flush (broadcast r i) = false -> In e (skipn (length (committed r i)) q) -> lap (rob_step r i) (q_idx e) = lap r (q_idx e).
Proof.
  intros H F I. destruct (reach_inv r q H) as (n & W & T). destruct (commit_ok r n i W) as (n1 & W1 & N1 & C1 & E1 & _).
  assert (K : In (q_idx e) (map fst (contents (comb_commit r i)))).
  { assert (KL : length (keyed r (committed r i)) = length (committed r i)) by (unfold keyed; apply map_length).
    pose proof (tracks_keys _ _ T) as TK. rewrite C1, map_app in TK. apply (in_map q_idx) in I. rewrite <- skipn_map, <- TK in I.
    rewrite skipn_app, map_length, KL, Nat.sub_diag, skipn_O in I. rewrite skipn_all2 in I by (rewrite map_length, KL; lia). exact I. }
  rewrite (contents_win _ _ W1) in K. apply (win_keys _ n1) in K as (c & C & E); [|exact W1].
  pose proof (wf_deq _ _ W) as D. pose proof (wf_deq _ _ W1) as D1. pose proof (wf_n _ _ W) as NL. pose proof (wf_enq _ _ W) as Q. pose proof (wf_enq _ _ W1) as Q1. rewrite E1, Q in Q1.
  destruct (commit_deq r i D) as [[A B]|[A B]].
  - apply (lap_keep r n i c _ W F); [now rewrite <- A|lia|]. intros n' _ _ NE. now rewrite A in NE.
  - apply (lap_keep r n i (S c) _ W F).
    + rewrite E, A. unfold LINES in *. lia.
    + rewrite A in Q1. unfold LINES in *. lia.
    + lia.
Qed.
Lemma lap_new r q i e : reach r q -> b_flush (broadcast r i) = false -> rob_ready r = true -> length (i_fire i) = BANKS -> In e (arrivals (enq_ptr r) 0 (i_fire i)) -> lap (rob_step r i) (q_idx e) = enq_flag r.
Proof.
  intros H F RD LF I. destruct (reach_inv r q H) as (n & W & T). pose proof (wf_n _ _ W) as NL. pose proof (wf_deq _ _ W) as D.
  assert (N : n < LINES). { unfold rob_ready in RD. rewrite (wf_full _ _ W) in RD. apply negb_true_iff, Nat.eqb_neq in RD. lia. }
  assert (K : rob_line (q_idx e) = enq_ptr r).
  { unfold BANKS in LF. destruct (i_fire i) as [|o1 [|o2 [|]]]; try discriminate. destruct o1, o2; cbn [arrivals In] in I; repeat (destruct I as [<-|I]); try contradiction; cbn [q_idx]; unfold rob_line, make_rob_idx, BANKS; lia. }
  rewrite (lap_keep r n i n (q_idx e) W F).
  - unfold lap. rewrite K, (wf_flag _ _ W), (wf_enq _ _ W). f_equal. apply eq_true_iff_eq. rewrite Nat.ltb_lt, Nat.leb_le. unfold LINES in *. lia.
  - rewrite K. apply (wf_enq _ _ W).
  - exact N.
  - intros n' W' N' NE. destruct (commit_ok r n i W) as (n1 & W1 & N1 & _ & E1 & _). pose proof (wf_enq _ _ W1) as Q1. rewrite E1, (wf_enq _ _ W) in Q1. pose proof (wf_n _ _ W1). destruct (commit_deq r i D) as [[A B]|[A B]]; [now rewrite A in NE|]. rewrite A in Q1. unfold LINES in *. lia.
Qed.
