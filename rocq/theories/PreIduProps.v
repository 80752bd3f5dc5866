(** C07: instruction buffer.  C08: fetch-target queue. *)
From Verif Require Import Base BaseLemmas Ring PreIduModel PreIduSpec PreIduProofs.
Local Open Scope nat_scope.
Ltac Zify.zify_post_hook ::= Z.div_mod_to_equations.

(** *** A run used by the examples: three blocks, decode takes two per cycle. *)
Definition fA := Fetch (fun k => FSlot true (Z.of_nat k) (100 + 4 * Z.of_nat k) false (k =? 3) (7 + Z.of_nat k)) 200.
Definition fB := Fetch (fun k => FSlot (negb (k =? 0)) (10 + Z.of_nat k) (196 + 4 * Z.of_nat k) false false (17 + Z.of_nat k)) 300.
Definition mk f cons com := PreIn f false false false 0 cons com.
Definition none := Fetch (fun _ => FSlot false 0 0 false false 0) 0.
Definition i1 := mk fA [] [].
Definition i2 := mk fB [true; true] [].
Definition i3 := mk fA [true; true] [Some (CEntry 0 0 false); Some (CEntry 0 1 false)].
Definition i4 := mk none [true; true] [Some (CEntry 0 2 false); Some (CEntry 0 3 true)].
Definition imis := PreIn none false false true 1 [] [].
Definition go (p : preq * ghost) (i : pre_in) (m : nat) := (pre_step (fst p) i, g_step (snd p) (fst p) i m).
Definition s0 := (preq_init, Ghost [] [] []).
Definition s1 := go s0 i1 0. Definition s2 := go s1 i2 0. Definition s3 := go s2 i3 0. Definition s4 := go s3 i4 0.
Definition s5 := go s4 imis 2.
Ltac pfx n := exists n; eexists; split; [reflexivity|]; split; [vm_compute; repeat constructor|cbn; solve [intuition congruence]].
Ltac env_tac := constructor; [first [pfx 0 | pfx 1 | pfx 2] | vm_compute; reflexivity | vm_compute; repeat constructor | ].
Lemma r1 : reach (fst s1) (snd s1).
Proof. apply reach_step; [apply reach_init|]. env_tac. discriminate. Qed.
Lemma r2 : reach (fst s2) (snd s2).
Proof. apply reach_step; [apply r1|]. env_tac. discriminate. Qed.
Lemma r3 : reach (fst s3) (snd s3).
Proof. apply reach_step; [apply r2|]. env_tac. discriminate. Qed.
Lemma r4 : reach (fst s4) (snd s4).
Proof. apply reach_step; [apply r3|]. env_tac. discriminate. Qed.
Lemma e5 : env_ok (snd s4) (fst s4) imis 2.
Proof.
  env_tac. intros _. right. split; [reflexivity|]. split; [vm_compute; repeat constructor|].
  eexists. split; vm_compute; reflexivity.
Qed.
Lemma r5 : reach (fst s5) (snd s5).
Proof. apply reach_step; [apply r4|exact e5]. Qed.

(** *** C07 *)
(** Since the buffer was last emptied: everything accepted is what decode took,
    in order, followed by what the buffer still holds. *)
Theorem c07_fifo : forall st g, reach st g ->
  accepted g = consumed g ++ map (ib_peek (ib st)) (seq 0 (ib_count (ib st))) /\
  ib_count (ib st) <= 32.
Proof. intros st g R. apply reach_inv in R. split; [apply (v_stream _ _ R)|apply (v_ib _ _ R)]. Qed.
Print Assumptions c07_fifo.
Example c07_fifo_ex : reach (fst s3) (snd s3) /\ map e_inst (accepted (snd s3)) = [0; 1; 2; 3; 11; 12; 13; 0; 1; 2; 3]%Z /\
  map e_inst (consumed (snd s3)) = [0; 1; 2; 3]%Z /\ ib_count (ib (fst s3)) = 7.
Proof. split; [exact r3|vm_compute; auto]. Qed.

(** Decode is offered the next two of the stream. *)
Theorem c07_offers_next : forall st g, reach st g ->
  issue st = firstn 2 (skipn (length (consumed g)) (accepted g)).
Proof.
  intros st g R. apply reach_inv in R. rewrite (v_stream _ _ R), skipn_app, Nat.sub_diag, skipn_all. cbn [app skipn].
  apply issue_spec. apply (v_ib _ _ R).
Qed.
Print Assumptions c07_offers_next.
Example c07_offers_next_ex : map e_inst (issue (fst s3)) = [11; 12]%Z.
Proof. vm_compute. reflexivity. Qed.

(** A block is taken whole: the valid slots, in slot order, with their words,
    PCs and fetch-fault marks. *)
Theorem c07_accepts_whole_block : forall st g i m, reach st g -> env_ok g st i m ->
  i_flush i = false -> front_ready st i = true ->
  exists new, accepted (g_step g st i m) = accepted g ++ new /\
    map (fun e => (e_inst e, e_pc e, e_fault e)) new =
    flat_map (fun s => if fs_valid s then [(fs_inst s, fs_pc s, fs_fault s)] else [])
      (map (f_slot (i_fetch i)) [0; 1; 2; 3]).
Proof.
  intros st g i m R E F RD. exists (push_entries st i).
  assert (MP : i_mispred i = false) by (unfold front_ready in RD; destruct (i_mispred i); [discriminate|reflexivity]).
  split; [unfold g_step; rewrite F, MP; reflexivity|].
  unfold push_entries, accepts. rewrite RD. cbn [andb].
  assert (L : forall l, map (fun e => (e_inst e, e_pc e, e_fault e)) (map (push_entry (q_tail st) (i_fetch i)) (filter (fun k => fs_valid (f_slot (i_fetch i) k)) l)) =
     flat_map (fun s => if fs_valid s then [(fs_inst s, fs_pc s, fs_fault s)] else []) (map (f_slot (i_fetch i)) l)).
  { induction l as [|k l IH]; [reflexivity|]. cbn [filter map flat_map].
    destruct (fs_valid (f_slot (i_fetch i) k)); cbn [map app]; rewrite IH; reflexivity. }
  specialize (L [0; 1; 2; 3]). rewrite <- L. fold (seq 0 FW). change [0; 1; 2; 3] with (seq 0 FW). fold (incoming (i_fetch i)).
  destruct (incoming (i_fetch i)); reflexivity.
Qed.
Print Assumptions c07_accepts_whole_block.
Example c07_accepts_whole_block_ex : env_ok (snd s1) (fst s1) i2 0 /\ front_ready (fst s1) i2 = true.
Proof. split; [env_tac; discriminate|vm_compute; reflexivity]. Qed.

(** Fetch is held back only during a redirect, or when the buffer has no room
    for the whole group, or when 16 blocks are in flight. *)
Theorem c07_ready_exact : forall st g i, reach st g ->
  (front_ready st i = true <->
   i_mispred i = false /\ i_stale_flush i = false /\
   length (blocks g) < 16 /\
   ib_count (ib st) + length (filter fs_valid (map (f_slot (i_fetch i)) [0; 1; 2; 3])) <= 32).
Proof.
  intros st g i R. apply reach_inv in R. pose proof (v_q _ _ R) as (_ & Q & _). rewrite map_length in Q.
  pose proof (v_ib _ _ R) as (_ & IC & _).
  unfold front_ready, can_accept. rewrite Q.
  assert (L : length (incoming (i_fetch i)) = length (filter fs_valid (map (f_slot (i_fetch i)) [0; 1; 2; 3]))).
  { unfold incoming. change [0; 1; 2; 3] with (seq 0 FW). generalize (seq 0 FW). intros l.
    induction l as [|k l IH]; [reflexivity|]. cbn [filter map]. destruct (fs_valid (f_slot (i_fetch i) k)); cbn [length]; rewrite IH; reflexivity. }
  rewrite L. set (n := length (filter _ _)). unfold IBN, FTQN in *.
  destruct (i_mispred i); destruct (i_stale_flush i); cbn [orb negb andb];
    try (split; [discriminate|intros (A & B & _); discriminate]).
  rewrite andb_true_iff, Nat.ltb_lt, Nat.leb_le. split; [intros [A B]|intros (_ & _ & A & B)]; repeat split; lia.
Qed.
Print Assumptions c07_ready_exact.
(** Two more of every slot valid than room: nine groups of four need 36 places. *)
Fixpoint fill (n : nat) : preq * ghost := match n with O => s0 | S n' => go (fill n') (mk fA [] []) 0 end.
Lemma fill_reach n : reach (fst (fill n)) (snd (fill n)).
Proof.
  induction n; [apply reach_init|]. cbn [fill]. apply reach_step; [exact IHn|].
  constructor; [exists 0, []; split; [reflexivity|split; [lia|intros ? []]]|reflexivity|cbn; lia|discriminate].
Qed.
Example c07_ready_exact_ex : reach (fst (fill 8)) (snd (fill 8)) /\ ib_count (ib (fst (fill 8))) = 32 /\
  front_ready (fst (fill 8)) i1 = false /\ front_ready (fst (fill 7)) i1 = true.
Proof. split; [apply fill_reach|vm_compute; auto]. Qed.

Theorem c07_flush_empties : forall st i, (i_flush i = true \/ i_mispred i = true) -> issue (pre_step st i) = [].
Proof.
  intros st i H. unfold pre_step. destruct (i_flush i); [reflexivity|].
  destruct H as [H|H]; [discriminate|]. rewrite H. reflexivity.
Qed.
Print Assumptions c07_flush_empties.
Example c07_flush_empties_ex : length (issue (fst s4)) = 2 /\ issue (fst s5) = [].
Proof. vm_compute. auto. Qed.

(** *** C08 *)
(** Looking up the index and offset an in-flight instruction carries returns
    what fetch delivered for its slot. *)
Theorem c08_lookup : forall st g k f l e, reach st g ->
  nth_error (blocks g) k = Some (f, l) -> In e l ->
  ftq_lookup st (e_idx e) (e_off e) =
    (true, fs_pc (f_slot f (e_off e)), fs_dir (f_slot f (e_off e)), f_next f) /\
  e_pc e = fs_pc (f_slot f (e_off e)) /\ e_inst e = fs_inst (f_slot f (e_off e)).
Proof.
  intros st g k f l e R N I. apply reach_inv in R.
  destruct (blocks_nth _ _ _ _ (v_blocks _ _ R) N) as [_ A]. cbn [fst snd] in A.
  rewrite Forall_forall in A. destruct (A e I) as (I1 & I2 & I3 & I4 & I5 & _).
  destruct (lookup_block st g k f l R N) as (L1 & L2).
  unfold ftq_lookup. rewrite I1, L1, L2. auto.
Qed.
Print Assumptions c08_lookup.
Example c08_lookup_ex : reach (fst s4) (snd s4) /\ length (blocks (snd s4)) = 2 /\
  map (fun e => ftq_lookup (fst s4) (e_idx e) (e_off e)) (insts (blocks (snd s4))) =
  [(true, 200, false, 300); (true, 204, false, 300); (true, 208, false, 300);
   (true, 100, false, 200); (true, 104, false, 200); (true, 108, false, 200); (true, 112, true, 200)]%Z.
Proof. split; [exact r4|vm_compute; auto]. Qed.

(** Instructions of different blocks in flight carry different indices. *)
Theorem c08_index_names_block : forall st g j k bj bk e e', reach st g ->
  nth_error (blocks g) j = Some bj -> nth_error (blocks g) k = Some bk ->
  In e (snd bj) -> In e' (snd bk) -> e_idx e = e_idx e' -> j = k.
Proof.
  intros st g j k bj bk e e' R J K E E' X. apply reach_inv in R.
  destruct (blocks_nth _ _ _ _ (v_blocks _ _ R) J) as [_ A]. destruct (blocks_nth _ _ _ _ (v_blocks _ _ R) K) as [_ A'].
  rewrite Forall_forall in A, A'. destruct (A e E) as (I1 & _). destruct (A' e' E') as (I1' & _).
  rewrite I1, I1' in X. pose proof (v_q _ _ R) as (_ & _ & Q & _). rewrite map_length in Q.
  assert (J' : j < length (blocks g)) by (apply nth_error_Some; congruence).
  assert (K' : k < length (blocks g)) by (apply nth_error_Some; congruence).
  apply slot_inj in X; unfold FTQN in *; lia.
Qed.
Print Assumptions c08_index_names_block.
Example c08_index_names_block_ex : map (fun b => map e_idx (snd b)) (blocks (snd s4)) = [[1; 1; 1]; [2; 2; 2; 2]].
Proof. vm_compute. reflexivity. Qed.

(** The queue holds exactly the blocks with instructions in flight, at most 16,
    and an entry is marked valid iff such a block occupies it. *)
Theorem c08_occupancy_exact : forall st g, reach st g ->
  q_count st = length (blocks g) /\ length (blocks g) <= 16 /\
  Forall (fun b => snd b <> []) (blocks g) /\
  forall x, x < 16 -> (q_valid st x = true <-> exists e, In e (insts (blocks g)) /\ e_idx e = x).
Proof.
  intros st g R. apply reach_inv in R. pose proof (v_q _ _ R) as (Q1 & Q2 & Q3 & _ & _ & Q6).
  rewrite map_length in Q2, Q3. split; [exact Q2|]. split; [exact Q3|].
  assert (NEB : forall k b, nth_error (blocks g) k = Some b -> snd b <> []).
  { intros k b N X. pose proof (block_len _ _ (blocks_nth _ _ _ _ (v_blocks _ _ R) N)) as L. rewrite X in L. cbn in L. lia. }
  split.
  - apply Forall_forall. intros b B. apply In_nth_error in B. destruct B as (k & B). apply (NEB k b B).
  - intros x X. destruct (slot_surj FTQN (q_head st) x) as (k & K & ->); [unfold FTQN; lia|exact X|].
    rewrite Q6 by exact K. rewrite Nat.ltb_lt. split.
    + intros L. destruct (nth_error (blocks g) k) as [[f l]|] eqn:N; [|apply nth_error_None in N; lia].
      pose proof (NEB _ _ N) as NE. destruct l as [|e l]; [contradiction|].
      destruct (blocks_nth _ _ _ _ (v_blocks _ _ R) N) as [_ A]. cbn [snd fst] in A. inversion A as [|? ? A1 _]; subst.
      exists e. split; [|apply A1]. unfold insts. apply in_concat. exists (e :: l). split; [|left; reflexivity].
      apply in_map_iff. exists (f, e :: l). split; [reflexivity|]. eapply nth_error_In. exact N.
    + intros (e & E & EI). unfold insts in E. apply in_concat in E. destruct E as (l & L & E).
      apply in_map_iff in L. destruct L as ([f l'] & <- & B). apply In_nth_error in B. destruct B as (j & B).
      destruct (blocks_nth _ _ _ _ (v_blocks _ _ R) B) as [_ A]. rewrite Forall_forall in A. destruct (A e E) as (I1 & _).
      rewrite I1 in EI. assert (j < length (blocks g)) by (apply nth_error_Some; congruence).
      apply slot_inj in EI; unfold FTQN in *; lia.
Qed.
Print Assumptions c08_occupancy_exact.
Example c08_occupancy_exact_ex : q_count (fst s4) = 2 /\ map (q_valid (fst s4)) [0; 1; 2; 3] = [false; true; true; false].
Proof. vm_compute. auto. Qed.

(** A new block never takes the index of a block in flight. *)
Theorem c08_alloc_fresh : forall st g i e e', reach st g -> In e (push_entries st i) -> In e' (insts (blocks g)) -> e_idx e <> e_idx e'.
Proof.
  intros st g i e e' R E E' X. destruct (c08_occupancy_exact st g R) as (Q & L & _ & V).
  apply reach_inv in R. pose proof (v_q _ _ R) as (Q1 & Q2 & Q3 & Q4 & _ & Q6).
  unfold push_entries in E. destruct (accepts st i) eqn:A; [|destruct E].
  apply in_map_iff in E. destruct E as (k & <- & _). cbn [e_idx push_entry] in X.
  assert (LT : q_count st < FTQN).
  { unfold accepts, front_ready in A. destruct (Nat.ltb_spec (q_count st) FTQN); [assumption|]. cbn in A. rewrite andb_false_r in A. discriminate. }
  assert (T : q_valid st (q_tail st) = false).
  { rewrite Q4, Q6 by exact LT. apply Nat.ltb_irrefl. }
  assert (q_valid st (q_tail st) = true); [|congruence].
  apply V; [rewrite Q4; apply Nat.mod_upper_bound; discriminate|]. exists e'. auto.
Qed.
Print Assumptions c08_alloc_fresh.
Example c08_alloc_fresh_ex : map e_idx (push_entries (fst s4) i1) = [3; 3; 3; 3] /\ map e_idx (insts (blocks (snd s4))) = [1; 1; 1; 2; 2; 2; 2].
Proof. vm_compute. auto. Qed.

(** Recovery to a branch keeps its block and the older ones, and exactly the
    instructions up to the branch, with their indices. *)
Theorem c08_recover_exact : forall st g i m, reach st g -> env_ok g st i m ->
  i_flush i = false -> i_mispred i = true ->
  exists k, k < length (blocks g) /\
    (exists b e, nth_error (blocks g) k = Some b /\ In e (snd b) /\ e_idx e = i_mis_idx i) /\
    q_count (pre_step st i) = S k /\
    map fst (blocks (g_step g st i m)) = firstn (S k) (map fst (blocks g)) /\
    map (fun e => (e_idx e, e_off e, e_pc e)) (insts (blocks (g_step g st i m))) =
    map (fun e => (e_idx e, e_off e, e_pc e)) (firstn m (insts (blocks g))).
Proof.
  intros st g i m R E F MP. pose proof (reach_step st g i m R E) as R'.
  destruct (c08_occupancy_exact _ _ R') as (C & _). rewrite C. clear C R'.
  unfold g_step. rewrite F, MP. cbn [blocks].
  destruct E as [_ _ _ EM]. destruct (EM MP) as [X|(_ & M & e & E & EI)]; [congruence|].
  apply reach_inv in R.
  assert (ML : 1 <= m <= length (insts (blocks g))) by (unfold left_buffer in M; lia).
  destruct (keep_spec _ _ m (v_blocks _ _ R) ML) as (k & K1 & K2 & K3 & K4 & K5).
  exists k. split; [exact K1|]. split; [|split; [|split]].
  - specialize (K3 e E). destruct (nth_error (blocks g) k) as [b|] eqn:N; [|apply nth_error_None in N; lia].
    exists b. destruct (blocks_nth _ _ _ _ (v_blocks _ _ R) N) as [(l & z & L & _) A].
    rewrite Forall_forall in A. exists z. split; [reflexivity|].
    assert (Z : In z (snd b)) by (rewrite L; apply in_or_app; right; left; reflexivity).
    split; [exact Z|]. destruct (A z Z) as (I1 & _). congruence.
  - apply (f_equal (@length _)) in K2. rewrite firstn_length, !map_length in K2. lia.
  - exact K2.
  - rewrite K5. destruct (exists_last (l := firstn m (insts (blocks g)))) as (p & x & X).
    + intros X. apply (f_equal (@length _)) in X. rewrite firstn_length in X. cbn in X. lia.
    + rewrite X, mark_last_snoc, !map_app. reflexivity.
Qed.
Print Assumptions c08_recover_exact.
Example c08_recover_exact_ex : env_ok (snd s4) (fst s4) imis 2 /\ i_mispred imis = true /\
  q_count (fst s4) = 2 /\ q_count (fst s5) = 1.
Proof. split; [exact e5|vm_compute; auto]. Qed.

(** At commit the training data, PC and predicted direction reported for an
    instruction are those fetch delivered with it (and the code's own check
    that the FIFO cursor matches the instruction's index holds). *)
Theorem c08_commit_info : forall st g i m, reach st g -> env_ok g st i m ->
  Forall (fun p => match p with
     | (None, None) => True
     | (Some c, Some (pc, tk, meta, ok)) =>
         exists f l e, In (f, l) (blocks g) /\ In e l /\ c = CEntry (e_idx e) (e_off e) (e_last e) /\ ok = true /\
           pc = fs_pc (f_slot f (e_off e)) /\ tk = fs_dir (f_slot f (e_off e)) /\ meta = fs_meta (f_slot f (e_off e))
     | _ => False end) (combine (i_commit i) (commit_infos st i)) /\
  length (commit_infos st i) = length (i_commit i).
Proof.
  intros st g i m R E. apply reach_inv in R. destruct E as [_ EC _ _]. split.
  - unfold commit_infos. pose proof (v_q _ _ R) as (Q1 & Q2 & _). rewrite map_length in Q2.
    pose proof (commit_info_spec st g (i_commit i) (blocks g) 0 (length (commits i)) R) as H.
    rewrite Nat.add_0_r, Nat.mod_small in H by exact Q1.
    replace (0 <? q_count st) with (negb (length (blocks g) =? 0)).
    + apply H; [|reflexivity|apply (v_blocks _ _ R)|exact EC].
      intros j [f l] J. exists f, l, l. auto.
    + rewrite Q2. destruct (blocks g); reflexivity.
  - unfold commit_infos. generalize (q_head st) (0 <? q_count st). induction (i_commit i) as [|[c|] l IH]; intros n b; [reflexivity| |]; cbn; f_equal; apply IH.
Qed.
Print Assumptions c08_commit_info.
Example c08_commit_info_ex : env_ok (snd s3) (fst s3) i4 0 /\
  commit_infos (fst s3) i4 = [Some (108, false, 9, true); Some (112, true, 10, true)]%Z.
Proof. split; [env_tac; discriminate|vm_compute; reflexivity]. Qed.
