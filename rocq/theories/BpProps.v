(** C62, C63: branch history, return addresses, next address; training queues. *)
From Verif Require Import Base BaseLemmas IsaSpec FrontModel FrontSpec BpModel BpSpec BpProofs BpMain BpQueue.
From Verif Require RobModel.
Local Open Scope nat_scope.

(** *** C62 Histories *)
(** The committed history register holds the directions of the last 512 committed
    conditional branches, the latest first; the speculative one those of [spec_br]. *)
Theorem c62_directions t s : breach t s ->
  holds_dirs (h_ghr (b_arch s)) (arch_br t) /\ holds_dirs (h_ghr (b_spec s)) (spec_br t).
Proof. intros R. destruct (breach_inv t s R) as [(A & _) (B & _)]. split; [exact A|exact B]. Qed.
(** All twelve folded registers are the folds of their history, on both sides. *)
Theorem c62_folds t s k i n len : breach t s -> In (k, i, n, len) folds ->
  is_fold len n (arch_br t) (h_fh (b_arch s) k i) /\ is_fold len n (spec_br t) (h_fh (b_spec s) k i).
Proof. intros R I. destruct (breach_inv t s R) as [(_ & A & _) (_ & B & _)]. split; [now apply A|now apply B]. Qed.
(** A folded register is determined by the directions it folds. *)
Theorem c62_fold_determined len n l v w : is_fold len n l v -> is_fold len n l w -> v = w.
Proof.
  intros [Hv Bv] [Hw Bw]. apply (word_ext (Z.of_nat len)); [lia|exact Hv|exact Hw|]. intros i Hi.
  rewrite <- (Z2Nat.id i) by lia. rewrite Bv, Bw by lia. reflexivity.
Qed.
(** The path registers are one function of the last sixteen branches. *)
Theorem c62_path : exists P : list (Z * bool) -> Z,
  (forall l, (0 <= P l < 2 ^ 16)%Z) /\
  forall t s, breach t s -> h_path (b_arch s) = P (firstn 16 (arch_br t)) /\ h_path (b_spec s) = P (firstn 16 (spec_br t)).
Proof.
  exists path_fun. split.
  - intros [|b l]; [cbn; lia|]. cbn [path_fun fold_right]. apply path_range.
  - intros t s R. destruct (breach_inv t s R) as [(_ & _ & A) (_ & _ & B)].
    rewrite A, B. split; apply path_fun_16.
Qed.
(** A redirection makes the speculative side equal to the committed one. *)
Theorem c62_redirected s x s' o : bcycle s x = Some (s', o) -> bi_refetch x = true ->
  b_spec s' = b_arch s' /\ b_sras s' = b_aras s' /\ b_pc s' = bi_addr x.
Proof.
  intros C R. destruct (bcycle_inv _ _ _ _ C) as (e & wr & cnt & _ & -> & _). cbn [b_spec b_arch b_sras b_aras b_pc]. rewrite R.
  split; [reflexivity|split; reflexivity].
Qed.

(** *** C62 Return addresses *)
Theorem c62_stacks t s : breach t s -> shows (b_aras s) (arch_sk t) /\ shows (b_sras s) (spec_sk t).
Proof. intros R. destruct (breach_inv t s R) as [_ _ A B]. split; assumption. Qed.
(** The committed stack shows the innermost calls in progress: its entries are the
    latest ones of the unbounded stack, and all of them when nesting stayed within
    sixteen. *)
Theorem c62_innermost_calls t s : breach t s ->
  (exists deeper, call_stack (committed t) = arch_sk t ++ deeper) /\
  (shallow (committed t) [] -> arch_sk t = call_stack (committed t)).
Proof.
  intros R. rewrite arch_sk_fold. split.
  - destruct (prefix_fold (committed t) [] [] (ex_intro _ [] eq_refl)) as [r E]. exists r. exact E.
  - intros S. exact (shallow_fold _ _ S).
Qed.

(** *** C62 The prediction *)
(** Every instruction of the block asks the direction and target predictors of
    its own bank, with its own address. *)
Theorem c62_requests t s x i : breach t s -> bin_ok x -> p_do s x = true -> in_block (p_pc s x) i = true ->
  pred_req s x (bank_of (pc_of (p_pc s x) i)) = Some (pc_of (p_pc s x) i / 4)%Z.
Proof.
  intros R HO D B. assert (i < 4) by (destruct (Nat.lt_ge_cases i 4); [assumption|rewrite in_block_ge in B by assumption; discriminate]).
  apply pred_req_is; auto. exact (p_pc_word t s x (breach_inv t s R) HO).
Qed.
(** The directions and the next address: the first instruction of the block that
    is expected to jump decides; a return goes to the top of the stack. *)
Theorem c62_prediction t s x s' o : breach t s -> bin_ok x -> bcycle s x = Some (s', o) -> bo_ptab o = true ->
  (forall b, pred_req s x b <> None -> bi_btb x b <> None /\ bi_tage x b <> None) ->
  bo_pc o = b_pc s /\
  (forall i, bo_dir o i = match bi_tage x (bank_of (pc_of (b_pc s) i)) with
                          | Some (d, _) => in_block (b_pc s) i && jumps (bi_type x i) d
                          | None => in_block (b_pc s) i && jumps (bi_type x i) false end \/ 4 <= i) /\
  Some (bo_next o) = match first_taken (b_pc s) (bo_dir o) 4 0 with
    | Some i => match bi_btb x (bank_of (pc_of (b_pc s) i)) with
                | Some a => Some (target (bi_type x i) (hd_error (spec_sk t)) a) | None => None end
    | None => Some (block_end (b_pc s)) end /\
  b_pc s' = bo_next o.
Proof.
  intros R HO C PT HQ. pose proof (breach_inv t s R) as I. pose proof (p_pc_word t s x I HO) as W.
  destruct (bcycle_inv _ _ _ _ C) as (e & wr & cnt & _ & -> & ->). cbn [bo_ptab bo_pc bo_dir bo_next b_pc] in *.
  apply andb_true_iff in PT. destruct PT as [D NR]. apply negb_true_iff in NR.
  assert (EP: p_pc s x = b_pc s) by (unfold p_pc; now rewrite NR).
  assert (ER: p_ras s x = hd_error (spec_sk t)) by (unfold p_ras; rewrite NR; apply shows_top; exact (iv_sras _ _ I)).
  assert (HB: forall j, j < 4 -> in_block (p_pc s x) j = true -> bi_btb x (bank_of (pc_of (p_pc s x) j)) <> None).
  { intros j Hj B. apply HQ. rewrite pred_req_is by assumption. discriminate. }
  split; [exact EP|]. split; [|split].
  - intros i. destruct (Nat.lt_ge_cases i 4) as [L|L]; [left|now right].
    rewrite final_jumps by assumption. rewrite D, p_bank_eq, EP. cbn [andb].
    destruct (bi_tage x (bank_of (pc_of (b_pc s) i))) as [[d m]|]; reflexivity.
  - unfold p_next. rewrite D. change (seq 0 NF) with (seq 0 4).
    rewrite (next_is s x 4 0 W D ltac:(lia) HB). rewrite EP, ER in *.
    destruct (first_taken (b_pc s) (final_dir s x) 4 0) as [i|] eqn:F.
    + assert (B: i < 4 /\ in_block (b_pc s) i = true).
      { assert (G: forall n j, j + n <= 4 -> first_taken (b_pc s) (final_dir s x) n j = Some i -> i < 4 /\ in_block (b_pc s) i = true).
        { induction n as [|n IH]; intros j Hj; [discriminate|]. cbn [first_taken].
          destruct (in_block (b_pc s) j && final_dir s x j) eqn:A; [intros [= <-]; apply andb_true_iff in A; split; [lia|exact (proj1 A)]|].
          apply IH. lia. }
        exact (G 4 0 ltac:(lia) F). }
      specialize (HB i (proj1 B) (proj2 B)). destruct (bi_btb x (bank_of (pc_of (b_pc s) i))); [reflexivity|congruence].
    + f_equal. unfold p_bound. rewrite EP. apply FrontProofs.seq_next_spec. exact W.
  - now rewrite NR, D.
Qed.
(** The fetch-address part of FrontModel.v is this unit: with the same inputs the
    pc register, the request and the answer coincide. *)
Theorem c62_front_same fs c s x s' o :
  c_reset c = false -> fs_pc fs = b_pc s -> fs_send fs = b_send s ->
  bi_refetch x = g_refetch fs c -> bi_addr x = g_addr fs c -> bi_ready x = bpu_ready fs c ->
  bcycle s x = Some (s', o) -> c_pred c = Pred (bo_dir o) (bo_meta o) (bo_next o) ->
  pc_next fs c = b_pc s' /\ send_next fs c = b_send s' /\
  bpu_pc fs c = bo_pc o /\ bpu_rv fs c = bo_valid o /\ bpu_ptw fs c = bo_ptab o.
Proof.
  intros NR P S RF RA RD C CP. destruct (bcycle_inv _ _ _ _ C) as (e & wr & cnt & _ & -> & ->).
  unfold pc_next, send_next, bpu_pc, bpu_rv, bpu_ptw, bpu_do, g_reset. rewrite NR, CP.
  cbn [b_pc b_send bo_pc bo_valid bo_ptab bo_next pr_next]. unfold p_pc, p_do. rewrite RF, RA, RD, P, S.
  split; [reflexivity|]. split; [reflexivity|]. split; [reflexivity|]. split; reflexivity.
Qed.

(** *** C62 What does not hold *)
(** The speculative history is not the history of the path being fetched: here
    the branches at 0 (predicted and found taken) and 256 (predicted not taken,
    found taken) are fetched, fetch is redirected to 512 before they commit, the
    branch at 512 is predicted, and then they commit.  After the redirection the
    history should be that of both branches, at the end that of all three; it
    misses them. *)
Definition c62_dir (ty : Z) : nat -> Z := fun i => if i =? 0 then ty else 4%Z.
Definition c62_pred (ty : Z) (d : bool) (tgt : Z) : bin :=
  BIn false 0 true (fun _ => None) (c62_dir ty) (fun _ => Some (d, 0%Z)) (fun _ => Some tgt).
Definition c62_redirect (a : Z) : bin := BIn true a true (fun _ => None) (c62_dir 4) (fun _ => Some (false, 0%Z)) (fun _ => Some 0%Z).
Definition c62_commit (u v : option upd) : bin :=
  BIn false 0 false (fun i => nth i [u; v] None) (c62_dir 4) (fun _ => None) (fun _ => None).
Definition c62_run (xs : list bin) : option (trace * bst) :=
  fold_left (fun r x => match r with
                        | Some (t, s) => match bcycle s x with Some (s', o) => Some ((x, o) :: t, s') | None => None end
                        | None => None end) xs (Some ([], bst0)).
Lemma c62_run_reach xs : forall t s, (forall x, In x xs -> bin_ok x) -> c62_run xs = Some (t, s) -> breach t s.
Proof.
  induction xs as [|x xs IH] using rev_ind; intros t s HO H.
  - injection H as <- <-. constructor.
  - unfold c62_run in *. rewrite fold_left_app in H. cbn [fold_left] in H.
    destruct (fold_left _ xs _) as [[t0 s0]|] eqn:E; [|discriminate].
    destruct (bcycle s0 x) as [[s1 o]|] eqn:C; [|discriminate]. injection H as <- <-.
    apply br_step with (s := s0); [apply IH; [intros y Y; apply HO, in_or_app; now left|reflexivity]|apply HO, in_or_app; right; now left|exact C].
Qed.
Definition c62_runs (xs : list bin) : bool := match c62_run xs with Some _ => true | None => false end.
Lemma c62_runs_ex xs : c62_runs xs = true -> exists t s, c62_run xs = Some (t, s).
Proof. unfold c62_runs. destruct (c62_run xs) as [[t s]|]; [eauto|discriminate]. Qed.
Definition c62_path_run : list bin :=
  [c62_pred 0 true 256; c62_pred 0 false 0; c62_redirect 512; c62_pred 0 true 768;
   c62_commit (Some (Upd 0 true 0 256 true 0)) (Some (Upd 256 true 0 512 false 0))].
Lemma c62_run_ok xs : Forall (fun x => word (bi_addr x)) xs ->
  Forall (fun x => forall b a, bi_btb x b = Some a -> word a) xs ->
  Forall (fun x => forall i u, bi_upd x i = Some u -> word (u_pc u)) xs -> forall x, In x xs -> bin_ok x.
Proof. intros A B C x I. rewrite Forall_forall in A, B, C. split; [now apply A|]. split; [now apply B|now apply C]. Qed.
Lemma c62_pred_ok ty d a : word a -> bin_ok (c62_pred ty d a).
Proof. intros W. split; [split; reflexivity || (cbn; lia)|]. split; [intros b c [= <-]; exact W|intros i u; discriminate]. Qed.
Lemma c62_redirect_ok a : word a -> bin_ok (c62_redirect a).
Proof. intros W. split; [exact W|]. split; [intros b c [= <-]; split; [lia|reflexivity]|intros i u; discriminate]. Qed.
Lemma c62_commit_ok u v : (forall w, u = Some w -> word (u_pc w)) -> (forall w, v = Some w -> word (u_pc w)) -> bin_ok (c62_commit u v).
Proof.
  intros U V. split; [split; [cbn; lia|reflexivity]|]. split; [intros b c; discriminate|].
  intros i w. cbn [c62_commit bi_upd]. destruct i as [|[|i]]; cbn [nth]; [apply U|apply V|]. destruct i; discriminate.
Qed.
Ltac c62_word := unfold word; cbn; split; [lia|reflexivity].
Theorem c62_path_history_refuted :
  (exists t s, c62_run (firstn 3 c62_path_run) = Some (t, s) /\ breach t s /\
     ~ holds_dirs (h_ghr (b_spec s)) [(256, true); (0, true)]%Z) /\
  (exists t s, c62_run c62_path_run = Some (t, s) /\ breach t s /\
     map branch_of (committed t) = [(0, true); (256, true)]%Z /\
     ~ holds_dirs (h_ghr (b_spec s)) [(512, true); (256, true); (0, true)]%Z).
Proof.
  assert (OK: forall x, In x c62_path_run -> bin_ok x).
  { intros x. unfold c62_path_run. cbn [In]. intros [<-|[<-|[<-|[<-|[<-|[]]]]]].
    - apply c62_pred_ok. c62_word.
    - apply c62_pred_ok. c62_word.
    - apply c62_redirect_ok. c62_word.
    - apply c62_pred_ok. c62_word.
    - apply c62_commit_ok; intros w [= <-]; c62_word. }
  split.
  - destruct (c62_runs_ex (firstn 3 c62_path_run)) as (t & s & E); [vm_compute; reflexivity|].
    exists t, s. split; [exact E|]. split.
    + apply (c62_run_reach (firstn 3 c62_path_run)); [|exact E]. intros x I. apply OK. now apply in_firstn in I.
    + intros H. specialize (H 0 ltac:(lia)).
      assert (G: match c62_run (firstn 3 c62_path_run) with Some (_, s) => h_ghr (b_spec s) 0 | None => true end = false) by (vm_compute; reflexivity).
      rewrite E in G. rewrite G in H. discriminate.
  - destruct (c62_runs_ex c62_path_run) as (t & s & E); [vm_compute; reflexivity|].
    exists t, s. split; [exact E|]. split; [apply (c62_run_reach c62_path_run); [exact OK|exact E]|]. split.
    + assert (G: match c62_run c62_path_run with Some (t, _) => map branch_of (committed t) | None => [] end = [(0, true); (256, true)]%Z) by (vm_compute; reflexivity).
      rewrite E in G. exact G.
    + intros H. specialize (H 2 ltac:(lia)).
      assert (G: match c62_run c62_path_run with Some (_, s) => h_ghr (b_spec s) 2 | None => true end = false) by (vm_compute; reflexivity).
      rewrite E in G. rewrite G in H. discriminate.
Qed.
(** A call still in flight when fetch is redirected is lost from the return stack:
    the return that belongs to it is predicted with the target predictor's
    address.  Here the call at 0 is fetched, fetch is redirected inside the
    callee, and the return at 512 goes to 9000 instead of 4. *)
Definition c62_call_run : list bin := [c62_pred 1 false 256; c62_redirect 512; c62_pred 2 false 9000].
Theorem c62_redirect_loses_calls_refuted :
  exists t s o, c62_run c62_call_run = Some (o :: t, s) /\ breach (o :: t) s /\ bo_next (snd o) = 9000%Z.
Proof.
  destruct (c62_runs_ex c62_call_run) as (t & s & E); [vm_compute; reflexivity|].
  assert (R: breach t s).
  { apply (c62_run_reach c62_call_run); [|exact E]. intros x. unfold c62_call_run. cbn [In]. intros [<-|[<-|[<-|[]]]].
    - apply c62_pred_ok. c62_word.
    - apply c62_redirect_ok. c62_word.
    - apply c62_pred_ok. c62_word. }
  assert (G: match c62_run c62_call_run with Some (o :: _, _) => bo_next (snd o) | _ => 0%Z end = 9000%Z) by (vm_compute; reflexivity).
  rewrite E in G. destruct t as [|o t]; [discriminate|]. exists t, s, o. split; [exact E|]. split; [exact R|exact G].
Qed.
(** The call stack of the program: any jump that writes x1 calls, jalr x0, 0(x1)
    returns.  back2front_comb does not count jalr x1 as a call, so the callee's
    return removes the caller's entry: after a call at [a], a call at [b], an
    indirect call at [c] and its return, the program will return to [b + 4], but the
    stack shows [a + 4]. *)
Record jump := Jump { j_kind : cinst; j_pc : Z; j_rs1 : Z; j_rd : Z; j_imm : Z }.
Definition links (j : jump) : bool := match j_kind j with CJal | CJalr => Z.eqb (j_rd j) 1 | _ => false end.
Definition program_stack (js : list jump) : list Z :=
  fold_left (fun l j => if is_ret_of (j_kind j) (j_rs1 j) (j_rd j) (j_imm j) then tl l
                        else if links j then ret_addr (j_pc j) :: l else l) js [].
Definition as_update (j : jump) (target : Z) : upd :=
  Upd (j_pc j) true (br_type_of (j_kind j) (negb (Z.eqb (j_rd j) 0)) (j_rd j) (is_ret_of (j_kind j) (j_rs1 j) (j_rd j) (j_imm j))) target true 0.
Theorem c62_indirect_call_refuted t s a b c d r : breach t s ->
  committed t = map (fun j => as_update j 0) [Jump CJal a 0 1 256; Jump CJal b 0 1 256; Jump CJalr c r 1 0; Jump CJalr d 1 0 0] ->
  program_stack [Jump CJal a 0 1 256; Jump CJal b 0 1 256; Jump CJalr c r 1 0; Jump CJalr d 1 0 0] = [ret_addr b; ret_addr a] /\
  shows (b_aras s) [ret_addr a].
Proof.
  intros R E. split.
  - unfold program_stack, is_ret_of, links. cbn [fold_left j_kind j_rd j_rs1 j_imm j_pc andb].
    replace (Z.eqb r 1 && Z.eqb 1 0) with false by now rewrite andb_false_r. reflexivity.
  - destruct (c62_stacks t s R) as [S _]. rewrite arch_sk_fold, E in S. unfold as_update, br_type_of, is_ret_of in S.
    cbn [map fold_left j_kind j_rd j_rs1 j_imm j_pc u_type u_pc] in S.
    replace (Z.eqb r 1 && Z.eqb 1 0) with false in S by now rewrite andb_false_r. exact S.
Qed.
Example c62_indirect_call_reached : exists t s, breach t s /\
  committed t = map (fun j => as_update j 0) [Jump CJal 16 0 1 256; Jump CJal 32 0 1 256; Jump CJalr 48 5 1 0; Jump CJalr 64 1 0 0].
Proof.
  set (xs := [c62_commit (Some (as_update (Jump CJal 16 0 1 256) 0)) (Some (as_update (Jump CJal 32 0 1 256) 0));
              c62_commit (Some (as_update (Jump CJalr 48 5 1 0) 0)) (Some (as_update (Jump CJalr 64 1 0 0) 0))]).
  destruct (c62_runs_ex xs) as (t & s & E); [vm_compute; reflexivity|]. exists t, s. split.
  - apply (c62_run_reach xs); [|exact E]. intros x. unfold xs. cbn [In]. intros [<-|[<-|[]]]; apply c62_commit_ok; intros w [= <-]; c62_word.
  - assert (G: match c62_run xs with Some (t, _) => committed t | None => [] end =
               map (fun j => as_update j 0) [Jump CJal 16 0 1 256; Jump CJal 32 0 1 256; Jump CJalr 48 5 1 0; Jump CJalr 64 1 0 0]) by (vm_compute; reflexivity).
    rewrite E in G. exact G.
Qed.
(** A block that reaches the top of the address space gets no prediction. *)
Theorem c62_top_block_unpredicted s x i : word (p_pc s x) -> (M32 <= p_pc s x + 16)%Z -> i < 4 -> final_dir s x i = false.
Proof.
  intros W H Hi. rewrite final_jumps by assumption. unfold in_block. replace (p_pc s x + 16 <? M32)%Z with false by lia.
  now rewrite andb_false_r, andb_false_r.
Qed.

(** *** C63 Training *)
(** Each bank is trained with the committed instructions of its addresses, in
    program order, each once; at most 500 wait. *)
Theorem c63_trained_in_order t s b : breach t s ->
  exists waiting, filter (of_bank b) (committed t) = trained b t ++ waiting /\ length waiting <= 500.
Proof.
  intros R. destruct (breach_qinv t s R) as [OK F]. exists (content (q_rd s) (now s) b). split; [apply F|].
  rewrite content_len. destruct (OK b) as (_ & H & _). exact H.
Qed.
(** The direction predictor gets exactly the conditional branches among them. *)
Theorem c63_directions_trained t s b : breach t s -> trained_dir b t = filter is_cond (trained b t).
Proof.
  induction 1 as [|t s x s' o R IH HO C]; [reflexivity|].
  destruct (bcycle_inv _ _ _ _ C) as (e & wr & cnt & _ & -> & ->). cbn [trained_dir trained bo_tage bo_btb].
  rewrite filter_app, <- IH. f_equal. unfold train_tage, train_btb, is_cond, BR_DIRECT.
  destruct (train s b) as [u|]; [|reflexivity]. cbn [filter]. now destruct (Z.eqb (u_type u) 0).
Qed.
(** Training comes within 500 cycles of the commit. *)
Theorem c63_trained_soon t t' s b : breach t' s -> extends 500 t t' ->
  exists rest, trained b t' = filter (of_bank b) (committed t) ++ rest.
Proof.
  intros R H.
  assert (R0: forall k t t' s, breach t' s -> extends k t t' -> exists s0, breach t s0).
  { induction k as [|k IH]; intros u u' s0 Q E; cbn [extends] in E; [subst; eauto|].
    destruct u' as [|c u']; [contradiction|]. destruct (breach_tail _ _ _ Q) as [s1 Q1]. exact (IH _ _ _ Q1 E). }
  destruct (R0 _ _ _ _ R H) as [s0 Q]. destruct (c63_trained_in_order t s0 b Q) as (w & W & LW).
  pose proof (trained_after _ _ _ _ b R H) as L.
  destruct (committed_mono _ _ _ b H) as [r E]. destruct (breach_qinv t' s R) as [_ F]. specialize (F b).
  rewrite E in F. set (A := filter (of_bank b) (committed t)) in *. set (B := trained b t') in *.
  assert (LA: length A <= length B) by (rewrite W, app_length in *; lia).
  exists (skipn (length A) B).
  rewrite <- (firstn_skipn (length A) B) at 1. f_equal.
  assert (G: firstn (length A) (A ++ r) = firstn (length A) (B ++ content (q_rd s) (now s) b)) by now rewrite F.
  rewrite firstn_app, Nat.sub_diag, firstn_O, app_nil_r, firstn_all in G.
  rewrite firstn_app in G. replace (length A - length B) with 0 in G by lia. rewrite firstn_O, app_nil_r in G. now symmetry.
Qed.
(** The queue's assertion never fires when commits heed the stall. *)
Theorem c63_no_overflow t s x : sreach t s -> heeds t x -> bcycle s x <> None.
Proof.
  intros R H. destruct (q_next_room s x) as (q & E & _).
  - intros b Hb. exact (heeds_room t s x b R H Hb).
  - unfold bcycle. rewrite E. destruct q as [[e wr] cnt]. destruct (hist_next s x). discriminate.
Qed.
(** The ROB heeds it: with front_stall it retires at most one instruction. *)
Theorem c63_rob_heeds r i : RobModel.i_front_stall i = true -> length (RobModel.committed r i) <= 1.
Proof. apply rob_stalled. Qed.
(** Without that the assertion does fire: two commits a cycle to one bank fill its
    queue by one entry a cycle. *)
Definition c63_two : bin := c62_commit (Some (Upd 0 false 4 4 false 0)) (Some (Upd 16 false 4 20 false 0)).
Lemma c63_two_step s : q_cnt s 0 < 500 -> exists s' o, bcycle s c63_two = Some (s', o) /\ q_cnt s' 0 = q_cnt s 0 - 1 + 2.
Proof.
  intros H.
  assert (P: pop_cnt s 0 = q_cnt s 0 - 1) by (unfold pop_cnt, p_upd; destruct (Nat.eqb_spec (q_cnt s 0) 0); cbn [negb]; lia).
  assert (E: exists e wr cnt, q_next s c63_two = Some (e, wr, cnt) /\ cnt 0 = q_cnt s 0 - 1 + 2).
  { change (q_next s c63_two) with (push_step c63_two (push_step c63_two (Some (mid s)) 0) 1).
    unfold push_step, c63_two. cbn [c62_commit bi_upd nth]. unfold push_one, mid. cbn [u_pc].
    change (bank_sel 0) with 0. change (bank_sel 16) with 0.
    replace (pop_cnt s 0 <? QD) with true by (symmetry; apply Nat.ltb_lt; change QD with 500; lia).
    rewrite fupd_eq. replace (S (pop_cnt s 0) <? QD) with true by (symmetry; apply Nat.ltb_lt; change QD with 500; lia).
    eexists _, _, _. split; [reflexivity|]. rewrite fupd_eq. lia. }
  destruct E as (e & wr & cnt & E & C). unfold bcycle. rewrite E. destruct (hist_next s c63_two).
  eexists _, _. split; [reflexivity|]. exact C.
Qed.
Theorem c63_heeding_needed : exists t s x, breach t s /\ bin_ok x /\ bcycle s x = None.
Proof.
  assert (OK: bin_ok c63_two) by (apply c62_commit_ok; intros w [= <-]; c62_word).
  assert (G: forall n, n <= 498 -> exists t s, breach t s /\ q_cnt s 0 = n + 2).
  { induction n as [|n IH]; intros Hn.
    - destruct (c63_two_step bst0) as (s & o & E & C); [cbn; lia|].
      exists [(c63_two, o)], s. split; [apply br_step with (s := bst0); [constructor|exact OK|exact E]|exact C].
    - destruct (IH ltac:(lia)) as (t & s & R & C). destruct (c63_two_step s) as (s' & o & E & C'); [lia|].
      exists ((c63_two, o) :: t), s'. split; [apply br_step with (s := s); assumption|lia]. }
  destruct (G 498 (le_n _)) as (t & s & R & C). exists t, s, c63_two. split; [exact R|]. split; [exact OK|].
  assert (P: pop_cnt s 0 = 499) by (unfold pop_cnt, p_upd; rewrite C; reflexivity).
  assert (E: q_next s c63_two = None).
  { change (q_next s c63_two) with (push_step c63_two (push_step c63_two (Some (mid s)) 0) 1).
    unfold push_step, c63_two. cbn [c62_commit bi_upd nth]. unfold push_one, mid. cbn [u_pc].
    change (bank_sel 0) with 0. change (bank_sel 16) with 0. rewrite P. change (499 <? QD) with true.
    reflexivity. }
  unfold bcycle. now rewrite E.
Qed.

(** *** Examples *)
(** A call, a taken branch and a return committed one after the other. *)
Example c62_arch_ex :
  match c62_run [c62_commit (Some (Upd 16 true 1 256 true 0)) (Some (Upd 256 true 0 300 true 0));
                 c62_commit (Some (Upd 300 false 0 304 true 0)) (Some (Upd 320 true 1 400 true 0))] with
  | Some (t, s) => (arch_br t, arch_sk t, map (h_ghr (b_arch s)) [0; 1; 2])
  | None => ([], [], []) end = ([(300, false); (256, true)]%Z, [324; 20]%Z, [false; true; false]).
Proof. vm_compute. reflexivity. Qed.
(** A block of a branch predicted taken at 0 leads to its target. *)
Example c62_prediction_ex :
  match c62_run [c62_pred 0 true 256; c62_pred 0 false 0] with
  | Some ((_, o2) :: (_, o1) :: _, s) => (bo_ptab o1, bo_dir o1 0, bo_next o1, bo_next o2, b_pc s)
  | _ => (false, false, 0%Z, 0%Z, 0%Z) end = (true, true, 256%Z, 272%Z, 272%Z).
Proof. vm_compute. reflexivity. Qed.
Example c63_ex :
  match c62_run [c63_two; c63_two; c62_commit None None] with
  | Some (t, s) => (map u_pc (committed t), map u_pc (trained 0 t), q_cnt s 0)
  | None => ([], [], 0) end = ([0; 16; 0; 16]%Z, [0; 16]%Z, 2).
Proof. vm_compute. reflexivity. Qed.

Print Assumptions c62_directions.
Print Assumptions c62_folds.
Print Assumptions c62_fold_determined.
Print Assumptions c62_path.
Print Assumptions c62_redirected.
Print Assumptions c62_stacks.
Print Assumptions c62_innermost_calls.
Print Assumptions c62_requests.
Print Assumptions c62_prediction.
Print Assumptions c62_front_same.
Print Assumptions c62_path_history_refuted.
Print Assumptions c62_redirect_loses_calls_refuted.
Print Assumptions c62_indirect_call_refuted.
Print Assumptions c62_top_block_unpredicted.
Print Assumptions c63_trained_in_order.
Print Assumptions c63_directions_trained.
Print Assumptions c63_trained_soon.
Print Assumptions c63_no_overflow.
Print Assumptions c63_rob_heeds.
Print Assumptions c63_heeding_needed.
