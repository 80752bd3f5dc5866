(** The update queues of the branch prediction unit. *)
From Verif Require Import Base BaseLemmas IsaSpec Ring FrontModel BpModel BpSpec BpProofs BpMain.
From Verif Require RobModel.
Local Open Scope nat_scope.

Lemma QD_pos : 2 < QD.
Proof. unfold QD. lia. Qed.
#[local] Opaque QD.

Definition content (rd : nat -> nat) (q : qs) (b : nat) : list upd :=
  let '(e, _, cnt) := q in ring QD (e b) (rd b) (cnt b).
Definition qok (rd : nat -> nat) (q : qs) : Prop :=
  let '(_, wr, cnt) := q in forall b, rd b < QD /\ cnt b <= QD /\ wr b = (rd b + cnt b) mod QD.
Definition count (q : qs) (b : nat) : nat := let '(_, _, cnt) := q in cnt b.

Lemma push_one_ok rd q u q' : qok rd q -> push_one q u = Some q' ->
  qok rd q' /\ forall b, content rd q' b = content rd q b ++ filter (of_bank b) [u].
Proof.
  destruct q as [[e wr] cnt]. cbn [qok]. unfold push_one. rewrite bank_sel_eq. set (c := bank_of (u_pc u)).
  intros H. destruct (Nat.ltb_spec (cnt c) QD) as [L|L]; [|discriminate]. intros [= <-].
  pose proof QD_pos as P. split.
  - cbn [qok]. intros b. destruct (H b) as (H1 & H2 & H3). destruct (Nat.eq_dec b c) as [->|N].
    + rewrite !fupd_eq. split; [assumption|]. split; [lia|]. rewrite H3, Nat.add_mod_idemp_l by lia. f_equal. lia.
    + rewrite !fupd_ne by assumption. split; [assumption|split; assumption].
  - intros b. cbn [content filter]. unfold of_bank. fold c. destruct (Nat.eqb_spec c b) as [<-|N].
    + rewrite !fupd_eq. destruct (H c) as (H1 & H2 & H3). rewrite H3. apply ring_push; lia.
    + rewrite !fupd_ne by congruence. now rewrite app_nil_r.
Qed.

Lemma push_step_ok x i rd q q' : qok rd q -> push_step x (Some q) i = Some q' ->
  qok rd q' /\ forall b, content rd q' b = content rd q b ++ filter (of_bank b) match bi_upd x i with Some u => [u] | None => [] end.
Proof.
  intros H. unfold push_step. destruct (bi_upd x i) as [u|].
  - now apply push_one_ok.
  - intros [= <-]. split; [exact H|]. intros b. cbn [filter]. now rewrite app_nil_r.
Qed.
Lemma push_step_none x i : push_step x None i = None.
Proof. reflexivity. Qed.

Definition mid (s : bst) : qs := (q_ent s, q_wr s, pop_cnt s).
Lemma q_next_ok s x q' : qok (pop_rd s) (mid s) -> q_next s x = Some q' ->
  qok (pop_rd s) q' /\ forall b, content (pop_rd s) q' b = content (pop_rd s) (mid s) b ++ filter (of_bank b) (commits x).
Proof.
  intros H. change (push_step x (push_step x (Some (mid s)) 0) 1 = Some q' ->
    qok (pop_rd s) q' /\ forall b, content (pop_rd s) q' b = content (pop_rd s) (mid s) b ++ filter (of_bank b) (commits x)).
  destruct (push_step x (Some (mid s)) 0) as [q1|] eqn:E1; [|intros E2; discriminate E2].
  intros E2. destruct (push_step_ok _ _ _ _ _ H E1) as [H1 C1]. destruct (push_step_ok _ _ _ _ _ H1 E2) as [H2 C2].
  split; [exact H2|]. intros b. rewrite C2, C1, commits_eq, filter_app, app_assoc. reflexivity.
Qed.

Definition now (s : bst) : qs := (q_ent s, q_wr s, q_cnt s).
Definition heads (s : bst) (b : nat) : list upd := match train s b with Some u => [u] | None => [] end.
Lemma mid_ok s : qok (q_rd s) (now s) ->
  qok (pop_rd s) (mid s) /\ forall b, content (q_rd s) (now s) b = heads s b ++ content (pop_rd s) (mid s) b.
Proof.
  intros H. pose proof QD_pos as P. split.
  - cbn [qok mid]. intros b. destruct (H b) as (H1 & H2 & H3). unfold pop_rd, pop_cnt, p_upd.
    destruct (Nat.eqb_spec (q_cnt s b) 0) as [Z|Z]; cbn [negb]; [split; [assumption|split; assumption]|].
    split; [apply Nat.mod_upper_bound; lia|]. split; [lia|]. rewrite H3, Nat.add_mod_idemp_l by lia. f_equal. lia.
  - intros b. cbn [content now mid]. unfold heads, train, pop_rd, pop_cnt, p_upd.
    destruct (Nat.eqb_spec (q_cnt s b) 0) as [Z|Z]; cbn [negb app]; [reflexivity|].
    destruct (q_cnt s b) as [|c] eqn:E; [lia|]. rewrite ring_cons by lia.
    destruct (H b) as (H1 & H2 & H3). rewrite (Nat.mod_small (q_rd s b)) by assumption.
    replace (S c - 1) with c by lia. reflexivity.
Qed.

Record qinv (t : trace) (s : bst) : Prop := QInv {
  qi_ok : qok (q_rd s) (now s);
  qi_fifo : forall b, filter (of_bank b) (committed t) = trained b t ++ content (q_rd s) (now s) b }.

Lemma qinv_step t s x s' o : qinv t s -> bcycle s x = Some (s', o) -> qinv ((x, o) :: t) s'.
Proof.
  intros [H F] C. destruct (bcycle_inv _ _ _ _ C) as (e & wr & cnt & E & -> & ->). clear C.
  destruct (mid_ok s H) as [M1 M2]. destruct (q_next_ok s x _ M1 E) as [N1 N2].
  split; unfold now; cbn [q_ent q_wr q_cnt q_rd]; [exact N1|].
  intros b. cbn [committed trained bo_btb fst]. rewrite filter_app, F, M2, N2.
  unfold heads, train_btb. rewrite <- !app_assoc. reflexivity.
Qed.
Lemma breach_qinv t s : breach t s -> qinv t s.
Proof.
  induction 1 as [|t s x s' o H IH HO C].
  - split; unfold now; cbn [bst0 q_ent q_wr q_cnt q_rd qok content committed trained filter].
    + intros b. pose proof QD_pos. split; [lia|]. split; [lia|]. rewrite Nat.mod_small; lia.
    + reflexivity.
  - exact (qinv_step _ _ _ _ _ IH C).
Qed.
Lemma content_len rd q b : length (content rd q b) = count q b.
Proof. destruct q as [[e wr] cnt]. apply ring_length. Qed.

(* ------------------------------------------------------------------ *)
(** * No overflow *)

Lemma push_one_room q u : count q (bank_of (u_pc u)) < QD -> exists q', push_one q u = Some q' /\
  forall b, count q' b <= count q b + (if of_bank b u then 1 else 0).
Proof.
  destruct q as [[e wr] cnt]. unfold push_one. cbn [count]. intros L. rewrite bank_sel_eq. destruct (Nat.ltb_spec (cnt (bank_of (u_pc u))) QD); [|lia].
  eexists. split; [reflexivity|]. intros b. cbn [count]. unfold of_bank. destruct (Nat.eqb_spec (bank_of (u_pc u)) b) as [<-|N].
  - rewrite fupd_eq. lia.
  - rewrite fupd_ne by congruence. lia.
Qed.
Lemma bank_lt pc : bank_of pc < 4.
Proof. unfold bank_of. pose proof (Z.mod_pos_bound (pc / 4) 4 ltac:(lia)). lia. Qed.
Lemma bank_out b u : 4 <= b -> of_bank b u = false.
Proof. intros H. unfold of_bank. pose proof (bank_lt (u_pc u)). apply Nat.eqb_neq. lia. Qed.

Lemma q_next_room s x : (forall b, b < 4 -> pop_cnt s b + length (commits x) <= QD) ->
  exists q', q_next s x = Some q' /\ forall b, b < 4 -> count q' b <= pop_cnt s b + length (commits x).
Proof.
  intros H. change (q_next s x) with (push_step x (push_step x (Some (mid s)) 0) 1).
  rewrite commits_eq in *.
  assert (ONE: forall i q k, (forall b, b < 4 -> count q b <= pop_cnt s b + k) ->
            (forall b, b < 4 -> pop_cnt s b + k + length (match bi_upd x i with Some u => [u] | None => [] end) <= QD) ->
            exists q', push_step x (Some q) i = Some q' /\
            forall b, b < 4 -> count q' b <= pop_cnt s b + (k + length (match bi_upd x i with Some u => [u] | None => [] end))).
  { intros i q k A B. unfold push_step. destruct (bi_upd x i) as [u|]; cbn [length] in *.
    - destruct (push_one_room q u) as (q' & E & C).
      + pose proof (bank_lt (u_pc u)) as BL. specialize (A _ BL). specialize (B _ BL). lia.
      + exists q'. split; [exact E|]. intros b Hb. specialize (C b). specialize (A b Hb). destruct (of_bank b u); lia.
    - exists q. split; [reflexivity|]. intros b Hb. specialize (A b Hb). lia. }
  rewrite app_length in *.
  destruct (ONE 0 (mid s) 0) as (q1 & E1 & C1).
  - intros b Hb. cbn [count mid]. lia.
  - intros b Hb. specialize (H b Hb). lia.
  - rewrite E1. destruct (ONE 1 q1 _ C1) as (q2 & E2 & C2).
    + intros b Hb. specialize (H b Hb). lia.
    + exists q2. split; [exact E2|]. intros b Hb. specialize (C2 b Hb). lia.
Qed.

Lemma commits_len x : length (commits x) <= 2.
Proof. rewrite commits_eq, app_length. destruct (bi_upd x 0), (bi_upd x 1); cbn; lia. Qed.

Lemma sreach_breach t s : sreach t s -> breach t s.
Proof. induction 1; [constructor|]. econstructor; eauto. Qed.

Lemma full_spec s x s' o b : bcycle s x = Some (s', o) -> bo_full o = false -> b < 4 -> q_cnt s' b + 2 <= QD.
Proof.
  intros C F Hb. destruct (bcycle_inv _ _ _ _ C) as (e & wr & cnt & E & -> & ->). cbn [bo_full q_cnt] in *.
  unfold q_full in F. destruct (Nat.le_gt_cases (cnt b + 2) QD); [assumption|]. exfalso.
  assert (T: existsb (fun b => QD - cnt b <? NC) (seq 0 NB) = true).
  { apply existsb_exists. exists b. split; [apply in_seq; change NB with 4; lia|]. apply Nat.ltb_lt. change NC with 2. lia. }
  congruence.
Qed.
Lemma heeds_room t s x b : sreach t s -> heeds t x -> b < 4 -> pop_cnt s b + length (commits x) <= QD.
Proof.
  intros R H Hb. pose proof (commits_len x) as L2. pose proof QD_pos as P.
  pose proof (breach_qinv _ _ (sreach_breach _ _ R)) as [OK _]. destruct (OK b) as (_ & CN & _).
  assert (PC: pop_cnt s b <= QD - 1).
  { unfold pop_cnt, p_upd. destruct (Nat.eqb_spec (q_cnt s b) 0); cbn [negb]; lia. }
  destruct R as [|t s0 x0 s o R HO HH C].
  - change (pop_cnt bst0 b) with 0. lia.
  - cbn [heeds] in H. destruct (bo_full o) eqn:F.
    + specialize (H eq_refl). lia.
    + pose proof (full_spec _ _ _ _ b C F Hb) as G. unfold pop_cnt in *. destruct (p_upd s b); lia.
Qed.

(* ------------------------------------------------------------------ *)
(** * Waiting time *)

Fixpoint extends (k : nat) (t t' : trace) : Prop :=
  match k with
  | O => t' = t
  | S k' => match t' with [] => False | _ :: r => extends k' t r end
  end.

Lemma breach_tail c t s : breach (c :: t) s -> exists s0, breach t s0.
Proof. inversion 1; subst. eauto. Qed.

Lemma committed_mono k : forall t t' b, extends k t t' ->
  exists r, filter (of_bank b) (committed t') = filter (of_bank b) (committed t) ++ r.
Proof.
  induction k as [|k IH]; intros t t' b H; cbn [extends] in H.
  - subst t'. exists []. now rewrite app_nil_r.
  - destruct t' as [|c t']; [contradiction|]. destruct (IH _ _ b H) as [r E]. cbn [committed]. rewrite filter_app, E, <- app_assoc. eauto.
Qed.

Lemma trained_step t s x o s' b : qinv t s -> bcycle s x = Some (s', o) ->
  length (trained b t) < length (filter (of_bank b) (committed t)) ->
  length (trained b ((x, o) :: t)) = S (length (trained b t)).
Proof.
  intros [OK F] C L. destruct (bcycle_inv _ _ _ _ C) as (e & wr & cnt & E & -> & ->). cbn [trained bo_btb].
  rewrite F, app_length, content_len in L. cbn [count now] in L. unfold train_btb, train, p_upd.
  destruct (Nat.eqb_spec (q_cnt s b) 0); [lia|]. cbn [negb]. rewrite app_length. cbn [length]. lia.
Qed.
Lemma trained_mono c t b : length (trained b t) <= length (trained b (c :: t)).
Proof. destruct c as [x o]. cbn [trained]. rewrite app_length. lia. Qed.

Lemma trained_after k : forall t t' s b, breach t' s -> extends k t t' ->
  min (length (filter (of_bank b) (committed t))) (length (trained b t) + k) <= length (trained b t').
Proof.
  induction k as [|k IH]; intros t t' s b R H; cbn [extends] in H.
  - subst t'. lia.
  - destruct t' as [|[x o] t']; [contradiction|]. inversion R as [|t0 s0 x0 s1 o0 R0 HO C]; subst.
    pose proof (IH _ _ _ b R0 H) as I. destruct (committed_mono _ _ _ b H) as [r E].
    destruct (Nat.le_gt_cases (length (filter (of_bank b) (committed t'))) (length (trained b t'))) as [L|L].
    + pose proof (trained_mono (x, o) t' b). rewrite E, app_length in L. lia.
    + rewrite (trained_step _ _ _ _ _ b (breach_qinv _ _ R0) C L). lia.
Qed.

(* ------------------------------------------------------------------ *)
(** * The ROB heeds the stall *)

Lemma fold_commit_false l : fold_left (fun (c : bool) e => if RobModel.e_valid e then c && RobModel.is_complete (RobModel.e_uop e) else c) l false = false.
Proof. induction l as [|e l IH]; [reflexivity|]. cbn [fold_left andb]. now destruct (RobModel.e_valid e). Qed.
Lemma existsb_false_banks l k : existsb RobModel.e_valid l = false ->
  flat_map (fun p : nat * RobModel.rentry => if RobModel.e_valid (snd p) then [(fst p, RobModel.e_uop (snd p))] else [])
           (combine (seq k (length l)) l) = [].
Proof.
  revert k. induction l as [|e l IH]; intros k H; [reflexivity|]. cbn [existsb] in H. apply orb_false_iff in H. destruct H as [H1 H2].
  cbn [length seq combine flat_map snd]. rewrite H1. cbn [app]. now apply IH.
Qed.
Lemma rob_stalled r i : RobModel.i_front_stall i = true -> length (RobModel.committed r i) <= 1.
Proof.
  intros F. unfold RobModel.committed.
  destruct (existsb RobModel.e_valid (RobModel.lines r (RobModel.deq_ptr r))) eqn:HD.
  - assert (G: RobModel.group_ok r i = false).
    { unfold RobModel.group_ok. rewrite HD, F. cbn [andb]. apply fold_commit_false. }
    unfold RobModel.decide. rewrite G. destruct (RobModel.is_mis i); [cbn [fst length]; lia|].
    destruct (RobModel.single_part r i false) as [[c o] f] eqn:SP.
    assert (CF: c = false).
    { unfold RobModel.single_part in SP. destruct (RobModel.first_valid (RobModel.lines r (RobModel.deq_ptr r))) as [[k u]|]; [|now injection SP].
      cbn zeta in SP.
      destruct (negb (RobModel.i_interrupt_req i) && RobModel.is_fence_inst u && RobModel.i_store_pending i);
        match type of SP with (if ?b then _ else _) = _ => destruct b end;
        try match type of SP with (if ?b then _ else _) = _ => destruct b end; now injection SP. }
    subst c. destruct o; cbn [fst length]; lia.
  - destruct (fst (RobModel.decide r i)); cbn [length]; try lia.
    unfold RobModel.valid_banks. rewrite existsb_false_banks by exact HD. cbn. lia.
Qed.
