(** The branch prediction unit along its executions. *)
From Verif Require Import Base BaseLemmas IsaSpec Ring FrontModel FrontSpec FrontProofs BpModel BpSpec BpProofs.
Local Open Scope nat_scope.
Ltac Zify.zify_post_hook ::= Z.div_mod_to_equations.

Lemma slot_pc_eq pc i : slot_pc pc i = pc_of pc i.
Proof. unfold slot_pc, pc_of, w32. change (2 ^ 32)%Z with M32. f_equal. lia. Qed.

Lemma p_on_spec s x i : word (p_pc s x) -> i < 4 -> p_on s x i = in_block (p_pc s x) i.
Proof.
  unfold word, p_on, p_bound. generalize (p_pc s x). clear s x. intros pc Hp Hi.
  rewrite slot_pc_eq, seq_next_spec by assumption.
  unfold in_block, pc_of, block_end. change M32 with 4294967296%Z in *.
  replace (i <? 4) with true by (symmetry; now apply Nat.ltb_lt). rewrite andb_true_r.
  apply Bool.eq_iff_eq_true. rewrite andb_true_iff, Z.ltb_lt, Z.eqb_eq, Z.ltb_lt.
  destruct (Z.le_gt_cases 4294967296 (pc + 16)) as [L|L]; [split; [|lia]|].
  - intros A. exfalso. replace (Z.min (pc + 16) ((pc / 64 + 1) * 64) mod 4294967296)%Z with 0%Z in A; [|].
    + pose proof (Z.mod_pos_bound (pc + 4 * Z.of_nat i) 4294967296 ltac:(lia)). lia.
    + replace (Z.min (pc + 16) ((pc / 64 + 1) * 64))%Z with 4294967296%Z by lia. reflexivity.
  - rewrite (Z.mod_small (pc + _)) by lia. rewrite (Z.mod_small (Z.min _ _)) by lia. lia.
Qed.
Lemma in_block_ge pc i : 4 <= i -> in_block pc i = false.
Proof. intros H. unfold in_block. destruct (Nat.ltb_spec i 4); [lia|]. now rewrite !andb_false_r. Qed.

(* ------------------------------------------------------------------ *)
(** * The speculative side of a prediction *)

Section PREDICT.
  Variables (s : bst) (x : bin).
  Hypothesis W : word (p_pc s x).

  Lemma spec_hist_is n : forall i h l, i + n <= 4 -> is_hist h l ->
    is_hist (spec_hist s x (seq i n) h) (rev (guessed (p_pc s x) (bi_type x) (final_dir s x) n i) ++ l).
  Proof.
    induction n as [|n IH]; intros i h l Hi H; [exact H|].
    cbn [seq spec_hist guessed]. rewrite (p_on_spec s x i W) by lia.
    destruct (in_block (p_pc s x) i); cbn [negb]; [|apply IH; [lia|exact H]].
    rewrite rev_app_distr, <- app_assoc. rewrite slot_pc_eq. unfold BR_DIRECT.
    destruct (Z.eqb (bi_type x i) 0).
    - destruct (final_dir s x i) eqn:F.
      + cbn [rev app]. now apply hist_push_is.
      + cbn [rev app]. apply IH; [lia|]. now apply hist_push_is.
    - destruct (final_dir s x i); [exact H|]. cbn [rev app]. apply IH; [lia|exact H].
  Qed.

  Lemma spec_ras_is n : forall i r l, i + n <= 4 -> shows r l -> length l <= 16 ->
    shows (spec_ras s x (seq i n) r)
          match first_taken (p_pc s x) (final_dir s x) n i with
          | Some j => sk_event (bi_type x j) (pc_of (p_pc s x) j) l
          | None => l
          end.
  Proof.
    induction n as [|n IH]; intros i r l Hi H HL; [exact H|].
    cbn [seq spec_ras first_taken]. rewrite (p_on_spec s x i W) by lia.
    destruct (in_block (p_pc s x) i); cbn [negb andb]; [|apply IH; [lia|exact H|exact HL]].
    destruct (final_dir s x i); cbn [negb]; [|apply IH; [lia|exact H|exact HL]].
    rewrite slot_pc_eq. now apply shows_event.
  Qed.
End PREDICT.

(* ------------------------------------------------------------------ *)
(** * The committed side *)

Lemma commits_eq x : commits x =
  match bi_upd x 0 with Some u => [u] | None => [] end ++ match bi_upd x 1 with Some u => [u] | None => [] end.
Proof. unfold commits. cbn [flat_map]. now rewrite app_nil_r. Qed.

Lemma arch_br_cons c t : arch_br (c :: t) = rev (map branch_of (filter is_cond (commits (fst c)))) ++ arch_br t.
Proof. unfold arch_br. cbn [committed]. rewrite filter_app, map_app, rev_app_distr. reflexivity. Qed.

Lemma xorb_eqb a b : xorb a b = negb (Bool.eqb a b).
Proof. destruct a, b; reflexivity. Qed.

Lemma arch_one x i a sp A S u : bi_upd x i = Some u -> is_hist a A -> is_hist sp S ->
  forall us, us = [u] ->
  is_hist (fst (arch_step x (a, sp) i)) (rev (map branch_of (filter is_cond us)) ++ A) /\
  is_hist (snd (arch_step x (a, sp) i)) (resync us A S).
Proof.
  intros E HA HS us ->. unfold arch_step. rewrite E. cbn [filter resync]. unfold is_cond, BR_DIRECT.
  destruct (Z.eqb (u_type u) 0); cbn [negb]; [|now split].
  cbn [map rev app fst snd]. rewrite xorb_eqb.
  pose proof (hist_push_is a A (u_pc u) (u_dir u) HA) as P. split; [exact P|].
  destruct (Bool.eqb (u_pdir u) (u_dir u)); cbn [negb]; [exact HS|exact P].
Qed.

Lemma resync_app us vs A S :
  resync (us ++ vs) A S = resync vs (rev (map branch_of (filter is_cond us)) ++ A) (resync us A S).
Proof.
  revert A S. induction us as [|u us IH]; intros; [reflexivity|].
  cbn [app resync filter]. destruct (is_cond u); [|apply IH].
  rewrite IH. cbn [map rev]. rewrite <- app_assoc. reflexivity.
Qed.

Lemma arch_slot x i a sp A S : is_hist a A -> is_hist sp S ->
  let us := match bi_upd x i with Some u => [u] | None => [] end in
  is_hist (fst (arch_step x (a, sp) i)) (rev (map branch_of (filter is_cond us)) ++ A) /\
  is_hist (snd (arch_step x (a, sp) i)) (resync us A S).
Proof.
  intros HA HS us. destruct (bi_upd x i) as [u|] eqn:E.
  - exact (arch_one x i a sp A S u E HA HS us eq_refl).
  - unfold us, arch_step. rewrite E. now split.
Qed.

Lemma arch_is x a sp A S : is_hist a A -> is_hist sp S ->
  let r := fold_left (arch_step x) (seq 0 NC) (a, sp) in
  is_hist (fst r) (rev (map branch_of (filter is_cond (commits x))) ++ A) /\
  is_hist (snd r) (resync (commits x) A S).
Proof.
  intros HA HS. change (seq 0 NC) with [0; 1]. cbn [fold_left].
  destruct (arch_slot x 0 a sp A S HA HS) as [H1 H2].
  destruct (arch_step x (a, sp) 0) as [a1 sp1]. cbn [fst snd] in H1, H2.
  destruct (arch_slot x 1 a1 sp1 _ _ H1 H2) as [H3 H4].
  rewrite commits_eq, filter_app, map_app, rev_app_distr, <- app_assoc, resync_app. now split.
Qed.

Definition sk_ok (l : list Z) : Prop := length l <= 16 /\ forall a, In a l -> word a.
Lemma ret_word pc : word (ret_addr pc).
Proof. unfold word, ret_addr. apply Z.mod_pos_bound. reflexivity. Qed.
Lemma in_firstn {A} n (l : list A) a : In a (firstn n l) -> In a l.
Proof. intros H. rewrite <- (firstn_skipn n l). apply in_or_app. now left. Qed.
Lemma in_tl {A} (l : list A) a : In a (tl l) -> In a l.
Proof. destruct l; [intros []|]. cbn. now right. Qed.
Lemma sk_event_ok ty pc l : sk_ok l -> sk_ok (sk_event ty pc l).
Proof.
  intros [H1 H2]. split; [now apply sk_event_len|]. intros a. unfold sk_event, sk_push.
  destruct (Z.eqb ty 1); [intros I; apply in_firstn in I; destruct I as [<-|I]; [apply ret_word|now apply H2]|].
  destruct (Z.eqb ty 2); [intros I; apply H2; now apply in_tl|apply H2].
Qed.

Lemma aras_slot x i r l : shows r l -> sk_ok l ->
  let l' := fold_left (fun l u => sk_event (u_type u) (u_pc u) l) match bi_upd x i with Some u => [u] | None => [] end l in
  shows (aras_step x r i) l' /\ sk_ok l'.
Proof.
  intros H HO. unfold aras_step. destruct (bi_upd x i) as [u|]; cbn [fold_left]; [|now split].
  split; [apply shows_event; [exact H|exact (proj1 HO)]|now apply sk_event_ok].
Qed.
Lemma aras_is x r l : shows r l -> sk_ok l ->
  let l' := fold_left (fun l u => sk_event (u_type u) (u_pc u) l) (commits x) l in
  shows (fold_left (aras_step x) (seq 0 NC) r) l' /\ sk_ok l'.
Proof.
  intros H HO. change (seq 0 NC) with [0; 1]. cbn [fold_left]. rewrite commits_eq, fold_left_app.
  destruct (aras_slot x 0 r l H HO) as [H1 H2]. exact (aras_slot x 1 _ _ H1 H2).
Qed.

(* ------------------------------------------------------------------ *)
(** * Choice of the next address *)

Lemma next_found s x : forall is a, fst (fold_left (next_step s x) is (a, true)) = a.
Proof.
  induction is as [|i is IH]; intros a; [reflexivity|]. cbn [fold_left].
  replace (next_step s x (a, true) i) with (a, true); [apply IH|].
  unfold next_step. destruct (p_on s x i); [|reflexivity]. cbn [negb]. destruct (bi_btb x (p_bank s x i)); [|reflexivity].
  now rewrite andb_false_r.
Qed.

Lemma final_jumps s x i : word (p_pc s x) -> i < 4 ->
  final_dir s x i = p_do s x && in_block (p_pc s x) i &&
    jumps (bi_type x i) (match bi_tage x (p_bank s x i) with Some (d, _) => d | None => false end).
Proof.
  intros W Hi. unfold final_dir. rewrite p_on_spec by assumption. f_equal.
  unfold pred_taken, jumps, BR_NONCTL, BR_RET, BR_CALL, BR_IDIRECT, BR_JAL. destruct (Z.eqb (bi_type x i) 4); [reflexivity|].
  rewrite (orb_comm (Z.eqb (bi_type x i) 2)). reflexivity.
Qed.

Lemma bank_sel_eq pc : bank_sel pc = bank_of pc.
Proof. unfold bank_sel, bank_of, NB. rewrite Z.shiftr_div_pow2 by lia. reflexivity. Qed.

Lemma p_bank_eq s x i : p_bank s x i = bank_of (pc_of (p_pc s x) i).
Proof. unfold p_bank. now rewrite bank_sel_eq, slot_pc_eq. Qed.

Lemma next_is s x n : forall i,
  word (p_pc s x) -> p_do s x = true -> i + n <= 4 ->
  (forall j, j < 4 -> in_block (p_pc s x) j = true -> bi_btb x (bank_of (pc_of (p_pc s x) j)) <> None) ->
  forall a, fst (fold_left (next_step s x) (seq i n) (a, false)) =
  match first_taken (p_pc s x) (final_dir s x) n i with
  | Some j => match bi_btb x (bank_of (pc_of (p_pc s x) j)) with
              | Some tgt => target (bi_type x j) (p_ras s x) tgt
              | None => 0%Z
              end
  | None => a
  end.
Proof.
  induction n as [|n IH]; intros i W D Hi HB a; [reflexivity|].
  cbn [seq fold_left first_taken].
  assert (E: next_step s x (a, false) i =
             if in_block (p_pc s x) i && final_dir s x i then
               (match bi_btb x (bank_of (pc_of (p_pc s x) i)) with
                | Some tgt => target (bi_type x i) (p_ras s x) tgt | None => 0%Z end, true)
             else (a, false)).
  { unfold next_step, final_dir. rewrite (p_on_spec s x i W) by lia. rewrite D. cbn [andb].
    destruct (in_block (p_pc s x) i) eqn:B; cbn [negb andb]; [|reflexivity].
    rewrite p_bank_eq. specialize (HB i ltac:(lia) B).
    destruct (bi_btb x (bank_of (pc_of (p_pc s x) i))) as [tgt|]; [|congruence].
    rewrite andb_true_r. destruct (pred_taken s x i); [|reflexivity]. unfold target, BR_RET. reflexivity. }
  rewrite E. destruct (in_block (p_pc s x) i && final_dir s x i) eqn:F.
  - apply next_found.
  - apply IH; auto. lia.
Qed.

Lemma next_step_word s x acc i : bin_ok x -> (forall a, p_ras s x = Some a -> word a) ->
  word (fst acc) -> word (fst (next_step s x acc i)).
Proof.
  intros (_ & HB & _) HR. destruct acc as [a f]. cbn [fst]. intros HA. unfold next_step.
  destruct (p_on s x i); [|exact HA]. cbn [negb]. destruct (bi_btb x (p_bank s x i)) as [tgt|] eqn:E; [|exact HA].
  destruct (pred_taken s x i && negb f); [|exact HA]. cbn [fst]. pose proof (HB _ _ E) as HT.
  destruct (Z.eqb (bi_type x i) BR_RET); [|exact HT]. destruct (p_ras s x) as [r|]; [now apply HR|exact HT].
Qed.
Lemma next_word s x : bin_ok x -> word (p_pc s x) -> (forall a, p_ras s x = Some a -> word a) -> word (p_next s x).
Proof.
  intros HO W HR.
  assert (B: word (p_bound s x)).
  { unfold p_bound, word. rewrite seq_next_spec by exact W. apply Z.mod_pos_bound. reflexivity. }
  unfold p_next. destruct (p_do s x); [|exact B].
  assert (G: forall is acc, word (fst acc) -> word (fst (fold_left (next_step s x) is acc))).
  { induction is as [|i is IH]; intros acc HA; [exact HA|]. cbn [fold_left]. apply IH. now apply next_step_word. }
  now apply G.
Qed.

(* ------------------------------------------------------------------ *)
(** * Along executions *)

Record inv (t : trace) (s : bst) : Prop := Inv {
  iv_arch : is_hist (b_arch s) (arch_br t);
  iv_spec : is_hist (b_spec s) (spec_br t);
  iv_aras : shows (b_aras s) (arch_sk t);
  iv_sras : shows (b_sras s) (spec_sk t);
  iv_ask : sk_ok (arch_sk t);
  iv_ssk : sk_ok (spec_sk t);
  iv_pc : word (b_pc s) }.

Lemma bcycle_inv s x s' o : bcycle s x = Some (s', o) ->
  exists e wr cnt, q_next s x = Some (e, wr, cnt) /\
  s' = Bst (if bi_refetch x then bi_addr x else if p_do s x then p_next s x else b_pc s)
           (if bi_refetch x then true else if p_do s x then true else b_send s)
           (fst (hist_next s x)) (if bi_refetch x then fst (hist_next s x) else snd (hist_next s x))
           (aras_next s x) (if bi_refetch x then aras_next s x else sras_next s x)
           e wr (pop_rd s) cnt /\
  o = BOut (p_pc s x) (b_send s && negb (bi_refetch x)) (p_do s x && negb (bi_refetch x))
           (final_dir s x) (meta_out s x) (p_next s x) (q_full cnt) (train_tage s) (train_btb s).
Proof.
  unfold bcycle. destruct (q_next s x) as [[[e wr] cnt]|]; [|discriminate].
  destruct (hist_next s x) as [a sp]. intros H. injection H as <- <-. exists e, wr, cnt. split; [reflexivity|]. split; reflexivity.
Qed.

Lemma p_ras_word t s x : inv t s -> forall a, p_ras s x = Some a -> word a.
Proof.
  intros I a. unfold p_ras. destruct (bi_refetch x).
  - rewrite (shows_top _ _ (iv_aras _ _ I)). destruct (arch_sk t) eqn:E; [discriminate|]. cbn. intros [= <-].
    apply (proj2 (iv_ask _ _ I)). rewrite E. now left.
  - rewrite (shows_top _ _ (iv_sras _ _ I)). destruct (spec_sk t) eqn:E; [discriminate|]. cbn. intros [= <-].
    apply (proj2 (iv_ssk _ _ I)). rewrite E. now left.
Qed.
Lemma p_pc_word t s x : inv t s -> bin_ok x -> word (p_pc s x).
Proof. intros I HO. unfold p_pc. destruct (bi_refetch x); [exact (proj1 HO)|exact (iv_pc _ _ I)]. Qed.

Lemma inv_step t s x s' o : inv t s -> bin_ok x -> bcycle s x = Some (s', o) -> inv ((x, o) :: t) s'.
Proof.
  intros I HO C. destruct (bcycle_inv _ _ _ _ C) as (e & wr & cnt & _ & -> & ->). clear C.
  pose proof (p_pc_word t s x I HO) as W.
  assert (SH: is_hist (if should_spec s x then spec_hist s x (seq 0 NF) (b_spec s) else b_spec s)
                (rev (if p_do s x && negb (bi_refetch x) then guessed (p_pc s x) (bi_type x) (final_dir s x) 4 0 else []) ++ spec_br t)).
  { unfold should_spec. destruct (p_do s x && negb (bi_refetch x)).
    - apply spec_hist_is; [exact W|lia|exact (iv_spec _ _ I)].
    - exact (iv_spec _ _ I). }
  destruct (arch_is x _ _ _ _ (iv_arch _ _ I) SH) as [H1 H2].
  destruct (aras_is x _ _ (iv_aras _ _ I) (iv_ask _ _ I)) as [H3 H4].
  assert (SR: shows (sras_next s x)
           (if p_do s x && negb (bi_refetch x) then
              match first_taken (p_pc s x) (final_dir s x) 4 0 with
              | Some i => sk_event (bi_type x i) (pc_of (p_pc s x) i) (spec_sk t) | None => spec_sk t end
            else spec_sk t)).
  { unfold sras_next, should_spec. destruct (p_do s x && negb (bi_refetch x)).
    - apply spec_ras_is; [exact W|lia|exact (iv_sras _ _ I)|exact (proj1 (iv_ssk _ _ I))].
    - exact (iv_sras _ _ I). }
  split; cbn [b_arch b_spec b_aras b_sras b_pc spec_br spec_sk arch_sk bo_ptab bo_pc bo_dir fst].
  - rewrite arch_br_cons. exact H1.
  - destruct (bi_refetch x); [rewrite arch_br_cons; exact H1|exact H2].
  - exact H3.
  - destruct (bi_refetch x); [exact H3|exact SR].
  - exact H4.
  - destruct (bi_refetch x); [exact H4|]. destruct (p_do s x && negb false); [|exact (iv_ssk _ _ I)].
    destruct (first_taken (p_pc s x) (final_dir s x) 4 0); [apply sk_event_ok|]; exact (iv_ssk _ _ I).
  - destruct (bi_refetch x); [exact (proj1 HO)|]. destruct (p_do s x); [|exact (iv_pc _ _ I)].
    apply next_word; [exact HO|exact W|exact (p_ras_word t s x I)].
Qed.

Lemma breach_inv t s : breach t s -> inv t s.
Proof.
  induction 1 as [|t s x s' o H IH HO C].
  - split; cbn [bst0 b_arch b_spec b_aras b_sras b_pc spec_br spec_sk arch_sk].
    + apply is_hist0.
    + apply is_hist0.
    + apply shows0.
    + apply shows0.
    + split; [cbn; lia|intros a []].
    + split; [cbn; lia|intros a []].
    + split; reflexivity || (unfold RESET_PC; lia).
  - exact (inv_step _ _ _ _ _ IH HO C).
Qed.

(* ------------------------------------------------------------------ *)
(** * The bounded stack against the unbounded one *)

Lemma arch_sk_fold t : arch_sk t = fold_left (fun l u => sk_event (u_type u) (u_pc u) l) (committed t) [].
Proof. induction t as [|c t IH]; [reflexivity|]. cbn [arch_sk committed]. rewrite fold_left_app, <- IH. reflexivity. Qed.

Definition cs_event (l : list Z) (u : upd) : list Z :=
  if Z.eqb (u_type u) 1 then ret_addr (u_pc u) :: l else if Z.eqb (u_type u) 2 then tl l else l.
Definition prefix (l c : list Z) : Prop := exists r, c = l ++ r.
Lemma prefix_event l c u : prefix l c -> prefix (sk_event (u_type u) (u_pc u) l) (cs_event c u).
Proof.
  intros [r ->]. unfold sk_event, cs_event, sk_push. destruct (Z.eqb (u_type u) 1).
  - exists (skipn 16 (ret_addr (u_pc u) :: l) ++ r). rewrite app_assoc, firstn_skipn. reflexivity.
  - destruct (Z.eqb (u_type u) 2); [|now exists r].
    destruct l as [|a l]; [|now exists r]. cbn [app tl]. now exists (tl r).
Qed.
Lemma prefix_fold us : forall l c, prefix l c ->
  prefix (fold_left (fun l u => sk_event (u_type u) (u_pc u) l) us l) (fold_left cs_event us c).
Proof. induction us as [|u us IH]; intros l c H; [exact H|]. cbn [fold_left]. apply IH. now apply prefix_event. Qed.
Lemma shallow_fold us : forall l, shallow us l ->
  fold_left (fun l u => sk_event (u_type u) (u_pc u) l) us l = fold_left cs_event us l.
Proof.
  induction us as [|u us IH]; intros l H; [reflexivity|]. cbn [fold_left]. destruct H as [_ H].
  rewrite <- (IH (cs_event l u)) by exact H. f_equal.
  assert (L: length (cs_event l u) <= 16) by (destruct us; exact (proj1 H)).
  unfold sk_event, cs_event, sk_push in *. destruct (Z.eqb (u_type u) 1); [|reflexivity].
  rewrite firstn_all2 by exact L. reflexivity.
Qed.

(* ------------------------------------------------------------------ *)
(** * Requests to the banks *)

Lemma bank_inj pc i j : word pc -> i < 4 -> j < 4 -> in_block pc i = true -> in_block pc j = true ->
  bank_of (pc_of pc i) = bank_of (pc_of pc j) -> i = j.
Proof.
  unfold in_block, bank_of, pc_of, word. intros W Hi Hj A B. change M32 with 4294967296%Z in *.
  rewrite !andb_true_iff, Z.eqb_eq, Z.ltb_lt in A. rewrite !andb_true_iff, Z.eqb_eq, Z.ltb_lt in B.
  rewrite !(Z.mod_small _ 4294967296) by lia.
  intros E. apply Z2Nat.inj in E; lia.
Qed.
Lemma pred_req_is s x i : word (p_pc s x) -> p_do s x = true -> i < 4 -> in_block (p_pc s x) i = true ->
  pred_req s x (bank_of (pc_of (p_pc s x) i)) = Some (pc_of (p_pc s x) i / 4)%Z.
Proof.
  intros W D Hi B. unfold pred_req. rewrite D.
  destruct (find (fun j => p_on s x j && (p_bank s x j =? bank_of (pc_of (p_pc s x) i))) (seq 0 NF)) as [j|] eqn:F.
  - apply find_some in F. destruct F as [I F]. apply in_seq in I. change (0 + NF) with 4 in I.
    rewrite andb_true_iff, Nat.eqb_eq, p_bank_eq, p_on_spec in F by (assumption || lia).
    destruct F as [F1 F2]. rewrite (bank_inj _ j i W ltac:(lia) Hi F1 B F2).
    unfold bank_pc. rewrite slot_pc_eq, Z.shiftr_div_pow2 by lia. reflexivity.
  - exfalso. pose proof (find_none _ _ F i) as N. cbn beta in N.
    rewrite p_on_spec, p_bank_eq, B, Nat.eqb_refl in N by assumption.
    assert (I: In i (seq 0 NF)) by (apply in_seq; change NF with 4; lia). specialize (N I). discriminate.
Qed.
