(** The stores of the reorder buffer are the uncommitted part of the store queue. *)
From Verif Require Import Base BaseLemmas Ring ExecModel RobModel RobSpec RobProofs RobProps MemModel LsuModel LsuStq LsuQ LsuRun LsuSpec LsuHist LsuCycle RlLsu RlModel.
Local Open Scope nat_scope.
Ltac Zify.zify_post_hook ::= Z.div_mod_to_equations.

Definition pfs (w : wback) : bool := memory_report w && w_pf_store w.
Record JI (r : rob) (q : list qent) (l : lsu) (g : gs) : Prop := {
  ji_r : reach r q; ji_l : sreach l g; ji_w : WQ (st l);
  ji_len : scc (st l) + length (stores q) = sn (st l);
  ji_e : forall j e, nth_error (stores q) j = Some e ->
    stq_of (q_uop e) = (sh (st l) + (scc (st l) + j)) mod 16 /\ s_rob (ent (st l) (scc (st l) + j)) = q_idx e /\
    Z.testbit (u_expect (q_uop e)) (Z.of_nat (need (q_uop e))) = true /\
    (answered e = true -> s_st (ent (st l) (scc (st l) + j)) = SWaitCommit /\ (s_pf (ent (st l) (scc (st l) + j)) = true -> reported pfs e = true)) }.

(** *** Lists *)
#[local] Arguments stores : simpl never.
Lemma stores_cons e q : stores (e :: q) = if is_st (q_uop e) then e :: stores q else stores q. Proof. reflexivity. Qed.
Lemma stores_app a b : stores (a ++ b) = stores a ++ stores b. Proof. apply filter_app. Qed.
Lemma stores_map f q : (forall e, q_uop (f e) = q_uop e) -> stores (map f q) = map f (stores q).
Proof. intros H. induction q as [|e t IH]; [reflexivity|]. cbn [map]. rewrite !stores_cons, H. destruct (is_st (q_uop e)); cbn [map]; now rewrite IH. Qed.
Lemma nth_error_app_r {A} (a b : list A) j : nth_error (a ++ b) (length a + j) = nth_error b j.
Proof. rewrite nth_error_app2 by lia. f_equal. lia. Qed.
Lemma stores_in q e : In e (stores q) -> In e q /\ is_st (q_uop e) = true. Proof. apply filter_In. Qed.
Lemma stores_NoDup q : NoDup (map q_idx q) -> NoDup (map q_idx (stores q)).
Proof.
  induction q as [|e t IH]; intros H; [constructor|]. cbn [map] in H. inversion H; subst. rewrite stores_cons. destruct (is_st (q_uop e)); [|auto]. cbn [map]. constructor; [|auto].
  intros X. apply in_map_iff in X as (x & E & X). apply stores_in in X as [X _]. apply H2. rewrite <- E. now apply in_map.
Qed.
Lemma idx_inj q i j a b : NoDup (map q_idx q) -> nth_error q i = Some a -> nth_error q j = Some b -> q_idx a = q_idx b -> i = j.
Proof.
  intros N A B E. rewrite NoDup_nth_error in N. apply N.
  - rewrite map_length. apply nth_error_Some. congruence.
  - now rewrite (map_nth_error q_idx _ _ A), (map_nth_error q_idx _ _ B), E.
Qed.
Lemma upto_same idx q : map q_uop (upto idx q) = firstn (length (upto idx q)) (map q_uop q) /\ map q_idx (upto idx q) = firstn (length (upto idx q)) (map q_idx q) /\
  (forall j e, nth_error (upto idx q) j = Some e -> exists e0, nth_error q j = Some e0 /\ q_idx e = q_idx e0 /\ q_uop e = q_uop e0 /\ q_reports e = q_reports e0).
Proof.
  induction q as [|e t IH]; [cbn; repeat split; intros [|j] e; discriminate|]. cbn [upto]. destruct (q_idx e =? idx).
  - cbn. repeat split. intros [|j] x H; cbn in H; [|destruct j; discriminate]. injection H as <-. exists e. now repeat split.
  - destruct IH as (A & B & C). cbn. rewrite A, B at 1. repeat split. intros [|j] x H; cbn in *; [injection H as <-; exists e; now repeat split|now apply C].
Qed.
Lemma upto_stores idx q : length (stores (upto idx q)) <= length (stores q) /\
  (forall j e, nth_error (stores (upto idx q)) j = Some e -> exists e0, nth_error (stores q) j = Some e0 /\ q_idx e = q_idx e0 /\ q_uop e = q_uop e0 /\ q_reports e = q_reports e0).
Proof.
  induction q as [|e t IH]; [cbn; split; [lia|]; intros [|j] x; discriminate|]. destruct IH as [L C]. cbn [upto]. destruct (q_idx e =? idx).
  - rewrite !stores_cons. change (stores []) with (@nil qent). cbn [q_uop]. destruct (is_st (q_uop e)); cbn; (split; [lia|]); intros [|j] x H; cbn in H; try discriminate; [|destruct j; discriminate]. injection H as <-. exists e. now repeat split.
  - rewrite !stores_cons. destruct (is_st (q_uop e)); cbn; (split; [lia|]); [|exact C]. intros [|j] x H; cbn in *; [injection H as <-; exists e; now repeat split|now apply C].
Qed.
Lemma upto_hit idx q : NoDup (map q_idx q) -> forall j e, nth_error (stores q) j = Some e -> existsb (fun x => q_idx x =? q_idx e) (upto idx q) = (j <? length (stores (upto idx q))).
Proof.
  induction q as [|a t IH]; intros N j e H; [destruct j; discriminate|]. cbn [map] in N. rewrite stores_cons in H. inversion N as [|? ? N1 N2]; subst.
  assert (OTH : forall x, In x (stores t) -> (q_idx a =? q_idx x) = false).
  { intros x X. apply stores_in in X as [X _]. apply Nat.eqb_neq. intros E. apply N1. rewrite E. now apply in_map. }
  cbn [upto]. destruct (q_idx a =? idx).
  - cbn [existsb q_idx]. rewrite stores_cons. change (stores []) with (@nil qent). cbn [q_uop]. destruct (is_st (q_uop a)); cbn [length].
    + destruct j as [|j]; cbn in H; [injection H as <-; now rewrite Nat.eqb_refl|]. rewrite (OTH e (nth_error_In _ _ H)). reflexivity.
    + rewrite (OTH e (nth_error_In _ _ H)). reflexivity.
  - cbn [existsb]. rewrite stores_cons. destruct (is_st (q_uop a)); cbn [length].
    + destruct j as [|j]; cbn in H; [injection H as <-; now rewrite Nat.eqb_refl|]. rewrite (OTH e (nth_error_In _ _ H)). cbn [orb]. rewrite (IH N2 j e H). reflexivity.
    + rewrite (OTH e (nth_error_In _ _ H)). cbn [orb]. apply (IH N2 j e H).
Qed.
Lemma filter_prefix {A} (p : A -> bool) K : forall l, (forall i x, nth_error l i = Some x -> p x = (i <? K)) -> K <= length l -> filter p l = firstn K l.
Proof.
  induction K as [|K IH]; intros l H L.
  - cbn. destruct l as [|a t]; [reflexivity|]. rewrite (H 0 a eq_refl) || idtac. assert (F : forall l', (forall i x, nth_error l' i = Some x -> p x = false) -> filter p l' = []).
    { clear. induction l' as [|b t IH]; intros H; [reflexivity|]. cbn. rewrite (H 0 b eq_refl). apply IH. intros i x X. exact (H (S i) x X). }
    apply F. intros i x X. rewrite (H i x X). reflexivity.
  - destruct l as [|a t]; [cbn in L; lia|]. cbn [filter firstn]. rewrite (H 0 a eq_refl). change (0 <? S K) with true. cbv iota. f_equal. apply IH; [|cbn in L; lia]. intros i x X. rewrite (H (S i) x X). reflexivity.
Qed.
Lemma lead_full f n : (forall k, k < n -> f k = true) -> lead f n = n.
Proof. revert f. induction n as [|n IH]; intros f H; [reflexivity|]. cbn. rewrite (H 0) by lia. f_equal. apply IH. intros k K. apply H. lia. Qed.
Lemma stores_firstn c q : exists n, stores (firstn c q) = firstn n (stores q) /\ n = length (stores (firstn c q)) /\ stores (skipn c q) = skipn n (stores q).
Proof.
  revert q. induction c as [|c IH]; intros q; [exists 0; now repeat split|]. destruct q as [|e t]; [exists 0; now repeat split|]. destruct (IH t) as (n & A & B & C). cbn [firstn skipn]. rewrite !stores_cons. destruct (is_st (q_uop e)).
  - exists (S n). cbn. rewrite A at 1. rewrite C. repeat split. now rewrite B.
  - exists n. now repeat split.
Qed.
Lemma nth_order s k : k < sn s -> nth_error (order s) k = Some (key (ent s k)).
Proof. intros K. pose proof (order_nth s k (key stqe0) K) as Y. rewrite <- Y. apply nth_error_nth'. rewrite order_len. exact K. Qed.

(** *** Committed stores *)
Lemma commits_are r q ri : reach r q -> commits r ri = map (fun e => stq_of (q_uop e)) (stores (firstn (length (committed r ri)) q)).
Proof.
  intros R. destruct (c04_commits_oldest_first r q ri R) as [F _]. unfold commits. unfold commit_view in F. revert F. generalize (firstn (length (committed r ri)) q) as q0. generalize (committed r ri) as c.
  induction c as [|p c IH]; intros q0 F; cbn in F; inversion F as [|e ? q' ? T F']; subst; [reflexivity|]. rewrite stores_cons. cbn [filter].
  assert (S1 : is_st (snd p) = is_st (q_uop e)). { pose proof (tr_type _ _ T) as A. pose proof (tr_rest _ _ T) as B. cbn [snd] in A, B. unfold is_st, is_lr. now rewrite A, B. }
  rewrite S1. destruct (is_st (q_uop e)); cbn [map]; [|now apply IH]. rewrite (IH q' F'). f_equal. pose proof (tr_rest _ _ T) as B. cbn [snd] in B. unfold stq_of. now rewrite B.
Qed.
Lemma accepted_n b fl n : forall s, SInv b s -> scc s + n <= sn s -> (forall k, k < n -> s_st (ent s (scc s + k)) = SWaitCommit) -> (forall k, k < n -> s_pf (ent s (scc s + k)) = true -> fl = true) ->
  sbad (comb_stq_commit (cslots s n) fl s) = sbad s.
Proof.
  induction n as [|n IH]; intros s V L W PF; [reflexivity|]. pose proof (v_C _ _ V) as (C1 & C2 & C3). unfold STQ_SIZE in C2. unfold cslots, comb_stq_commit. cbn [seq map fold_left]. rewrite Nat.add_0_r.
  set (idx := (sh s + scc s) mod STQ_SIZE). assert (IX : idx = scm s) by (unfold idx; rewrite (v_scm _ _ V), (v_sh _ _ V); unfold STQ_SIZE; lia).
  assert (EI : sq s idx = ent s (scc s)) by reflexivity. assert (W0 : s_st (sq s idx) = SWaitCommit) by (rewrite EI, <- (Nat.add_0_r (scc s)); apply W; lia).
  assert (AC : accepts s idx = true) by (unfold accepts; rewrite <- IX, Nat.eqb_refl; unfold is_s; rewrite W0; reflexivity).
  assert (PF0 : s_pf (sq s idx) = true -> fl = true) by (rewrite EI; intros X; apply (PF 0 ltac:(lia)); now rewrite Nat.add_0_r).
  assert (LT : scc s < sn s) by lia. pose proof (commit_one_spec b s fl idx V (fun _ => conj LT PF0)) as (V1 & O1 & N1 & S1 & _ & B1). rewrite AC in S1, B1. set (s1 := commit_one fl s idx) in *.
  assert (SH1 : sh s1 = sh s) by (unfold s1, commit_one; fold (accepts s idx); now rewrite AC).
  assert (EN : forall k, k < STQ_SIZE -> k <> scc s -> ent s1 k = ent s k).
  { intros k K N. unfold ent. rewrite SH1. unfold s1, commit_one. fold (accepts s idx). rewrite AC. cbn [set_scc set_scm upd_s set_sq sq]. apply fupd_ne. unfold idx. intros X. apply (slot_inj STQ_SIZE) in X; unfold STQ_SIZE in *; lia. }
  assert (CS : cslots s1 n = map (fun k => (sh s + (scc s + k)) mod STQ_SIZE) (seq 1 n)).
  { unfold cslots. rewrite <- seq_shift, map_map. apply map_ext. intros k. rewrite SH1, S1. f_equal. lia. }
  rewrite <- CS. transitivity (sbad s1); [|rewrite B1; apply orb_false_r]. apply IH; [exact V1|lia| |].
  - intros k K. rewrite EN by (unfold STQ_SIZE; lia). replace (scc s1 + k) with (scc s + S k) by lia. apply W. lia.
  - intros k K. rewrite EN by (unfold STQ_SIZE; lia). replace (scc s1 + k) with (scc s + S k) by lia. apply PF. lia.
Qed.
Lemma commit_facts r q l g ri li : JI r q l g -> jenv r q l g ri li -> let n := length (commits r ri) in
  stores (firstn (length (committed r ri)) q) = firstn n (stores q) /\ stores (skipn (length (committed r ri)) q) = skipn n (stores q) /\ n <= length (stores q) /\
  commits r ri = cslots (st l) n /\
  (forall k, k < n -> s_st (ent (st l) (scc (st l) + k)) = SWaitCommit /\ (s_pf (ent (st l) (scc (st l) + k)) = true -> LsuModel.i_flush li = true)) /\ taken (st l) n = n.
Proof.
  intros J E. cbv zeta. pose proof (ji_r _ _ _ _ J) as R. pose proof (commits_are r q ri R) as CE. destruct (stores_firstn (length (committed r ri)) q) as (n & A & B & C).
  assert (NE : length (commits r ri) = n) by (rewrite CE, map_length; congruence). rewrite NE. rewrite A in CE.
  assert (NL : n <= length (stores q)). { rewrite B, A, firstn_length. lia. }
  split; [exact A|]. split; [exact C|]. split; [exact NL|]. split.
  { rewrite CE. unfold cslots.
    assert (H : forall m a s, m <= length s -> (forall j e, nth_error s j = Some e -> stq_of (q_uop e) = (sh (st l) + (scc (st l) + (a + j))) mod 16) -> map (fun e => stq_of (q_uop e)) (firstn m s) = map (fun k => (sh (st l) + (scc (st l) + k)) mod STQ_SIZE) (seq a m)).
    { clear. induction m as [|m IH]; intros a s L H; [reflexivity|]. destruct s as [|e s]; [cbn in L; lia|]. cbn [firstn map seq]. f_equal.
      - rewrite (H 0 e eq_refl), Nat.add_0_r. reflexivity.
      - apply IH; [cbn in L; lia|]. intros j x X. rewrite (H (S j) x X). do 2 f_equal. lia. }
    apply H; [exact NL|]. intros j e X. exact (proj1 (ji_e _ _ _ _ J j e X)). }
  assert (G : forall k, k < n -> s_st (ent (st l) (scc (st l) + k)) = SWaitCommit /\ (s_pf (ent (st l) (scc (st l) + k)) = true -> LsuModel.i_flush li = true)).
  { intros k K. assert (KL : k < length (stores q)) by lia. apply nth_error_Some in KL. destruct (nth_error (stores q) k) as [e|] eqn:NK; [|congruence]. clear KL.
    destruct (ji_e _ _ _ _ J k e NK) as (_ & _ & EX & AN).
    assert (IC : In e (firstn (length (committed r ri)) q)).
    { assert (X : In e (stores (firstn (length (committed r ri)) q))). { rewrite A. rewrite <- (firstn_skipn n (stores q)) in NK. rewrite nth_error_app1 in NK by (rewrite firstn_length; lia). eapply nth_error_In. exact NK. }
      apply stores_in in X as [X _]. exact X. }
    assert (ST : is_st (q_uop e) = true) by (apply nth_error_In in NK; apply stores_in in NK as [_ X]; exact X).
    destruct (b_interrupt (broadcast r ri)) eqn:BI.
    - pose proof (c04_special_commits_alone r q ri e R IC (or_introl BI)) as L1. rewrite L1 in IC. destruct q as [|e0 q0]; [destruct IC|]. cbn in IC. destruct IC as [<-|[]].
      pose proof (je_int _ _ _ _ _ _ _ E eq_refl BI e0 eq_refl ST) as Y. destruct (AN Y) as [Y1 _]. split; [exact Y1|]. intros _. rewrite (je_flush _ _ _ _ _ _ _ E).
      destruct (reach_inv r _ R) as (m & WF & _). clear - BI WF. unfold broadcast in *. pose proof (decide_decided r m ri WF) as D. destruct D as [|M IR FS DH A|k v M IR Fv|k v M IR Fv C G]; cbn [b_interrupt] in BI; try discriminate.
      + rewrite orb_true_r. repeat match goal with |- context [if ?x then _ else _] => destruct x end; reflexivity.
      + exfalso. revert BI. repeat match goal with |- context [if ?x then _ else _] => destruct x end; cbn; discriminate.
    - destruct (c04_committed_is_complete r q ri e R IC BI _ EX) as (w & W1 & W2).
      assert (Y : answered e = true). { unfold answered, reported. apply existsb_exists. exists w. split; [exact W1|]. now apply Nat.eqb_eq. }
      destruct (AN Y) as [Y1 Y2]. split; [exact Y1|]. intros P. specialize (Y2 P). rewrite (je_flush _ _ _ _ _ _ _ E).
      assert (CS : cause_of e = C_store_fault). { unfold cause_of. fold pfs. rewrite Y2. unfold is_st, it_eqb in ST. destruct (u_type (q_uop e)); try discriminate; reflexivity. }
      assert (L1 : length (committed r ri) = 1) by (apply (c04_special_commits_alone r q ri e R IC); right; left; rewrite CS; discriminate).
      pose proof (c04_flush_and_cause r q ri R BI) as FC. rewrite L1 in FC, IC. destruct q as [|e0 q0]; [destruct IC|]. cbn in FC, IC. destruct IC as [->|[]]. destruct FC as [FC _]. rewrite FC, CS. reflexivity. }
  split; [exact G|]. apply lead_full. intros k K. destruct (G k K) as [-> _]. reflexivity.
Qed.

(** *** One cycle *)
Lemma senv_of r q l g ri li : JI r q l g -> jenv r q l g ri li -> senv (g_b g) (st l) li (length (commits r ri)).
Proof.
  intros J E. destruct (commit_facts r q l g ri li J E) as (A & B & NL & CS & W & TK). pose proof (ji_len _ _ _ _ J) as LN. pose proof (ji_r _ _ _ _ J) as R.
  assert (NOMIS : forall idx, RobModel.i_mispred ri = Some idx -> commits r ri = [] /\ i_sa li = []).
  { intros idx M. destruct (c04_mispredict_holds_commit r q ri idx R M) as [X _]. split; [unfold commits; rewrite X; reflexivity|].
    assert (NF : any_fire (i_fire ri) = false) by (apply (tk_no_fire _ _ (je_traffic _ _ _ _ _ _ _ E)); unfold is_mis; now rewrite M).
    assert (AR : forall f line b, any_fire f = false -> arrivals line b f = []).
    { clear. induction f as [|o f IH]; intros line b H; [reflexivity|]. cbn in H. apply orb_false_iff in H as [H1 H2]. destruct o; [discriminate|]. cbn. now apply IH. }
    pose proof (je_sa _ _ _ _ _ _ _ E) as SA. rewrite (AR _ _ _ NF) in SA. cbn in SA. destruct (i_sa li); [reflexivity|discriminate]. }
  constructor.
  - lia.
  - rewrite (je_commit _ _ _ _ _ _ _ E). exact CS.
  - intros k K. apply W. exact K.
  - apply (je_std _ _ _ _ _ _ _ E).
  - apply (je_sta _ _ _ _ _ _ _ E).
  - apply (je_nd _ _ _ _ _ _ _ E).
  - apply (je_room _ _ _ _ _ _ _ E).
  - apply (je_fl _ _ _ _ _ _ _ E).
  - intros M. rewrite (je_mis _ _ _ _ _ _ _ E) in M. unfold is_mis in M. destruct (RobModel.i_mispred ri) as [idx|] eqn:MI; [|discriminate]. destruct (NOMIS idx eq_refl) as [_ ->]. cbn [map]. rewrite app_nil_r.
    destruct (je_kill _ _ _ _ _ _ _ E idx MI) as [K1 K2]. intros i j d IJ JL H. rewrite order_len in JL. rewrite !order_nth in * by lia. cbn [g_brm key] in *.
    destruct (Nat.lt_ge_cases i (scc (st l))) as [L|L]; [rewrite K1 in H by exact L; discriminate|].
    assert (HE : forall x, scc (st l) <= x < sn (st l) -> hits (s_brm (ent (st l) x)) (i_brm li) = negb (x - scc (st l) <? length (stores (upto idx q)))).
    { intros x X. assert (XL : x - scc (st l) < length (stores q)) by lia. apply nth_error_Some in XL. destruct (nth_error (stores q) (x - scc (st l))) as [e|] eqn:NX; [|congruence].
      pose proof (K2 _ e NX) as Y. replace (scc (st l) + (x - scc (st l))) with x in Y by lia. rewrite Y. f_equal. apply upto_hit; [apply (c03_indices_unique r q R)|exact NX]. }
    rewrite HE in * by lia. apply negb_true_iff in H. apply Nat.ltb_ge in H. apply negb_true_iff, Nat.ltb_ge. lia.
  - intros M k K. rewrite (je_mis _ _ _ _ _ _ _ E) in M. unfold is_mis in M. destruct (RobModel.i_mispred ri) as [idx|] eqn:MI; [|discriminate]. destruct (NOMIS idx eq_refl) as [C0 _]. rewrite C0 in K. cbn in K.
    apply (je_kill _ _ _ _ _ _ _ E idx MI). lia.
  - apply (je_clr _ _ _ _ _ _ _ E).
Qed.

Lemma nth_ext {A} (a : list A) : forall b, (forall i, nth_error a i = nth_error b i) -> a = b.
Proof. induction a as [|x a IH]; intros [|y b] H; [reflexivity|discriminate (H 0)|discriminate (H 0)|]. specialize (H 0) as H0. injection H0 as ->. f_equal. apply IH. intros i. exact (H (S i)). Qed.
Lemma no_arrivals f : forall line b, any_fire f = false -> arrivals line b f = [].
Proof. induction f as [|o f IH]; intros line b H; [reflexivity|]. cbn in H. apply orb_false_iff in H as [H1 H2]. destruct o; [discriminate|]. cbn. now apply IH. Qed.
Lemma arrivals_fresh f : forall line b e, In e (arrivals line b f) -> q_reports e = [].
Proof. induction f as [|[u|] f IH]; intros line b e H; [destruct H| |exact (IH _ _ _ H)]. cbn in H. destruct H as [<-|H]; [reflexivity|exact (IH _ _ _ H)]. Qed.
Lemma upto_map idx ws q : upto idx (map (add_reports ws) q) = map (add_reports ws) (upto idx q).
Proof. induction q as [|e t IH]; [reflexivity|]. cbn [map upto]. change (q_idx (add_reports ws e)) with (q_idx e). destruct (q_idx e =? idx); [reflexivity|]. cbn [map]. now rewrite IH. Qed.
Lemma order_robs r q l g : JI r q l g -> map g_rob (order (st l)) = firstn (scc (st l)) (map g_rob (order (st l))) ++ map q_idx (stores q).
Proof.
  intros J. pose proof (ji_len _ _ _ _ J) as LN. rewrite <- (firstn_skipn (scc (st l)) (map g_rob (order (st l)))) at 1. f_equal. apply nth_ext. intros i.
  assert (SK : nth_error (skipn (scc (st l)) (map g_rob (order (st l)))) i = nth_error (map g_rob (order (st l))) (scc (st l) + i)).
  { rewrite <- (firstn_skipn (scc (st l)) (map g_rob (order (st l)))) at 2. rewrite nth_error_app2; rewrite firstn_length, map_length, order_len; [|lia]. f_equal. lia. }
  rewrite SK. destruct (nth_error (stores q) i) as [e|] eqn:N.
  - rewrite (map_nth_error q_idx _ _ N). assert (I : i < length (stores q)) by (apply nth_error_Some; congruence). rewrite (map_nth_error g_rob _ _ (nth_order (st l) (scc (st l) + i) ltac:(lia))). f_equal. apply (ji_e _ _ _ _ J i e N).
  - apply nth_error_None in N. transitivity (@None nat); [|symmetry]; apply nth_error_None; rewrite map_length; [rewrite order_len|]; lia.
Qed.
Lemma clear_robs m L : map g_rob (map (clear_g m) L) = map g_rob L.
Proof. rewrite map_map. apply map_ext. now intros []. Qed.

(** The stores in flight after the cycle: a prefix of the uncommitted old ones, with the new reports, then the new ones. *)
Lemma q_step_stores r q l g ri li : JI r q l g -> jenv r q l g ri li -> let n := length (commits r ri) in
  let new := stores (arrivals (enq_ptr r) 0 (i_fire ri)) in
  map g_rob (squash li (scc (st l) + n) (order (st l) ++ map galloc (i_sa li))) =
    firstn (scc (st l) + n) (map g_rob (order (st l))) ++ map q_idx (stores (q_step q r ri)) /\
  (forall j e, nth_error (stores (q_step q r ri)) j = Some e ->
    (exists e0, nth_error (stores q) (n + j) = Some e0 /\ q_idx e = q_idx e0 /\ q_uop e = q_uop e0 /\ q_reports e = q_reports e0 ++ filter (fun w => w_idx w =? q_idx e0) (i_wb ri)) \/
    (exists m, n + j = length (stores q) + m /\ nth_error new m = Some e /\ q_reports e = [])).
Proof.
  intros J E. cbv zeta. destruct (commit_facts r q l g ri li J E) as (A & B & NL & CS & W & TK). pose proof (ji_len _ _ _ _ J) as LN. pose proof (ji_r _ _ _ _ J) as R. set (n := length (commits r ri)) in *.
  pose proof (order_robs r q l g J) as RI. set (X := map g_rob (order (st l))) in *. assert (XL : length (firstn (scc (st l)) X) = scc (st l)) by (unfold X; rewrite firstn_length, map_length, order_len; lia).
  assert (FN : forall m, firstn (scc (st l) + m) X = firstn (scc (st l)) X ++ firstn m (map q_idx (stores q))).
  { intros m. rewrite RI at 1. rewrite firstn_app, XL. f_equal; [rewrite firstn_all2 by lia; reflexivity|f_equal; lia]. }
  assert (MF : b_flush (broadcast r ri) = true -> is_mis ri = false).
  { intros F. unfold is_mis. destruct (RobModel.i_mispred ri) as [idx|] eqn:M; [|reflexivity]. destruct (c04_mispredict_holds_commit r q ri idx R M) as [_ Y]. rewrite Y in F. discriminate. }
  set (new := stores (arrivals (enq_ptr r) 0 (i_fire ri))) in *.
  unfold squash, q_step. rewrite (je_flush _ _ _ _ _ _ _ E), (je_mis _ _ _ _ _ _ _ E).
  destruct (b_flush (broadcast r ri)) eqn:F.
  - (* flush *) rewrite (MF eq_refl). split; [|intros [|j] e H; discriminate]. change (stores []) with (@nil qent). cbn [map]. rewrite app_nil_r.
    destruct (nz (i_clear li)); rewrite ?clear_robs, <- firstn_map, map_app; fold X; rewrite firstn_app; replace (scc (st l) + n - length X) with 0 by (unfold X; rewrite map_length, order_len; lia); now rewrite firstn_O, app_nil_r.
  - unfold is_mis. destruct (RobModel.i_mispred ri) as [idx|] eqn:M.
    + (* misprediction *) destruct (c04_mispredict_holds_commit r q ri idx R M) as [C0 _].
      assert (N0 : n = 0) by (unfold n, commits; now rewrite C0). assert (NF : any_fire (i_fire ri) = false) by (apply (tk_no_fire _ _ (je_traffic _ _ _ _ _ _ _ E)); unfold is_mis; now rewrite M).
      assert (AR : arrivals (enq_ptr r) 0 (i_fire ri) = []) by now apply no_arrivals.
      assert (SA : i_sa li = []). { pose proof (je_sa _ _ _ _ _ _ _ E) as SA. rewrite AR in SA. destruct (i_sa li); [reflexivity|discriminate]. }
      rewrite C0, AR, SA. cbn [length skipn map]. rewrite !app_nil_r. assert (Q4 : (if rob_ready r then upto idx (map (add_reports (i_wb ri)) q) else upto idx (map (add_reports (i_wb ri)) q)) = map (add_reports (i_wb ri)) (upto idx q)) by (rewrite upto_map; now destruct (rob_ready r)).
      rewrite Q4. rewrite (stores_map (add_reports (i_wb ri))) by reflexivity. destruct (upto_stores idx q) as [UL UE]. set (U := stores (upto idx q)) in *.
      assert (UI : map q_idx U = firstn (length U) (map q_idx (stores q))).
      { apply nth_ext. intros i. destruct (nth_error U i) as [e|] eqn:NU.
        - rewrite (map_nth_error q_idx _ _ NU). destruct (UE i e NU) as (e0 & N1 & N2 & _). assert (IL : i < length U) by (apply nth_error_Some; congruence).
          rewrite firstn_map. symmetry. rewrite N2. apply map_nth_error. rewrite <- (firstn_skipn (length U) (stores q)) in N1. rewrite nth_error_app1 in N1; [exact N1|rewrite firstn_length; lia].
        - apply nth_error_None in NU. transitivity (@None nat); [|symmetry]; apply nth_error_None; rewrite ?firstn_length, ?map_length; lia. }
      destruct (je_kill _ _ _ _ _ _ _ E idx M) as [K1 K2].
      assert (FP : filter (spared (i_brm li)) (order (st l)) = firstn (scc (st l) + length U) (order (st l))).
      { apply filter_prefix; [|rewrite order_len; lia]. intros i x NX. assert (IL : i < sn (st l)) by (rewrite <- order_len; apply nth_error_Some; congruence). rewrite (nth_order _ _ IL) in NX. injection NX as <-. unfold spared. cbn [g_brm key].
        destruct (Nat.lt_ge_cases i (scc (st l))) as [L|L].
        - rewrite K1 by exact L. symmetry. apply Nat.ltb_lt. lia.
        - assert (XL2 : i - scc (st l) < length (stores q)) by lia. apply nth_error_Some in XL2. destruct (nth_error (stores q) (i - scc (st l))) as [e|] eqn:NX; [|congruence].
          pose proof (K2 _ e NX) as Y. replace (scc (st l) + (i - scc (st l))) with i in Y by lia. rewrite Y, negb_involutive, (upto_hit idx q) with (j := i - scc (st l)); [|apply (c03_indices_unique r q R)|exact NX]. fold U.
          destruct (Nat.ltb_spec (i - scc (st l)) (length U)), (Nat.ltb_spec i (scc (st l) + length U)); try reflexivity; lia. }
      rewrite FP, N0, Nat.add_0_r. split.
      * rewrite map_map. change (map (fun x => q_idx (add_reports (i_wb ri) x)) U) with (map q_idx U). rewrite UI. destruct (nz (i_clear li)); rewrite ?clear_robs, <- firstn_map; fold X; apply FN.
      * intros j e H. left. cbn [Nat.add]. destruct (nth_error U j) as [e1|] eqn:NU; [|rewrite nth_error_None in NU; assert (nth_error (map (add_reports (i_wb ri)) U) j = None) by (apply nth_error_None; rewrite map_length; lia); congruence].
        rewrite (map_nth_error _ _ _ NU) in H. injection H as <-. destruct (UE j e1 NU) as (e0 & N1 & N2 & N3 & N4). exists e0. split; [exact N1|]. split; [exact N2|]. split; [exact N3|]. cbn [add_reports q_reports]. now rewrite N4, N2.
    + (* neither *) assert (Q4 : stores (if rob_ready r then map (add_reports (i_wb ri)) (skipn (length (committed r ri)) q) ++ arrivals (enq_ptr r) 0 (i_fire ri) else map (add_reports (i_wb ri)) (skipn (length (committed r ri)) q))
        = map (add_reports (i_wb ri)) (skipn n (stores q)) ++ new).
      { destruct (rob_ready r) eqn:RR.
        - rewrite stores_app, (stores_map (add_reports (i_wb ri))), B by reflexivity. reflexivity.
        - unfold new. rewrite (no_arrivals _ _ _ (je_ready _ _ _ _ _ _ _ E RR)). change (stores []) with (@nil qent). rewrite app_nil_r, (stores_map (add_reports (i_wb ri))), B by reflexivity. reflexivity. }
      rewrite Q4. split.
      * assert (GA : map g_rob (map galloc (i_sa li)) = map q_idx new) by (unfold new; rewrite <- (je_sa _ _ _ _ _ _ _ E), map_map; reflexivity).
        rewrite (map_app q_idx), map_map. change (map (fun x => q_idx (add_reports (i_wb ri) x)) (skipn n (stores q))) with (map q_idx (skipn n (stores q))).
        rewrite FN, <- (skipn_map q_idx). rewrite <- app_assoc, (app_assoc (firstn n _)), firstn_skipn, app_assoc, <- RI.
        destruct (nz (i_clear li)); rewrite ?clear_robs, (map_app g_rob), GA; reflexivity.
      * intros j e H. assert (SL : length (map (add_reports (i_wb ri)) (skipn n (stores q))) = length (stores q) - n) by (rewrite map_length, skipn_length; reflexivity).
        destruct (Nat.lt_ge_cases j (length (stores q) - n)) as [L|L].
        -- left. rewrite nth_error_app1 in H by lia. destruct (nth_error (skipn n (stores q)) j) as [e0|] eqn:N0; [|apply nth_error_None in N0; rewrite skipn_length in N0; lia].
           rewrite (map_nth_error _ _ _ N0) in H. injection H as <-. exists e0. split; [|now repeat split]. rewrite <- (firstn_skipn n (stores q)). rewrite nth_error_app2; rewrite firstn_length; [|lia]. replace (n + j - Nat.min n (length (stores q))) with j by lia. exact N0.
        -- right. rewrite nth_error_app2 in H by lia. rewrite SL in H. exists (j - (length (stores q) - n)). split; [lia|]. split; [exact H|]. apply nth_error_In in H. unfold new in H. apply stores_in in H as [H _]. exact (arrivals_fresh _ _ _ _ H).
Qed.

Lemma JI_step r q l g ri li n0 : JI r q l g -> jenv r q l g ri li ->
  n0 + sn (st (fst (lsu_cycle l li))) = length (squash li (scc (st l) + taken (st l) (length (commits r ri))) (g_ord g ++ map galloc (i_sa li))) ->
  JI (rob_step r ri) (q_step q r ri) (fst (lsu_cycle l li)) (jstep_g r l g ri li n0).
Proof.
  intros J E LN0. pose proof (senv_of r q l g ri li J E) as SE. destruct (commit_facts r q l g ri li J E) as (A & B & NL & CS & W & TK). destruct (q_step_stores r q l g ri li J E) as [QO QE].
  pose proof (ji_len _ _ _ _ J) as LN. pose proof (ji_r _ _ _ _ J) as R. pose proof (sreach_GI _ _ (ji_l _ _ _ _ J)) as G. unfold jstep_g. set (n := length (commits r ri)) in *.
  pose proof (store_cycle g l li n G SE) as SC. pose proof (report_cycle g l li n G SE (ji_w _ _ _ _ J)) as RC.
  assert (MS := je_ms _ _ _ _ _ _ _ E). assert (WB := je_wb _ _ _ _ _ _ _ E).
  assert (SR : sreach (fst (lsu_cycle l li)) (gstep (st l) li n (snd (lsu_cycle l li)) g n0)).
  { apply sreach_step; [exact (ji_l _ _ _ _ J)|exact SE|apply surjective_pairing|exact LN0]. }
  destruct (lsu_cycle l li) as [l' o]. cbn [fst snd] in *. rewrite TK in *.
  destruct SC as (r0 & G' & RL & R0 & SCC). assert (r0 = n0) by lia. subst r0. specialize (RC MS). destruct RC as (WQ' & KW & RP).
  assert (OR : order (st l') = skipn n0 (squash li (scc (st l) + n) (order (st l) ++ map galloc (i_sa li)))).
  { rewrite <- (gi_ord _ _ G'). cbn [gstep g_ord]. rewrite TK, (gi_ord _ _ G). reflexivity. }
  set (SQ := squash li (scc (st l) + n) (order (st l) ++ map galloc (i_sa li))) in *.
  assert (SQL : length SQ = scc (st l) + n + length (stores (q_step q r ri))).
  { rewrite <- (map_length g_rob SQ), QO, app_length, firstn_length, !map_length, order_len. lia. }
  rewrite (gi_ord _ _ G) in RL. fold SQ in RL.
  assert (SHE : forall j, (sh (st l') + (scc (st l') + j)) mod 16 = (sh (st l) + (scc (st l) + n + j)) mod 16).
  { intros j. pose proof (v_sh _ _ (gi_inv _ _ G')) as V'. pose proof (v_sh _ _ (gi_inv _ _ G)) as V. cbn [gstep g_b] in V'. unfold STQ_SIZE in *. lia. }
  assert (EN : forall j, ent (st l') (scc (st l') + j) = sq (st l') ((sh (st l) + (scc (st l) + n + j)) mod STQ_SIZE)) by (intros j; unfold ent, STQ_SIZE; now rewrite SHE).
  assert (ROB : forall j e, nth_error (stores (q_step q r ri)) j = Some e -> s_rob (ent (st l') (scc (st l') + j)) = q_idx e).
  { intros j e H. assert (JL : j < length (stores (q_step q r ri))) by (apply nth_error_Some; congruence).
    pose proof (nth_order (st l') (scc (st l') + j) ltac:(lia)) as Y. rewrite OR in Y.
    assert (Z : nth_error SQ (scc (st l) + n + j) = Some (key (ent (st l') (scc (st l') + j)))).
    { rewrite <- (firstn_skipn n0 SQ). rewrite nth_error_app2; rewrite firstn_length; [|lia]. rewrite <- Y. f_equal. lia. }
    apply (map_nth_error g_rob) in Z. rewrite QO in Z. rewrite nth_error_app2 in Z; rewrite firstn_length, map_length, order_len in *; [|lia].
    replace (scc (st l) + n + j - Nat.min (scc (st l) + n) (sn (st l))) with j in Z by lia. rewrite (map_nth_error q_idx _ _ H) in Z. injection Z as Z. symmetry. exact Z. }
  constructor; [apply reach_step; [exact R|exact (je_traffic _ _ _ _ _ _ _ E)]|exact SR|exact WQ'|lia|].
  intros j e H. split; [|split; [exact (ROB j e H)|]].
  - unfold STQ_SIZE in *. rewrite SHE. destruct (QE j e H) as [(e0 & N1 & N2 & N3 & N4)|(m & M1 & M2 & M3)].
    + rewrite N3. destruct (ji_e _ _ _ _ J (n + j) e0 N1) as (X & _). rewrite X. do 2 f_equal. lia.
    + destruct (je_idx _ _ _ _ _ _ _ E m e M2) as [X _]. rewrite X. f_equal. lia.
  - destruct (QE j e H) as [(e0 & N1 & N2 & N3 & N4)|(m & M1 & M2 & M3)].
    2:{ split; [apply (je_idx _ _ _ _ _ _ _ E m e M2)|]. unfold answered, reported. rewrite M3. discriminate. }
    destruct (ji_e _ _ _ _ J (n + j) e0 N1) as (_ & X2 & X3 & X4). split; [rewrite N3; exact X3|]. intros AN. rewrite EN. replace (scc (st l) + (n + j)) with (scc (st l) + n + j) in * by lia.
    assert (KK : scc (st l) + n <= scc (st l) + n + j < sn (st l)). { assert (n + j < length (stores q)) by (apply nth_error_Some; congruence). lia. }
    assert (MO : forall P, reported P e0 = true -> reported P e = true) by (intros P X; unfold reported in *; rewrite N4, existsb_app, X; reflexivity).
    destruct (answered e0) eqn:A0.
    + destruct (X4 eq_refl) as [Y1 Y2]. destruct (KW _ KK Y1) as [Z1 Z2]. split; [exact Z1|]. intros P. rewrite Z2 in P. apply MO. now apply Y2.
    + (* the report came this cycle *)
      assert (NR : exists w, In w (i_wb ri) /\ w_idx w = q_idx e0 /\ group (w_port w) = need (q_uop e0)).
      { unfold answered, reported in AN, A0. rewrite N4, N3, existsb_app, A0 in AN. cbn [orb] in AN. apply existsb_exists in AN as (w & W1 & W2). apply filter_In in W1 as [W1 W3]. apply Nat.eqb_eq in W2, W3. exists w. now repeat split. }
      destruct NR as (w & W1 & W2 & W3). assert (IE : In e0 (stores q)) by (eapply nth_error_In; exact N1).
      destruct (memory_report w) eqn:MR; [|exfalso; exact (je_other _ _ _ _ _ _ _ E w e0 W1 MR IE W2 W3)].
      destruct (WB w W1 MR) as (v & V1 & V2 & V3 & V4). destruct (RP v V1) as [(k & K1 & K2 & K3 & K4)|[FL (x & F1 & F2)]].
      * assert (KE : k = scc (st l) + n + j).
        { assert (KL : k - scc (st l) < length (stores q)) by lia. apply nth_error_Some in KL. destruct (nth_error (stores q) (k - scc (st l))) as [ek|] eqn:NK; [|congruence].
          destruct (ji_e _ _ _ _ J _ ek NK) as (_ & Y & _). replace (scc (st l) + (k - scc (st l))) with k in Y by lia.
          assert (k - scc (st l) = n + j); [|lia]. apply (idx_inj (stores q) _ _ ek e0); [apply stores_NoDup, (c03_indices_unique r q R)|exact NK|exact N1|congruence]. }
        subst k. split; [exact K3|]. intros P. unfold reported. apply existsb_exists. exists w. split; [rewrite N4; apply in_app_iff; right; apply filter_In; split; [exact W1|now apply Nat.eqb_eq]|]. unfold pfs. rewrite MR. cbn [andb]. congruence.
      * exfalso. unfold need in W3. destruct (is_sc (q_uop e0)) eqn:SCE.
        -- apply (je_sc _ _ _ _ _ _ _ E e0 x IE SCE F1). congruence.
        -- rewrite FL in V4. unfold group, memory_report in *. destruct (kind (w_port w)); discriminate.
Qed.
Theorem jreach_JI r q l g c : jreach r q l g c -> JI r q l g /\ length (g_hist g) = c.
Proof.
  induction 1 as [|r q l g c ri li n H [J C] E LN].
  - split; [|reflexivity]. constructor; [constructor|constructor|exact WQ0|reflexivity|]. intros [|j] e X; discriminate.
  - split; [now apply JI_step|]. destruct (commit_facts r q l g ri li J E) as (_ & _ & _ & _ & _ & TK). unfold jstep_g. cbn [gstep g_hist]. rewrite app_length. unfold newly. rewrite map_length, seq_length, TK. lia.
Qed.
