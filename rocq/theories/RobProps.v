(** C03, C04, C05: the reorder buffer. *)
From Verif Require Import Base BaseLemmas ExecModel RobModel RobSpec RobProofs.
Local Open Scope nat_scope.
Ltac Zify.zify_post_hook ::= Z.div_mod_to_equations.

(** ** C03 *)
(** The storage holds exactly the instructions of the queue, in order, each in
    the state that dispatch and the reports since then give it. *)
Theorem c03_storage_is_the_queue : forall r q,
  reach r q -> Forall2 tracks q (contents r).
Proof. intros r q H. destruct (reach_inv r q H) as (n & _ & F). exact F. Qed.

Lemma tracks_keys q c : Forall2 tracks q c -> map fst c = map q_idx q.
Proof. intros F. induction F as [|e p q c T F IH]; [reflexivity|]. cbn. rewrite IH, (tr_idx _ _ T). reflexivity. Qed.

Theorem c03_indices_unique : forall r q,
  reach r q -> NoDup (map q_idx q) /\ forall e, In e q -> q_idx e < 64.
Proof.
  intros r q H. destruct (reach_inv r q H) as (n & W & F). rewrite <- (tracks_keys _ _ F). split.
  - apply (contents_NoDup r n W).
  - intros e He. apply (contents_range r n _ W). rewrite (tracks_keys _ _ F). apply in_map. exact He.
Qed.

(** Empty means no instruction; not ready means every one of the 32 lines is
    occupied; Dispatch is never refused otherwise. *)
Theorem c03_empty_exact : forall r q, reach r q -> (is_empty r = true <-> q = []).
Proof.
  intros r q H. destruct (reach_inv r q H) as (n & W & F). rewrite (wf_empty _ _ W). rewrite Nat.eqb_eq.
  split.
  - intros ->. rewrite (contents_win _ _ W) in F. inversion F. reflexivity.
  - intros ->. assert (E : contents r = []) by (inversion F; reflexivity). destruct n as [|n]; [reflexivity|]. exfalso.
    rewrite (contents_win _ _ W), win_S in E. apply app_eq_nil in E. destruct E as [E _].
    rewrite line_contents_LB in E. apply LB_nil in E. rewrite (wf_in _ _ W) in E; [discriminate|lia].
Qed.
Theorem c03_full_exact : forall r q, reach r q ->
  (rob_ready r = false <-> forall l, l < 32 -> exists e, In e q /\ q_idx e / 2 = l).
Proof.
  intros r q H. destruct (reach_inv r q H) as (n & W & F). unfold rob_ready. rewrite (wf_full _ _ W).
  pose proof (wf_deq _ _ W) as Wd. pose proof (wf_n _ _ W) as Wn. unfold LINES in Wd, Wn.
  split.
  - intros E l Hl. apply negb_false_iff, Nat.eqb_eq in E. subst n.
    set (k := (32 + l - deq_ptr r) mod 32).
    assert (K : (deq_ptr r + k) mod LINES = l) by (unfold k, LINES; lia).
    pose proof (wf_in _ _ W k) as D. rewrite K in D. specialize (D ltac:(unfold k, LINES; lia)).
    destruct (LB l 0 (lines r l)) as [|p t] eqn:E; [apply LB_nil in E; congruence|].
    assert (I : In (fst p) (map fst (contents r))).
    { apply in_map. unfold contents. apply in_flat_map. exists k. split; [apply in_seq; unfold k, LINES; lia|].
      rewrite K, line_contents_LB, E. left. reflexivity. }
    rewrite (tracks_keys _ _ F) in I. apply in_map_iff in I. destruct I as (e & I1 & I2). exists e. split; [exact I2|].
    rewrite I1. destruct (LB_keys l 0 (lines r l) (fst p)) as (j & Hj & J); [rewrite E; left; reflexivity|].
    rewrite (wf_len _ _ W) in Hj. rewrite J. unfold make_rob_idx, BANKS in *. lia.
  - intros A. apply negb_false_iff, Nat.eqb_eq. destruct (Nat.eq_dec n LINES) as [|N]; [assumption|exfalso].
    destruct (A ((deq_ptr r + n) mod 32)) as (e & I & Q); [lia|].
    assert (X : In (q_idx e) (map fst (contents r))) by (rewrite (tracks_keys _ _ F); apply in_map; exact I).
    rewrite (contents_win _ _ W) in X. destruct (win_keys _ _ _ _ _ W X) as (k & Hk & K).
    unfold rob_line, BANKS in K. rewrite Q in K. unfold LINES in *. lia.
Qed.

(** ** C04 *)
(** What commits is the oldest part of the queue, in order. *)
Definition commit_view (r : rob) (i : rob_in) : list (nat * ruop) :=
  map (fun p : nat * ruop => (make_rob_idx (deq_ptr r) (fst p), snd p)) (committed r i).

Lemma commit_split r q i : reach r q ->
  exists n, wf r n /\ Forall2 tracks q (contents r) /\
    contents r = commit_view r i ++ contents (comb_commit r i).
Proof.
  intros H. destruct (reach_inv r q H) as (n & W & F).
  destruct (commit_ok r n i W) as (n1 & _ & _ & C & _). exists n. auto.
Qed.
Lemma F2_length {A B} (R : A -> B -> Prop) a b : Forall2 R a b -> length a = length b.
Proof. intros F. induction F; cbn; congruence. Qed.
Lemma F2_firstn {A B} (R : A -> B -> Prop) n : forall a b, Forall2 R a b -> Forall2 R (firstn n a) (firstn n b).
Proof. induction n as [|n IH]; intros a b H; [constructor|]. destruct H; [constructor|]. cbn. constructor; auto. Qed.

Theorem c04_commits_oldest_first : forall r q i, reach r q ->
  Forall2 tracks (firstn (length (committed r i)) q) (commit_view r i) /\
  length (committed r i) <= length q.
Proof.
  intros r q i H. destruct (commit_split r q i H) as (n & W & F & C).
  assert (L : length (commit_view r i) = length (committed r i)) by apply map_length.
  split.
  - replace (commit_view r i) with (firstn (length (committed r i)) (contents r)).
    + apply F2_firstn. exact F.
    + rewrite C, <- L, firstn_app, firstn_all, Nat.sub_diag. apply app_nil_r.
  - rewrite <- L. rewrite (F2_length _ _ _ F), C, app_length. lia.
Qed.

Lemma in_committed r n i b u : wf r n -> In (b, u) (committed r i) ->
  exists e, In e (lines r (deq_ptr r)) /\ e_valid e = true /\ e_uop e = u.
Proof.
  intros W. unfold committed. pose proof (decide_decided r n i W) as D.
  destruct D as [|M IR FS DH A|k v M IR F|k v M IR F C G]; cbn [fst].
  - intros [].
  - unfold valid_banks. intros H. apply in_flat_map in H. destruct H as ((k & e) & H1 & H2). cbn [fst snd] in H2.
    apply in_combine_r in H1. destruct (e_valid e) eqn:V; [|destruct H2]. destruct H2 as [E|[]].
    inversion E. subst. eauto.
  - intros [E|[]]. inversion E; subst. pose proof (first_valid_LB 0 (lines r (deq_ptr r)) 0) as FL. rewrite F in FL.
    destruct FL as (_ & V & U & L). eexists. split; [apply nth_In; exact L|]. split; [exact V|reflexivity].
  - intros [E|[]]. inversion E; subst. pose proof (first_valid_LB 0 (lines r (deq_ptr r)) 0) as FL. rewrite F in FL.
    destruct FL as (_ & V & U & L). eexists. split; [apply nth_In; exact L|]. split; [exact V|reflexivity].
Qed.

Lemma F2_in_l {A B} (R : A -> B -> Prop) a b x : Forall2 R a b -> In x a -> exists y, In y b /\ R x y.
Proof.
  intros F. induction F as [|u v a b HR F IH]; [intros []|]. intros [->|H1].
  - exists v. split; [left; reflexivity|exact HR].
  - destruct (IH H1) as (y & Y1 & Y2). exists y. split; [right; exact Y1|exact Y2].
Qed.

(** Every committed instruction has reported all the groups it expects, unless
    an interrupt takes its place. *)
Theorem c04_committed_is_complete : forall r q i e, reach r q ->
  In e (firstn (length (committed r i)) q) -> b_interrupt (broadcast r i) = false ->
  forall g, Z.testbit (u_expect (q_uop e)) (Z.of_nat g) = true ->
  exists w, In w (q_reports e) /\ group (w_port w) = g.
Proof.
  intros r q i e H He NI g Hg. destruct (c04_commits_oldest_first r q i H) as [F _].
  destruct (F2_in_l _ _ _ _ F He) as (p & Hp & T).
  destruct (commit_split r q i H) as (n & W & _ & _).
  assert (CP : is_complete (snd p) = true).
  { unfold commit_view in Hp. apply in_map_iff in Hp. destruct Hp as ((b & u) & <- & Hp). cbn [fst snd].
    destruct (in_committed r n i b u W Hp) as (x & X1 & X2 & X3).
    unfold committed in Hp. unfold broadcast in NI. pose proof (decide_decided r n i W) as D.
    destruct D as [|M IR FS DH A|k v M IR Fv|k v M IR Fv C G]; cbn [fst snd] in *.
    - destruct Hp.
    - rewrite <- X3. apply A; assumption.
    - exfalso. revert NI.
      repeat match goal with |- context [if ?x then _ else _] => destruct x end; cbn; discriminate.
    - destruct Hp as [E|[]]. inversion E; subst.
      pose proof (first_valid_LB 0 (lines r (deq_ptr r)) 0) as FL. rewrite Fv in FL. destruct FL as (_ & V & U & L).
      rewrite U. exact C. }
  unfold is_complete in CP. apply Z.eqb_eq in CP.
  rewrite <- (tr_expect _ _ T), <- CP, (tr_cplt _ _ T) in Hg.
  unfold reported in Hg. apply existsb_exists in Hg. destruct Hg as (w & W1 & W2).
  apply Nat.eqb_eq in W2. eauto.
Qed.

Lemma reported_or P Q R e :
  reported (fun w => memory_report w && (P w || Q w || R w)) e =
  reported (fun w => memory_report w && P w) e || reported (fun w => memory_report w && Q w) e ||
  reported (fun w => memory_report w && R w) e.
Proof.
  unfold reported. induction (q_reports e) as [|w l IH]; [reflexivity|]. cbn [existsb]. rewrite IH.
  destruct (memory_report w), (P w), (Q w), (R w); cbn; rewrite ?orb_true_r; try reflexivity;
    repeat match goal with |- context [existsb ?f l] => destruct (existsb f l) end; reflexivity.
Qed.

Lemma plain_cause e k u : tracks e (k, u) -> special u = false -> cause_of e = C_none /\ faulty e = false /\ wants_refetch e = false.
Proof.
  intros T SP. pose proof (tr_type _ _ T) as TT.
  pose proof (tr_illegal _ _ T) as TI. pose proof (tr_pfi _ _ T) as TP. pose proof (tr_pfs _ _ T) as TS.
  pose proof (tr_pfl_only _ _ T) as TL. pose proof (tr_flush _ _ T) as TF. cbn [snd] in *.
  unfold special, is_flush_inst, is_fence_inst, is_wfi, is_exception, is_page_fault in SP.
  unfold cause_of, faulty, wants_refetch. rewrite reported_or.
  rewrite <- TS, <- TF, <- TI, <- TT.
  destruct (u_pf_store u); [exfalso; rewrite !orb_true_r in SP; cbn in SP; rewrite ?orb_true_r in SP; discriminate|].
  rewrite <- (TL eq_refl).
  destruct (u_pf_load u); [exfalso; destruct (u_pf_inst u), (u_illegal u), (u_flush_pipe u), (u_type u); discriminate|].
  assert (PI : u_pf_inst u = false) by (destruct (u_pf_inst u), (u_illegal u), (u_flush_pipe u), (u_type u); discriminate || reflexivity).
  rewrite PI in TP. symmetry in TP. apply orb_false_iff in TP. destruct TP as [TP1 TP2]. rewrite TP1, TP2.
  destruct (u_illegal u), (u_flush_pipe u), (u_type u); try (rewrite ?PI in SP; discriminate); repeat split.
Qed.

(** An instruction that redirects the pipeline, a fence, a WFI, or one replaced
    by an interrupt commits alone. *)
Theorem c04_special_commits_alone : forall r q i e, reach r q ->
  In e (firstn (length (committed r i)) q) ->
  (b_interrupt (broadcast r i) = true \/ cause_of e <> C_none \/
   In (u_type (q_uop e)) [T_FENCE; T_FENCE_I; T_SFENCE_VMA]) ->
  length (committed r i) = 1.
Proof.
  intros r q i e H He HS. destruct (c04_commits_oldest_first r q i H) as [F _].
  destruct (F2_in_l _ _ _ _ F He) as (p & Hp & T).
  destruct (commit_split r q i H) as (n & W & _ & _).
  unfold commit_view in Hp. apply in_map_iff in Hp. destruct Hp as ((b & u) & <- & Hp). cbn [fst snd] in T.
  destruct (in_committed r n i b u W Hp) as (x & X1 & X2 & X3).
  unfold committed, broadcast in *. pose proof (decide_decided r n i W) as D.
  destruct D as [|M IR FS DH A|k v M IR Fv|k v M IR Fv C G]; cbn [fst snd] in *; try reflexivity.
  - destruct Hp.
  - exfalso. destruct (A x X1 X2) as [_ SP]. rewrite X3 in SP.
    destruct (plain_cause e _ _ T SP) as (PC & _ & _).
    destruct HS as [HS|[HS|HS]]; [discriminate|congruence|].
    unfold special, is_fence_inst in SP. pose proof (tr_type _ _ T) as TT. cbn [snd] in TT. rewrite TT in SP.
    cbn [In] in HS. destruct HS as [E|[E|[E|[]]]]; rewrite <- E in SP; cbn in SP; rewrite ?orb_true_r in SP; discriminate.
Qed.

(** A mispredict cycle commits nothing and broadcasts nothing. *)
Theorem c04_mispredict_holds_commit : forall r q i idx, reach r q -> i_mispred i = Some idx ->
  committed r i = [] /\ broadcast r i = quiet.
Proof.
  intros r q i idx H MI. destruct (reach_inv r q H) as (n & W & _).
  destruct (mis_no_commit r n i W) as (_ & A & B); [unfold is_mis; rewrite MI; reflexivity|]. auto.
Qed.

Lemma head_of r n e q : wf r n -> Forall2 tracks (e :: q) (contents r) ->
  exists k u, first_valid (lines r (deq_ptr r)) = Some (k, u) /\ tracks e (make_rob_idx (deq_ptr r) k, u) /\ n <> 0.
Proof.
  intros W F. destruct n as [|n]; [rewrite (contents_win _ _ W) in F; inversion F|].
  assert (N : S n <> 0) by lia.
  pose proof (wf_in _ _ W 0 ltac:(lia)) as D. rewrite (head_line _ _ W N) in D.
  destruct (first_valid_some _ D) as (k & u & FV). exists k, u. split; [exact FV|]. split; [|exact N].
  rewrite (contents_win _ _ W), win_S, (head_line _ _ W N), line_contents_LB in F.
  pose proof (first_valid_LB (deq_ptr r) (lines r (deq_ptr r)) 0) as FL. rewrite FV in FL. destruct FL as (FL & _).
  rewrite FL in F. inversion F; subst. assumption.
Qed.

(** An interrupt is taken exactly when it is requested, the buffer is not empty
    and no mispredict is being handled. *)
Theorem c04_interrupt_exact : forall r q i, reach r q ->
  (b_interrupt (broadcast r i) = true <-> i_interrupt_req i = true /\ i_mispred i = None /\ q <> []).
Proof.
  intros r q i H. destruct (reach_inv r q H) as (n & W & F).
  assert (BI : b_interrupt (broadcast r i) = snd (decide r i)).
  { unfold broadcast. destruct (decide r i) as [d fire]. cbn [snd].
    destruct d; try reflexivity.
    destruct fire; repeat match goal with |- context [if ?x then _ else _] => destruct x end; reflexivity. }
  rewrite BI. split.
  - pose proof (decide_decided r n i W) as D.
    destruct D as [|M IR FS DH A|k v M IR Fv|k v M IR Fv C G]; cbn [snd]; try discriminate. intros _.
    split; [exact IR|]. split; [unfold is_mis in M; destruct (i_mispred i); [discriminate|reflexivity]|].
    intros ->. assert (E : contents r = []) by (inversion F; reflexivity). rewrite (contents_win _ _ W) in E. destruct n as [|n].
    + rewrite (head_empty _ W) in Fv. discriminate.
    + rewrite win_S in E. apply app_eq_nil in E. destruct E as [E _].
      rewrite line_contents_LB in E. apply LB_nil in E. rewrite (wf_in _ _ W) in E; [discriminate|lia].
  - intros (IR & MI & NQ). destruct q as [|e q]; [congruence|].
    destruct (head_of r n e q W F) as (k & u & FV & T & N).
    unfold decide. assert (M : is_mis i = false) by (unfold is_mis; rewrite MI; reflexivity). rewrite M.
    unfold single_part. rewrite FV, IR. cbn [negb andb orb].
    destruct (first_valid_in _ _ _ FV) as (e0 & I0 & V0 & U0).
    assert (S : existsb (fun e => e_valid e && (is_flush_inst (e_uop e) || is_fence_inst (e_uop e) || is_wfi (e_uop e)) || true)
              (lines r (deq_ptr r)) = true).
    { apply existsb_exists. exists e0. split; [exact I0|]. apply orb_true_r. }
    rewrite S. rewrite andb_false_r. destruct (group_ok r i); reflexivity.
Qed.

Lemma committed_single_head r q i n k u fire : wf r n -> Forall2 tracks q (contents r) ->
  first_valid (lines r (deq_ptr r)) = Some (k, u) -> decide r i = (D_single k, fire) ->
  exists e q', q = e :: q' /\ tracks e (make_rob_idx (deq_ptr r) k, u) /\
    committed r i = [(k, u)] /\ e_uop (entry_at (lines r (deq_ptr r)) k) = u.
Proof.
  intros W F FV D. pose proof (first_valid_LB 0 (lines r (deq_ptr r)) 0) as FL. rewrite FV in FL.
  destruct FL as (_ & V & U & L).
  destruct q as [|e q].
  - exfalso. assert (E : contents r = []) by (inversion F; reflexivity). rewrite (contents_win _ _ W) in E. destruct n as [|n].
    + rewrite (head_empty _ W) in FV. discriminate.
    + rewrite win_S in E. apply app_eq_nil in E. destruct E as [E _].
      rewrite line_contents_LB in E. apply LB_nil in E. rewrite (wf_in _ _ W) in E; [discriminate|lia].
  - destruct (head_of r n e q W F) as (k' & u' & FV' & T & N). rewrite FV in FV'. inversion FV'; subst k' u'.
    exists e, q. split; [reflexivity|]. split; [exact T|]. unfold committed. rewrite D. cbn [fst]. rewrite U. split; reflexivity.
Qed.

(** The pipeline is flushed, and the cause signalled, exactly as the oldest
    instruction's history demands. *)
Theorem c04_flush_and_cause : forall r q i, reach r q -> b_interrupt (broadcast r i) = false ->
  match firstn (length (committed r i)) q with
  | [e] => b_flush (broadcast r i) = flushes (cause_of e) (wants_refetch e) /\
           b_exception (broadcast r i) = faulty e /\
           signals (cause_of e) (broadcast r i)
  | l => broadcast r i = quiet /\ forall e, In e l -> cause_of e = C_none
  end.
Proof.
  intros r q i H NI. destruct (commit_split r q i H) as (n & W & F & _).
  destruct (c04_commits_oldest_first r q i H) as [FC _].
  pose proof (decide_decided r n i W) as D. remember (decide r i) as d eqn:DE. symmetry in DE.
  destruct D as [|M IR FS DH A|k u M IR FV|k u M IR FV C G].
  - assert (X : committed r i = []) by (unfold committed; rewrite DE; reflexivity). rewrite X.
    cbn [length firstn]. split; [unfold broadcast; rewrite DE; reflexivity|intros e []].
  - assert (B : broadcast r i = quiet) by (unfold broadcast; rewrite DE; reflexivity). rewrite B.
    assert (P : forall e, In e (firstn (length (committed r i)) q) -> cause_of e = C_none /\ faulty e = false /\ wants_refetch e = false).
    { intros e He. destruct (F2_in_l _ _ _ _ FC He) as ((x & u) & Hp & T).
      unfold commit_view in Hp. apply in_map_iff in Hp. destruct Hp as ((b & u') & E & Hp). inversion E; subst.
      destruct (in_committed r n i b _ W Hp) as (y & X1 & X2 & X3). destruct (A y X1 X2) as [_ SP]. rewrite X3 in SP.
      apply (plain_cause e _ _ T SP). }
    destruct (firstn (length (committed r i)) q) as [|e [|e' l]] eqn:L.
    + split; [reflexivity|intros e []].
    + destruct (P e (or_introl eq_refl)) as (-> & -> & ->). repeat split.
    + split; [reflexivity|]. intros x Hx. apply P. exact Hx.
  - exfalso. revert NI. unfold broadcast. rewrite DE.
    repeat match goal with |- context [if ?x then _ else _] => destruct x end; cbn; discriminate.
  - destruct (committed_single_head r q i n k u false W F FV DE) as (e & q' & -> & T & -> & EU).
    cbn [length firstn]. unfold broadcast. rewrite DE, EU.
    pose proof (tr_type _ _ T) as TT.
    pose proof (tr_illegal _ _ T) as TI. pose proof (tr_pfi _ _ T) as TP. pose proof (tr_pfs _ _ T) as TS.
    pose proof (tr_pfl_only _ _ T) as TL. pose proof (tr_pfl _ _ T) as TL2. pose proof (tr_flush _ _ T) as TF. cbn [snd] in *.
    unfold cause_of, faulty, wants_refetch. rewrite reported_or. rewrite <- TS, <- TF, <- TI, <- TT.
    assert (TP' : u_pf_inst (q_uop e) || (reported (fun w => memory_report w && w_pf_inst w) e || reported (fun w => memory_report w && w_pf_load w) e || u_pf_store u)
                  = u_pf_inst u || u_pf_load u || u_pf_store u).
    { rewrite TP. destruct (u_pf_store u); [rewrite !orb_true_r; reflexivity|]. rewrite (TL eq_refl).
      destruct (u_pf_inst (q_uop e)); rewrite ?orb_false_r; reflexivity. }
    rewrite <- (orb_assoc (it_eqb (u_type u) T_ECALL || u_illegal u) (u_pf_inst (q_uop e))), TP'. rewrite <- TP.
    unfold is_flush_inst, is_exception, is_page_fault, is_wfi.
    destruct (u_pf_store u) eqn:PS.
    + rewrite ?orb_true_r. destruct (u_type u); cbn; repeat (rewrite ?orb_true_r; cbn); repeat split.
    + rewrite <- (TL eq_refl). destruct (u_pf_load u), (u_pf_inst u), (u_illegal u), (u_flush_pipe u), (u_type u); cbn; repeat split.
Qed.

(** Progress: a finished oldest instruction retires (for FENCE.I and SFENCE.VMA:
    once the committed stores have drained). *)
Theorem c04_progress : forall r q i e q' , reach r q -> q = e :: q' -> i_mispred i = None ->
  (forall u, In (q_idx e, u) (contents r) -> is_complete u = true) ->
  (i_store_pending i = true -> ~ In (u_type (q_uop e)) [T_FENCE; T_FENCE_I; T_SFENCE_VMA]) ->
  committed r i <> [].
Proof.
  intros r q i e q' H -> MI CP NF. destruct (reach_inv r _ H) as (n & W & F).
  destruct (head_of r n e q' W F) as (k & u & FV & T & N).
  assert (IN : In (q_idx e, u) (contents r)).
  { rewrite (contents_win _ _ W). destruct n as [|n]; [congruence|]. rewrite win_S, (head_line _ _ W N), line_contents_LB.
    pose proof (first_valid_LB (deq_ptr r) (lines r (deq_ptr r)) 0) as FL. rewrite FV in FL. destruct FL as (FL & _).
    rewrite FL. left. rewrite <- (tr_idx _ _ T). reflexivity. }
  specialize (CP u IN).
  assert (M : is_mis i = false) by (unfold is_mis; rewrite MI; reflexivity).
  assert (GT : is_fence_inst u && i_store_pending i = false).
  { destruct (i_store_pending i); [|apply andb_false_r]. specialize (NF eq_refl). rewrite andb_true_r.
    unfold is_fence_inst. pose proof (tr_type _ _ T) as TT; cbn [snd] in TT; rewrite TT. cbn [In] in NF.
    destruct (u_type (q_uop e)); try reflexivity; exfalso; apply NF; auto. }
  pose proof (decide_decided r n i W) as D. remember (decide r i) as d eqn:DE. symmetry in DE.
  destruct D as [|M' IR FS DH A|k' u' M' IR FV'|k' u' M' IR FV' C G].
  - exfalso. unfold decide in DE. rewrite M in DE. unfold single_part in DE. rewrite FV, CP in DE.
    cbn [negb andb orb] in DE. rewrite andb_false_r in DE.
    destruct (i_interrupt_req i) eqn:IR; cbn [negb andb orb] in DE.
    + destruct (first_valid_in _ _ _ FV) as (e0 & I0 & V0 & U0).
      assert (S : existsb (fun e => e_valid e && (is_flush_inst (e_uop e) || is_fence_inst (e_uop e) || is_wfi (e_uop e)) || true)
              (lines r (deq_ptr r)) = true).
      { apply existsb_exists. exists e0. split; [exact I0|]. apply orb_true_r. }
      rewrite S, andb_false_r in DE. destruct (group_ok r i); discriminate.
    + rewrite GT in DE.
      destruct (existsb _ (lines r (deq_ptr r))) eqn:S; cbn [negb andb] in DE.
      * rewrite andb_false_r in DE. destruct (group_ok r i); discriminate.
      * destruct (group_ok r i); cbn [negb andb] in DE; [discriminate|].
        destruct (is_flush_inst u) eqn:FL; cbn [negb] in DE; [|discriminate].
        destruct (first_valid_in _ _ _ FV) as (e0 & I0 & V0 & U0).
        assert (X : existsb (fun e => e_valid e && (is_flush_inst (e_uop e) || is_fence_inst (e_uop e) || is_wfi (e_uop e)) || false)
           (lines r (deq_ptr r)) = true).
        { apply existsb_exists. exists e0. split; [exact I0|]. rewrite V0, U0, FL. reflexivity. }
        congruence.
  - unfold committed. rewrite DE. cbn [fst]. intros X. unfold valid_banks in X.
    pose proof (valid_banks_LB 0 (lines r (deq_ptr r)) 0) as VB. cbv zeta in VB. rewrite X in VB. cbn in VB. symmetry in VB.
    apply LB_nil in VB. congruence.
  - unfold committed. rewrite DE. discriminate.
  - unfold committed. rewrite DE. discriminate.
Qed.

(** ** C05 *)
(** FENCE.I and SFENCE.VMA wait for the committed stores (or an interrupt). *)
Theorem c05_fencei_sfence_wait_for_stores : forall r q i e, reach r q ->
  In e (firstn (length (committed r i)) q) -> i_store_pending i = true ->
  In (u_type (q_uop e)) [T_FENCE_I; T_SFENCE_VMA] -> b_interrupt (broadcast r i) = true.
Proof.
  intros r q i e H He SP HT. destruct (commit_split r q i H) as (n & W & F & _).
  destruct (c04_commits_oldest_first r q i H) as [FC _].
  pose proof (decide_decided r n i W) as D. remember (decide r i) as d eqn:DE. symmetry in DE.
  destruct D as [|M IR FS DH A|k u M IR FV|k u M IR FV C G].
  - unfold committed in He. rewrite DE in He. destruct He.
  - exfalso. destruct (F2_in_l _ _ _ _ FC He) as ((x & u) & Hp & T).
    unfold commit_view in Hp. apply in_map_iff in Hp. destruct Hp as ((b & u') & E & Hp). inversion E; subst.
    destruct (in_committed r n i b _ W Hp) as (y & X1 & X2 & X3). destruct (A y X1 X2) as [_ S]. rewrite X3 in S.
    unfold special, is_flush_inst, is_fence_inst in S. pose proof (tr_type _ _ T) as TT. cbn [snd] in TT. rewrite TT in S. cbn [In] in HT.
    destruct HT as [E'|[E'|[]]]; rewrite <- E' in S; cbn in S; rewrite ?orb_true_r in S; discriminate.
  - unfold broadcast. rewrite DE.
    repeat match goal with |- context [if ?x then _ else _] => destruct x end; reflexivity.
  - exfalso. destruct (committed_single_head r q i n k u false W F FV DE) as (e' & q' & -> & T & CM & EU).
    rewrite CM in He. cbn in He. destruct He as [->|[]].
    assert (FT : is_fence_inst u = true /\ is_flush_inst u = true).
    { unfold is_fence_inst, is_flush_inst. pose proof (tr_type _ _ T) as TT. cbn [snd] in TT. rewrite TT. cbn [In] in HT.
      destruct HT as [E'|[E'|[]]]; rewrite <- E'; split; reflexivity. }
    destruct FT as [F1 F2]. rewrite (G F1 SP) in F2. discriminate.
Qed.

(** Refuted for a plain FENCE: the gate of Rob.cpp:300-306 is undone by the
    fallback of Rob.cpp:320-334, so a finished FENCE at the head retires whatever
    the store queue says. *)
Theorem c05_fence_gate_has_no_effect : forall r q i e q', reach r q -> q = e :: q' ->
  u_type (q_uop e) = T_FENCE -> cause_of e = C_none ->
  i_mispred i = None -> i_interrupt_req i = false ->
  (forall u, In (q_idx e, u) (contents r) -> is_complete u = true) ->
  length (committed r i) = 1 /\ firstn 1 q = [e].
Proof.
  intros r q i e q' H -> TY CN MI IR CP. destruct (reach_inv r _ H) as (n & W & F).
  destruct (head_of r n e q' W F) as (k & u & FV & T & N).
  assert (IN : In (q_idx e, u) (contents r)).
  { rewrite (contents_win _ _ W). destruct n as [|n]; [congruence|]. rewrite win_S, (head_line _ _ W N), line_contents_LB.
    pose proof (first_valid_LB (deq_ptr r) (lines r (deq_ptr r)) 0) as FL. rewrite FV in FL. destruct FL as (FL & _).
    rewrite FL. left. rewrite <- (tr_idx _ _ T). reflexivity. }
  specialize (CP u IN). split; [|reflexivity].
  assert (NFL : is_flush_inst u = false).
  { pose proof (tr_illegal _ _ T) as TI. pose proof (tr_pfi _ _ T) as TP. pose proof (tr_pfs _ _ T) as TS.
    pose proof (tr_pfl_only _ _ T) as TL. pose proof (tr_flush _ _ T) as TF. cbn [snd] in *.
    unfold cause_of in CN. rewrite TY in CN. rewrite <- TS, <- TP, <- TI, <- TF in CN.
    unfold is_flush_inst, is_exception, is_page_fault. pose proof (tr_type _ _ T) as TT; cbn [snd] in TT; rewrite TT. rewrite TY.
    destruct (u_pf_store u); [discriminate|]. rewrite <- (TL eq_refl) in CN.
    destruct (u_pf_load u), (u_pf_inst u), (u_illegal u), (u_flush_pipe u); try discriminate. reflexivity. }
  assert (FI : is_fence_inst u = true) by (unfold is_fence_inst; pose proof (tr_type _ _ T) as TT; cbn [snd] in TT; rewrite TT, TY; reflexivity).
  destruct (first_valid_in _ _ _ FV) as (e0 & I0 & V0 & U0).
  assert (S : existsb (fun e => e_valid e && (is_flush_inst (e_uop e) || is_fence_inst (e_uop e) || is_wfi (e_uop e)) || false)
              (lines r (deq_ptr r)) = true).
  { apply existsb_exists. exists e0. split; [exact I0|]. rewrite V0, U0, FI. rewrite orb_true_r. reflexivity. }
  assert (DE : fst (decide r i) = D_single k).
  { unfold decide. assert (M : is_mis i = false) by (unfold is_mis; rewrite MI; reflexivity). rewrite M.
    unfold single_part. rewrite FV, IR, CP. cbn [negb andb]. rewrite S, FI. cbn [negb andb].
    destruct (i_store_pending i); cbn [negb andb].
    - rewrite NFL. reflexivity.
    - rewrite andb_false_r. destruct (group_ok r i); reflexivity. }
  unfold committed. rewrite DE. reflexivity.
Qed.

(** *** Concrete runs *)
Definition idle : rob_in := RobIn None false false false [] [None; None].
Definition op (t : inst_type) (n : nat) : ruop :=
  RUop t false false false false false 1%Z 0%Z 0%Z false false false n.
Definition done (port idx : nat) : wback := WBack port idx false false false false 0%Z 0%Z false false false.

(** Dispatch a pair, then report both on the integer ports. *)
Definition in_pair (a b : option ruop) : rob_in := RobIn None false false false [] [a; b].
Definition in_done (ws : list wback) : rob_in := RobIn None false false false ws [None; None].

Fixpoint run (r : rob) (q : list qent) (l : list rob_in) : rob * list qent :=
  match l with [] => (r, q) | i :: l' => run (rob_step r i) (q_step q r i) l' end.
Lemma run_reach l : forall r q, reach r q ->
  (fix ok r q l := match l with [] => True | i :: l' => traffic_ok r i /\ ok (rob_step r i) (q_step q r i) l' end) r q l ->
  reach (fst (run r q l)) (snd (run r q l)).
Proof.
  induction l as [|i l IH]; intros r q H T; [exact H|]. destruct T as [T1 T2]. cbn [run].
  apply IH; [constructor; assumption|exact T2].
Qed.
Ltac ok_run := apply run_reach; [constructor|]; repeat split; try (vm_compute; congruence);
  try (intros ? E; vm_compute in E; first [discriminate E | injection E as <-; vm_compute; tauto]).

Definition trace_fence : list rob_in :=
  [in_pair (Some (op T_FENCE 7)) (Some (op T_ADD 8)); in_pair (Some (op T_ADD 9)) None; in_done [done 0 0; done 1 1]].
Example ex_fence_reach : reach (fst (run rob_init [] trace_fence)) (snd (run rob_init [] trace_fence)).
Proof. ok_run. Qed.
Example ex_fence_queue : map q_idx (snd (run rob_init [] trace_fence)) = [0; 1; 2].
Proof. vm_compute. reflexivity. Qed.

Theorem c05_fence_waits_for_stores_refuted :
  exists r q i e, reach r q /\ i_store_pending i = true /\ b_interrupt (broadcast r i) = false /\
    u_type (q_uop e) = T_FENCE /\ In e (firstn (length (committed r i)) q).
Proof.
  exists (fst (run rob_init [] trace_fence)), (snd (run rob_init [] trace_fence)),
         (RobIn None false true false [] [None; None]),
         (QEnt 0 (op T_FENCE 7) [done 0 0] false).
  split; [apply ex_fence_reach|]. vm_compute. repeat split. left. reflexivity.
Qed.

(** The same trace, then: the fence commits alone; the pair ADD waits. *)
Example ex_fence_alone :
  committed (fst (run rob_init [] trace_fence)) idle = [(0, RUop T_FENCE false false false false false 1%Z 1%Z 0%Z false false false 7)].
Proof. vm_compute. reflexivity. Qed.
(** A mispredict on index 1 drops index 2 only and marks the branch. *)
Definition trace_mis : list rob_in := trace_fence ++ [RobIn (Some 1) false false false [] [None; None]].
Example ex_mis_reach : reach (fst (run rob_init [] trace_mis)) (snd (run rob_init [] trace_mis)).
Proof. ok_run. Qed.
Example ex_mis_queue : map (fun e => (q_idx e, q_cut e)) (snd (run rob_init [] trace_mis)) = [(0, false); (1, true)].
Proof. vm_compute. reflexivity. Qed.
(** An interrupt takes the place of an unfinished instruction and empties the buffer. *)
Definition trace_int : list rob_in := [in_pair (Some (op T_ADD 1)) (Some (op T_ADD 2)); RobIn None true false false [] [None; None]].
Example ex_int :
  b_interrupt (broadcast (fst (run rob_init [] [in_pair (Some (op T_ADD 1)) (Some (op T_ADD 2))]))
                         (RobIn None true false false [] [None; None])) = true /\
  snd (run rob_init [] trace_int) = [].
Proof. vm_compute. split; reflexivity. Qed.
(** An AMO whose store half faults after its load half: a store fault is signalled. *)
Definition amo_fault : list rob_in :=
  [in_pair (Some (RUop T_AMO false false false false false 7%Z 0%Z 0%Z false false false 3)) None;
   in_done [WBack 2 0 false true false false 0%Z 64%Z false false false;
            WBack 4 0 false false true false 0%Z 64%Z false false false; done 6 0]].
Example ex_amo_reach : reach (fst (run rob_init [] amo_fault)) (snd (run rob_init [] amo_fault)).
Proof. ok_run. Qed.
Example ex_amo : let r := fst (run rob_init [] amo_fault) in
  b_pf_store (broadcast r idle) = true /\ b_pf_load (broadcast r idle) = false /\ b_flush (broadcast r idle) = true.
Proof. vm_compute. repeat split. Qed.
(** 32 lines fill the buffer. *)
Example ex_full : rob_ready (fst (run rob_init [] (repeat (in_pair (Some (op T_ADD 1)) None) 32))) = false.
Proof. vm_compute. reflexivity. Qed.

Print Assumptions c03_storage_is_the_queue.
Print Assumptions c03_indices_unique.
Print Assumptions c03_empty_exact.
Print Assumptions c03_full_exact.
Print Assumptions c04_commits_oldest_first.
Print Assumptions c04_committed_is_complete.
Print Assumptions c04_special_commits_alone.
Print Assumptions c04_mispredict_holds_commit.
Print Assumptions c04_interrupt_exact.
Print Assumptions c04_flush_and_cause.
Print Assumptions c04_progress.
Print Assumptions c05_fencei_sfence_wait_for_stores.
Print Assumptions c05_fence_gate_has_no_effect.
Print Assumptions c05_fence_waits_for_stores_refuted.
