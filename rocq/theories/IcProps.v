(** C52 (a fetch answer is the line asked for), C53 (each answer is used at most once,
    ids are exact), C54 (every fetch is answered), C55 (fence.i leaves nothing stale). *)
From Verif Require Import Base IcModel IcSpec IcProofs IcInv IcIdle IcSwap IcCall IcReach IcProg.
Ltac Zify.zify_post_hook ::= Z.div_mod_to_equations.

(** ** C52 *)
(** An answer is for the request being served: same address; a page fault only if
    its page faults now; otherwise all sixteen words are legitimate values of the
    line of [pc] in a physical page its virtual page translated to while it was
    served. *)
Theorem c52_fetch_answer : forall strict P y c second o y', reach strict P sys0 y -> step strict P y c second o y' ->
  forall rs, o_rsp o = Some rs ->
  exists pc, serving y c = Some pc /\ answer_ok P pc (pages y c) (c_tr c (pc / 4096)) rs.
Proof. intros strict P y c second o y' R S. eapply step_J; eauto. eapply reach_J; eauto. apply J0. Qed.

(** Instruction [k] of the fetch group handed on is the memory word at [pc + 4k]. *)
Theorem c52_fetch_words : forall strict P y c second o y', reach strict P sys0 y -> step strict P y c second o y' ->
  forall rs k w, o_rsp o = Some rs -> 0 <= k -> glue_word rs k = (w, false, true) ->
  exists pc p, serving y c = Some pc /\ In p (pages y c) /\ fst (fst rs) = pc /\
    pc / 64 = (pc + 4 * k) / 64 /\ P ((p * 4096 + (pc + 4 * k) mod 4096) / 4) w.
Proof.
  intros strict P y c second o y' R S [[pc' pf] l] k w E Hk G.
  destruct (c52_fetch_answer _ _ _ _ _ _ _ R S _ E) as [pc [A [B D]]]. subst pc'.
  unfold glue_word, WORDS in G. destruct (16 <=? pc mod 64 / 4 + k) eqn:L; [discriminate |].
  inversion G; subst pf w; clear G. destruct D as [p [I Q]].
  exists pc, p. sp; auto; [lia |]. pose proof (Q (pc mod 64 / 4 + k) ltac:(lia)) as X.
  replace ((p * 4096 + (pc + 4 * k) mod 4096) / 4) with (p * 1024 + pc mod 4096 / 64 * 16 + (pc mod 64 / 4 + k)) by lia. exact X.
Qed.
(** A fault is reported on every instruction of the group iff the answer is a fault,
    and instructions beyond the line are marked absent. *)
Theorem c52_fetch_group : forall pc pf l k, 0 <= k ->
  let '(_, f, v) := glue_word (pc, pf, l) k in
  (v = true <-> pc / 64 = (pc + 4 * k) / 64) /\ (v = true -> f = pf) /\ (v = false -> f = false).
Proof.
  intros. unfold glue_word, WORDS. destruct (16 <=? pc mod 64 / 4 + k) eqn:L; sp; intros; auto; try congruence; lia.
Qed.

(** Examples: a concrete memory in which word [x] holds [3 * x]. *)
Definition exP (x d : Z) : Prop := d = 3 * x.
Definition idn (v : Z) : trans := TOk (v mod 2 ^ 20).
Definition ex_in v pc ready acc rsp dc : cinp := mkcinp v pc false false false false ready acc rsp dc idn.
Definition sstep (y : sys) (cb : cinp * bool) : sys :=
  let '(s', o1, o2) := ic_cycle (fst cb) (snd cb) (y_ic y) in step_sys y (fst cb) (snd cb) s' o1 o2.
Definition sout (y : sys) (cb : cinp * bool) : mout := let '(_, o1, _) := ic_cycle (fst cb) (snd cb) (y_ic y) in o1.
Definition srun (l : list (cinp * bool)) (y : sys) : sys := fold_left sstep l y.
Definition ex_line : line := fun n => 3 * (1024 + n).
(** accepted; translated and missed; read presented and first probe; second cycle of
    the probe; the probe misses and the read is accepted; answered. *)
Definition ex_tr : list (cinp * bool) :=
  [ (ex_in true 4104 false None None None, false); (ex_in false 0 false None None None, false);
    (ex_in false 0 false None None None, false); (ex_in false 0 true None None None, false);
    (ex_in false 0 true (Some 0%nat) None (Some None), false) ].
Definition ex_last : cinp * bool := (ex_in false 0 true None (Some (0%nat, ex_line)) None, false).
Lemma sstep_ok : forall strict P y cb, env_ok strict P y (fst cb) (snd cb) -> step strict P y (fst cb) (snd cb) (sout y cb) (sstep y cb).
Proof.
  intros strict P y [c b] H. unfold sstep, sout. cbn [fst snd] in *. destruct (ic_cycle c b (y_ic y)) as [[s' o1] o2] eqn:E. econstructor; eauto.
Qed.
Lemma srun_reach : forall strict P l y, (forall n cb, nth_error l n = Some cb -> env_ok strict P (srun (firstn n l) y) (fst cb) (snd cb)) ->
  reach strict P y (srun l y).
Proof.
  intros strict P l. induction l using rev_ind; intros y H; [apply reach0 |].
  unfold srun. rewrite fold_left_app. cbn [fold_left]. eapply reachS; [apply IHl | apply sstep_ok].
  - intros n cb E. assert (n < length l)%nat by (apply nth_error_Some; congruence).
    rewrite <- (nth_error_app1 l [x]) in E by auto. specialize (H n cb E). rewrite firstn_app in H.
    replace (n - length l)%nat with O in H by lia. cbn [firstn] in H. rewrite app_nil_r in H. exact H.
  - assert (E : nth_error (l ++ [x]) (length l) = Some x) by (rewrite nth_error_app2, Nat.sub_diag by lia; auto).
    specialize (H _ _ E). rewrite firstn_app, Nat.sub_diag, firstn_all in H. cbn [firstn] in H. rewrite app_nil_r in H. exact H.
Qed.
Ltac exenv :=
  split; cbn [fst snd c_v c_pc c_refetch c_fencei c_inval c_itlbf c_ready c_acc c_rsp c_dc c_tr ex_in];
  [ intros H; first [ discriminate H | split; [reflexivity | exists false; vm_compute; reflexivity] ] | intros H; first [discriminate H | auto] | reflexivity
  | intros ? ? H; inversion H; subst; unfold is_w; lia
  | intros k H; first [discriminate H | inversion H; subst; vm_compute; let X := fresh in intros X; discriminate X]
  | intros k l H; first [discriminate H | inversion H; subst; eexists; eexists; split; [vm_compute; reflexivity | intros _ n Hn; unfold exP, ex_line; lia]]
  | intros H k l E; first [discriminate H | discriminate E | intros X; discriminate X | idtac]
  | intros d H; first [discriminate H | inversion H; subst; eexists; eexists; split; [vm_compute; reflexivity | intros _ w Hw; first [discriminate Hw | idtac]]]
  | intros S H; first [discriminate S | intros X; discriminate X | vm_compute in H; exfalso; apply H; reflexivity] ].

Lemma ex_reach : reach true exP sys0 (srun ex_tr sys0).
Proof.
  apply srun_reach. intros n cb E.
  do 5 (destruct n as [| n]; [inversion E; subst cb; clear E; exenv |]). destruct n; discriminate.
Qed.
Lemma ex_step : step true exP (srun ex_tr sys0) (fst ex_last) (snd ex_last) (sout (srun ex_tr sys0) ex_last) (sstep (srun ex_tr sys0) ex_last).
Proof. apply sstep_ok. unfold ex_last. exenv. Qed.
(** The hypotheses of C52 hold of a real refill, and the group is the memory's. *)
Example c52_example : exists rs, o_rsp (sout (srun ex_tr sys0) ex_last) = Some rs /\ fst (fst rs) = 4104 /\ snd (fst rs) = false /\ map (fun k => glue_word rs k) [0; 1; 13; 14] = [(3 * 1026, false, true); (3 * 1027, false, true); (3 * 1039, false, true); (19, false, false)].
Proof. eexists. split; [vm_compute; reflexivity |]. vm_compute. repeat split. Qed.

(** ** C53 *)
(** Nothing is answered in a cycle that serves no request, in particular one with a
    redirect; and an answered request is not answered again. *)
Theorem c53_answer_only_asked : forall strict P y c second o y', reach strict P sys0 y -> step strict P y c second o y' ->
  (serving y c = None -> o_rsp o = None) /\ (o_rsp o <> None -> y_pend y' = None).
Proof.
  intros strict P y c second o y' R S. pose proof (c52_fetch_answer _ _ _ _ _ _ _ R S) as H. split.
  - intros N. destruct (o_rsp o) as [rs |]; auto. destruct (H rs eq_refl) as [pc [A _]]. congruence.
  - intros N. inversion S; subst. unfold step_sys; cbn [y_pend]. destruct second; auto. destruct (o_rsp o); congruence.
Qed.
(** The in-flight flags are exactly the ids of the reads accepted and not answered;
    there are never more than sixteen. *)
Theorem c53_ids_exact : forall P y, reach true P sys0 y -> forall k,
  (r_inf (ic_r (y_ic y)) k = true <-> y_out y k <> None) /\ (y_out y k <> None -> (k < 16)%nat).
Proof.
  intros P y R k. pose proof (reach_J _ _ _ _ (J0 _ _) R) as HJ. split; [split |].
  - intros H. apply (j_leak _ _ _ _ _ _ _ _ _ _ _ _ HJ eq_refl k H).
  - intros H. destruct (y_out y k) as [[a f] |] eqn:E; [| congruence].
    destruct (j_out _ _ _ _ _ _ _ _ _ _ _ _ HJ _ _ _ E) as [_ [X | [X _]]]; [discriminate | auto].
  - intros H. destruct (y_out y k) as [[a f] |] eqn:E; [| congruence]. apply (j_out _ _ _ _ _ _ _ _ _ _ _ _ HJ _ _ _ E).
Qed.
(** A read on offer uses an id of no outstanding read, and asks for the line of the
    request being served. *)
Theorem c53_offer_exact : forall strict P y k a, reach strict P sys0 y -> y_pres y = Some (k, a) ->
  (k < 16)%nat /\ y_out y k = None /\
  exists pc p, y_pend y = Some pc /\ In p (y_seen y) /\ a = p * 4096 + pc mod 4096 / 64 * 64.
Proof.
  intros strict P y k a R E. pose proof (reach_J _ _ _ _ (J0 _ _) R) as HJ.
  destruct (j_pres _ _ _ _ _ _ _ _ _ _ _ _ HJ _ _ E) as [A [B [D F]]].
  destruct (j_swap _ _ _ _ _ _ _ _ _ _ _ _ HJ A) as [X [Y Z']].
  destruct (j_free _ _ _ _ _ _ _ _ _ _ _ _ HJ (or_introl (conj A B))) as [G1 G2].
  destruct (j_ppn _ _ _ _ _ _ _ _ _ _ _ _ HJ (or_introl A)) as [I W]. subst k a. sp; auto.
  - destruct (y_out y (r_tx (ic_r (y_ic y)))) as [[a f] |] eqn:Q; auto.
    destruct (j_out _ _ _ _ _ _ _ _ _ _ _ _ HJ _ _ _ Q) as [_ [U | [U _]]]; congruence.
  - exists (r_pc (ic_r (y_ic y))), (r_ppn (ic_r (y_ic y))). sp; auto.
    + rewrite (j_pend _ _ _ _ _ _ _ _ _ _ _ _ HJ), X. auto.
    + unfold la. rewrite line_addr_eq by (unfold is_w in W; lia). rewrite idx_page. auto.
Qed.
(** An answer presented is taken at once unless the cycle redirects, and even then if
    no request was being served; so a redirect delays it by one cycle at most. *)
Theorem c53_answer_taken : forall strict P y c o y' k l, reach strict P sys0 y -> step strict P y c false o y' ->
  c_rsp c = Some (k, l) -> kill c = false \/ y_pend y = None -> o_rrdy o = true /\ y_out y' k = None.
Proof.
  intros strict P y c o y' k l R S E H. pose proof (taken _ _ _ _ _ _ _ _ (reach_J _ _ _ _ (J0 _ _) R) S E H) as T. split; auto.
  inversion S as [s' o1 o2 HE HC]; subst. unfold step_sys. cbn [y_out]. rewrite E.
  unfold ic_cycle in HC. destruct (ic_call c (y_ic y)) as [[s1 oa] tr]. inversion HC; subst. rewrite T. unfold fupd. rewrite Nat.eqb_refl. auto.
Qed.
Theorem c53_redirect_ends_service : forall strict P y c second o y', step strict P y c second o y' ->
  kill c = true \/ second = true -> y_pend y' = None.
Proof.
  intros strict P y c second o y' S H. inversion S; subst. unfold step_sys, serving; cbn [y_pend]. destruct second; auto.
  destruct H as [-> | ?]; [| discriminate]. destruct (o_rsp o); auto.
Qed.
Definition ex_kill : cinp := mkcinp false 0 true false false false true None None (Some None) idn.
(** A redirect between acceptance and answer: the late answer is taken and ignored. *)
Definition ex_tr2 : list (cinp * bool) :=
  ex_tr ++ [(mkcinp false 0 true false false false true None None None idn, false)].
Lemma ex_reach2 : reach true exP sys0 (srun ex_tr2 sys0).
Proof.
  apply srun_reach. intros n cb E.
  do 6 (destruct n as [| n]; [inversion E; subst cb; clear E; exenv |]). destruct n; discriminate.
Qed.
Example c53_example : let y := srun ex_tr2 sys0 in let o := sout y ex_last in
  y_out y 0%nat = Some (4096, true) /\ r_can (ic_r (y_ic y)) 0%nat = true /\ y_pend y = None /\
  o_rsp o = None /\ o_rrdy o = true /\ r_inf (ic_r (y_ic (sstep y ex_last))) 0%nat = false /\ y_out (sstep y ex_last) 0%nat = None.
Proof. vm_compute. repeat split. Qed.
(** The separation of acceptance and answer (the CPU sees them in different cycles) is
    needed: if they met while a canceled read waits for acceptance, its id would stay
    marked in flight with nothing outstanding. *)
Definition ex_tr3 : list (cinp * bool) :=
  [ (ex_in true 4104 false None None None, false); (ex_in false 0 false None None None, false);
    (ex_in false 0 false None None None, false);
    (mkcinp false 0 true false false false true None None None idn, false);
    (ex_in false 0 true (Some 0%nat) (Some (0%nat, ex_line)) (Some None), false) ].
Theorem c53_separation_needed : exists y, reach false exP sys0 y /\ r_inf (ic_r (y_ic y)) 0%nat = true /\ y_out y 0%nat = None.
Proof.
  exists (srun ex_tr3 sys0). split; [| vm_compute; split; reflexivity].
  apply srun_reach. intros n cb E.
  do 5 (destruct n as [| n]; [inversion E; subst cb; clear E; exenv |]). destruct n; discriminate.
Qed.

(** ** C54 *)
(** A request is answered within 62 cycles, not counting those in which the
    surroundings hold it up: translation not ready, all sixteen ids waiting for
    memory, the read on offer not accepted, or its answer not there. *)
Theorem c54_fetch_answered : forall P y0 n s y, reach true P sys0 y0 -> waits P y0 n s y -> (n <= 62 + s)%nat.
Proof. intros. eapply waits_bound; eauto. eapply reach_J; eauto. apply J0. Qed.
Theorem c54_cycle_progress : forall P y c o y' pc, reach true P sys0 y -> step true P y c false o y' -> serving y c = Some pc ->
  ~ stalled y c pc -> o_rsp o <> None \/ 0 <= rank y' < rank y.
Proof.
  intros. destruct (progress _ _ _ _ _ _ (reach_J _ _ _ _ (J0 _ _) H) H0 H1) as [A | [A | [_ A]]]; auto.
Qed.
(** All sixteen words found in the data cache: 52 cycles after acceptance. *)
Definition ex_probe (n : nat) : cinp * bool :=
  (ex_in false 0 false None None (if Nat.eqb (Nat.modulo n 3) 2 then Some (Some (3 * (1024 + Z.of_nat n / 3))) else None), false).
Definition ex_tr4 : list (cinp * bool) :=
  [ (ex_in true 4104 false None None None, false); (ex_in false 0 false None None None, false) ] ++ map ex_probe (seq 0 48).
Example c54_example : let y := srun ex_tr4 sys0 in
  r_pd (ic_r (y_ic y)) = true /\ r_ph (ic_r (y_ic y)) = true /\ map (r_pl (ic_r (y_ic y))) [0; 7; 15] = [3072; 3093; 3117] /\
  rank (srun (firstn 1 ex_tr4) sys0) = 60 /\ rank (srun (firstn 2 ex_tr4) sys0) = 51 /\ rank (srun (firstn 3 ex_tr4) sys0) = 49 /\ rank y = 2.
Proof. vm_compute. repeat split. Qed.

(** ** C55 *)
(** After a fence.i cycle, whatever is answered consists of words legitimate for
    the reads accepted and the probes presented after it ([unvouched] withdraws the
    legitimacy of everything in flight; [P'] is arbitrary): nothing fetched before
    survives, neither in the tables nor in flight. *)
Theorem c55_fence_i : forall strict P P' y c o y', reach strict P sys0 y -> step strict P y c false o y' -> c_fencei c = true ->
  forall z c' second o' z', reach strict P' (unvouched y') z -> step strict P' z c' second o' z' ->
  forall rs, o_rsp o' = Some rs ->
  exists pc, serving z c' = Some pc /\ answer_ok P' pc (pages z c') (c_tr c' (pc / 4096)) rs.
Proof.
  intros strict P P' y c o y' R S F z c' second o' z' R' S'.
  pose proof (fence_J _ _ P' _ _ _ _ (reach_J _ _ _ _ (J0 _ _) R) S F) as HJ.
  eapply step_J; eauto. eapply reach_J; eauto.
Qed.
(** The line of the first example is in the tables; after a fence the same fetch
    misses again and returns what memory holds by then. *)
Definition ex_fence : cinp * bool := (mkcinp false 0 true true false false false None None None idn, false).
Definition exP' (x d : Z) : Prop := d = 5 * x.
Definition ex_line' : line := fun n => 5 * (1024 + n).
Example c55_example :
  let y := srun (ex_tr ++ [ex_last]) sys0 in
  (exists rs, o_rsp (sout y (ex_in true 4108 false None None None, false)) = Some rs /\ glue_word rs 0 = (3 * 1027, false, true)) /\
  let z := unvouched (sstep y ex_fence) in
  let ask := (ex_in true 4108 false None None None, false) in
  o_rsp (sout z ask) = None /\
  exists rs, o_rsp (sout (srun (ask :: tl ex_tr) z) (ex_in false 0 true None (Some (0%nat, ex_line')) None, false)) = Some rs /\
    glue_word rs 0 = (5 * 1027, false, true).
Proof.
  split; [eexists; split; [vm_compute; reflexivity | vm_compute; reflexivity] |].
  split; [vm_compute; reflexivity |]. eexists; split; [vm_compute; reflexivity | vm_compute; reflexivity].
Qed.

Print Assumptions c52_fetch_answer.
Print Assumptions c52_fetch_words.
Print Assumptions c52_fetch_group.
Print Assumptions c53_answer_only_asked.
Print Assumptions c53_ids_exact.
Print Assumptions c53_offer_exact.
Print Assumptions c53_answer_taken.
Print Assumptions c53_redirect_ends_service.
Print Assumptions c53_separation_needed.
Print Assumptions c54_fetch_answered.
Print Assumptions c54_cycle_progress.
Print Assumptions c55_fence_i.
