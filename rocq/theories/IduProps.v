(** C06: branch tags. *)
From Verif Require Import Base BaseLemmas IduModel IduSpec IduProofs.
From Coq Require Import Permutation.
Local Open Scope nat_scope.
Ltac Zify.zify_post_hook ::= Z.div_mod_to_equations.

(** *** A run used by the examples *)
Definition cyc (st : idu) (g : list ginst) (i : idu_in) (k : nat) := (idu_step st i, g_step g st i k).
Definition brs := IduIn [Slot true true; Slot true true] true false no_branch.
Definition mix := IduIn [Slot true false; Slot true true] true false no_branch.
Definition mis (t : nat) := IduIn [Slot true false; Slot true true] true false (Latch true t (Z.shiftl 1 (Z.of_nat t))).
Definition res (t : nat) := IduIn [] true false (Latch false t (Z.shiftl 1 (Z.of_nat t))).
Definition fls := IduIn [] true true no_branch.
Definition e1 := cyc idu_init [] brs 0.
Definition e2 := cyc (fst e1) (snd e1) mix 0.
Definition e3 := cyc (fst e2) (snd e2) (mis 2) 0.
Definition e4 := cyc (fst e3) (snd e3) brs 0.
Ltac latch_tac := intros _; split; [vm_compute; discriminate|]; split;
  [ intros t; cbn [i_exu l_clear no_branch brs mix mis]; rewrite ?Z.shiftl_1_l, ?Z.bits_0, ?Z.pow2_bits_eqb by lia;
    intros H; try discriminate; apply Z.eqb_eq in H; cbn in H;
    match type of H with ?n = _ => let m := eval vm_compute in (Z.to_nat n) in assert (t = m) by lia; subst t end; vm_compute; tauto
  | intros _; vm_compute; reflexivity || (intros X; discriminate X) ].
Lemma e1_reach : reach (fst e1) (snd e1).
Proof. apply reach_step; [apply reach_init|reflexivity|]. intros _. split; [vm_compute; discriminate|]. split; [|discriminate]. intros t. cbn. rewrite Z.bits_0. discriminate. Qed.
Lemma e2_reach : reach (fst e2) (snd e2).
Proof. apply reach_step; [apply e1_reach|reflexivity|]. intros _. split; [vm_compute; discriminate|]. split; [|discriminate]. intros t. cbn. rewrite Z.bits_0. discriminate. Qed.
Lemma e3_reach : reach (fst e3) (snd e3).
Proof. apply reach_step; [apply e2_reach|reflexivity|]. latch_tac. Qed.
Lemma e4_reach : reach (fst e4) (snd e4).
Proof. apply reach_step; [apply e3_reach|reflexivity|]. intros _. split; [vm_compute; discriminate|]. split; [|discriminate]. intros t. cbn. rewrite Z.bits_0. discriminate. Qed.

(** Every unresolved branch holds its own tag, never the reserved tag 0. *)
Theorem c06_tags_distinct : forall st g, reach st g ->
  NoDup (tags g) /\ (forall t, In t (tags g) -> 1 <= t < 16).
Proof. intros st g R. apply reach_inv in R. destruct R as [C _]. split; [apply (c_nodup _ _ _ _ C)|apply (c_range _ _ _ _ C)]. Qed.
Print Assumptions c06_tags_distinct.
Example c06_tags_distinct_ex : reach (fst e3) (snd e3) /\ tags (snd e3) = [1; 2; 3; 4].
Proof. split; [exact e3_reach|vm_compute; reflexivity]. Qed.

(** The branch mask of every instruction in flight names exactly the older
    unresolved branches. *)
Theorem c06_mask_exact : forall st g a e b u, reach st g -> g = a ++ e :: b ->
  (Z.testbit (g_mask e) (Z.of_nat u) = true <-> In u (tags a)).
Proof.
  intros st g a e b u R E. apply reach_inv in R. destruct R as [C _].
  pose proof (c_masks _ _ _ _ C) as M. rewrite E in M. apply masks_app in M. destruct M as [_ (M & _)]. apply M.
Qed.
Print Assumptions c06_mask_exact.
Example c06_mask_exact_ex : map g_mask (snd e3) = [0; 2; 6; 6; 14; 14]%Z.
Proof. vm_compute. reflexivity. Qed.

(** A tag can be handed out iff no unresolved branch holds it: none is lost,
    none is handed out twice. *)
Theorem c06_free_exact : forall st g t, reach st g -> 1 <= t < 16 ->
  (tag_vec st t = true <-> ~ In t (tags g)).
Proof.
  intros st g t R H. apply reach_inv in R. destruct R as [C _].
  rewrite (c_free _ _ _ _ C t) by (unfold NTAG; lia). split; [tauto|]. intros X. split; [lia|exact X].
Qed.
Print Assumptions c06_free_exact.
Example c06_free_exact_ex : tag_vec (fst e3) 4 = false /\ tag_vec (fst e3) 5 = true.
Proof. vm_compute. auto. Qed.

(** The test every downstream queue uses on a misprediction of [b] ("is bit b
    set in my branch mask?") selects exactly the instructions younger than the
    branch. *)
Lemma pre_has cp b g : forall pre, masks cp pre g -> In b pre ->
  filter (fun e => negb (Z.testbit (g_mask e) (Z.of_nat b))) g = [].
Proof.
  induction g as [|e g IH]; intros pre M P; [reflexivity|]. destruct M as (M1 & _ & M3). cbn [filter].
  fold (tb (g_mask e) b). rewrite (proj2 (M1 b) P). cbn [negb].
  apply (IH (pre ++ tag1 e)); [exact M3|]. apply in_or_app. left. exact P.
Qed.
Lemma sel cp b g : forall pre, masks cp pre g -> NoDup (pre ++ tags g) -> In b (tags g) ->
  filter (fun e => negb (Z.testbit (g_mask e) (Z.of_nat b))) g = upto_tag b g.
Proof.
  induction g as [|e g IH]; intros pre M ND T; [destruct T|]. destruct M as (M1 & M2 & M3). cbn [filter upto_tag].
  fold (tb (g_mask e) b).
  assert (NB : tb (g_mask e) b = false).
  { apply not_true_is_false. intros X. apply M1 in X. exact (NoDup_app_disj _ _ _ ND X T). }
  rewrite NB. cbn [negb]. rewrite tags_cons in T, ND. rewrite app_assoc in ND. unfold tag1 in *.
  destruct (g_tag e) as [x|] eqn:TE.
  - destruct (Nat.eqb_spec x b) as [->|NE].
    + rewrite (pre_has cp b g (pre ++ [b])); [reflexivity|exact M3|]. apply in_or_app. right. left. reflexivity.
    + f_equal. apply (IH _ M3 ND). destruct T as [?|T]; [contradiction|exact T].
  - f_equal. apply (IH _ M3 ND). exact T.
Qed.
Theorem c06_mask_selects_younger : forall st g b, reach st g -> In b (tags g) ->
  filter (fun e => negb (Z.testbit (g_mask e) (Z.of_nat b))) g = upto_tag b g.
Proof.
  intros st g b R T. apply reach_inv in R. destruct R as [C _].
  apply (sel (br_mask_cp st) b g []); [apply (c_masks _ _ _ _ C)|apply (c_nodup _ _ _ _ C)|exact T].
Qed.
Print Assumptions c06_mask_selects_younger.
Example c06_mask_selects_younger_ex : In 2 (tags (snd e3)) /\ length (snd e3) = 6 /\ length (upto_tag 2 (snd e3)) = 2.
Proof. vm_compute. auto. Qed.

(** Recovery: after a misprediction of [b] the tags in use are those of the
    branches up to [b] that are still unresolved; everything else is free. *)
Theorem c06_mispredict_frees_younger : forall st g i k, reach st g -> commit_ok g st k ->
  (i_flush i = false -> latch_ok (i_exu i) (g_step g st i k)) ->
  i_flush i = false -> l_mispred (br_latch st) = true ->
  forall t, 1 <= t < 16 ->
  (tag_vec (idu_step st i) t = false <->
   In t (tags (upto_tag (l_id (br_latch st)) g)) /\ Z.testbit (l_clear (br_latch st)) (Z.of_nat t) = false).
Proof.
  intros st g i k R K L F MP t H.
  pose proof (reach_step st g i k R K L) as R'.
  pose proof (c06_free_exact _ _ t R' H) as E.
  assert (TG : tags (g_step g st i k) = filter (fun t => negb (tb (l_clear (br_latch st)) t)) (tags (upto_tag (l_id (br_latch st)) g))).
  { unfold g_step, commit_ok in *. rewrite F, MP in *. unfold fired. rewrite F, MP. cbn [orb map]. rewrite app_nil_r.
    rewrite <- tags_resolve. rewrite <- (firstn_skipn k (map _ _)) at 2. rewrite tags_app, K. reflexivity. }
  rewrite TG, filter_In in E. fold (tb (l_clear (br_latch st)) t).
  destruct (tag_vec (idu_step st i) t); destruct (tb (l_clear (br_latch st)) t); cbn in E;
    split; intros X; try discriminate; try (destruct X; discriminate).
  - exfalso. apply (proj1 E eq_refl). split; [apply X|reflexivity].
  - exfalso. assert (false = true); [|discriminate]. apply E. intros [_ Y]. discriminate.
  - destruct (in_dec Nat.eq_dec t (tags (upto_tag (l_id (br_latch st)) g))) as [I|I]; [auto|].
    assert (false = true); [|discriminate]. apply E. intros [Y _]. contradiction.
  - reflexivity.
Qed.
Print Assumptions c06_mispredict_frees_younger.
Example c06_mispredict_frees_younger_ex :
  l_mispred (br_latch (fst e3)) = true /\ tags (snd e3) = [1; 2; 3; 4] /\ tags (snd e4) = [1] /\
  map (tag_vec (fst e4)) (seq 0 6) = [false; false; true; true; true; true].
Proof. vm_compute. auto. Qed.

Theorem c06_flush_frees_all : forall st g i k, reach st g -> i_flush i = true ->
  g_step g st i k = [] /\ fired st i = [] /\
  forall t, 1 <= t < 16 -> tag_vec (idu_step st i) t = true.
Proof.
  intros st g i k R F. unfold g_step, fired, idu_step. rewrite F. cbn [orb].
  split; [reflexivity|]. split; [reflexivity|]. intros t H. cbn [tag_vec]. unfold NTAG.
  destruct (Nat.eqb_spec t 0); [lia|]. replace (t <? 16) with true by lia. reflexivity.
Qed.
Print Assumptions c06_flush_frees_all.
Example c06_flush_frees_all_ex : reach (fst e3) (snd e3) /\ tag_vec (fst e3) 1 = false /\ tag_vec (idu_step (fst e3) fls) 1 = true.
Proof. split; [exact e3_reach|vm_compute; auto]. Qed.

(** What decode hands on is a prefix of the valid slots, each tagged branch
    getting a tag; nothing is held back unless the 15 tags are used up. *)
Lemma dec_prefix ss : forall ts r, exists rest,
  filter sl_valid ss = firstn (length (flat (decode_slots ss ts r))) (filter sl_valid ss) ++ rest /\
  map (fun p => match fst p with Some _ => true | None => false end) (flat (decode_slots ss ts r)) =
    map sl_branch (firstn (length (flat (decode_slots ss ts r))) (filter sl_valid ss)) /\
  (length (tags (map tog (flat (decode_slots ss ts r)))) <= length ts) /\
  (length (flat (decode_slots ss ts r)) <= length (filter sl_valid ss)) /\
  (length (flat (decode_slots ss ts r)) < length (filter sl_valid ss) ->
     length (tags (map tog (flat (decode_slots ss ts r)))) = length ts).
Proof.
  induction ss as [|s ss IH]; intros ts r.
  - exists []. cbn. repeat split; lia.
  - cbn [decode_slots filter]. destruct (sl_valid s) eqn:V.
    + destruct (sl_branch s) eqn:B.
      * destruct ts as [|t ts].
        -- exists (s :: filter sl_valid ss). rewrite (flat_stall (s :: ss)). cbn. repeat split; try lia.
        -- destruct (IH ts (Z.lor r (Z.shiftl 1 (Z.of_nat t)))) as (rest & A & B1 & C1 & D & E).
           exists rest. change (flat (Some (Some t, r) :: ?x)) with ((Some t, r) :: flat x).
           cbn [length firstn map app]. rewrite tags_cons. cbn [tag1 tog fst g_tag app length].
           rewrite B. repeat split; try lia; f_equal; assumption.
      * destruct (IH ts r) as (rest & A & B1 & C1 & D & E).
        exists rest. change (flat (Some (None, r) :: ?x)) with ((@None nat, r) :: flat x).
        cbn [length firstn map app]. rewrite tags_cons. cbn [tag1 tog fst g_tag app length].
        rewrite B. repeat split; try lia; f_equal; assumption.
    + destruct (IH ts r) as (rest & H). exists rest. exact H.
Qed.
Lemma free_count st g : inv st g -> length (filter (tag_vec st) (seq 0 NTAG)) + length (tags g) = 15.
Proof.
  intros [C _].
  assert (P : Permutation (filter (tag_vec st) (seq 0 NTAG) ++ tags g) (seq 1 15)).
  { apply NoDup_Permutation.
    - assert (N1 := NoDup_filter (tag_vec st) (seq_NoDup NTAG 0)). pose proof (c_nodup _ _ _ _ C) as N2.
      assert (DJ : forall x, In x (filter (tag_vec st) (seq 0 NTAG)) -> ~ In x (tags g)).
      { intros x X. apply filter_In in X. destruct X as [X1 X2]. apply in_seq in X1.
        apply (c_free _ _ _ _ C x) in X2; [apply X2|lia]. }
      induction (filter (tag_vec st) (seq 0 NTAG)) as [|y l IH]; [exact N2|].
      inversion N1; subst. cbn. constructor.
      + rewrite in_app_iff. intros [X|X]; [contradiction|]. exact (DJ y (or_introl eq_refl) X).
      + apply IH; [assumption|]. intros x X. apply DJ. right. exact X.
    - apply seq_NoDup.
    - intros x. rewrite in_app_iff, filter_In, !in_seq. split.
      + intros [[X1 X2]|X]; [apply (c_free _ _ _ _ C x) in X2; unfold NTAG in *; lia|].
        apply (c_range _ _ _ _ C) in X. unfold NTAG in *. lia.
      + intros X. destruct (in_dec Nat.eq_dec x (tags g)) as [I|I]; [right; exact I|left].
        split; [unfold NTAG; lia|]. apply (c_free _ _ _ _ C x); [unfold NTAG; lia|]. split; [lia|exact I]. }
  apply Permutation_length in P. rewrite app_length, seq_length in P. exact P.
Qed.
Theorem c06_decode_prefix_and_stall : forall st g i, reach st g ->
  length (i_slots i) <= 2 ->
  i_flush i = false -> l_mispred (br_latch st) = false -> i_ready i = true ->
  let out := fired st i in let valid := filter sl_valid (i_slots i) in
  length out <= length valid /\
  map (fun p => match fst p with Some _ => true | None => false end) out =
    map sl_branch (firstn (length out) valid) /\
  (length out < length valid ->
     length (tags g) + length (tags (map (fun p => GInst (snd p) (fst p)) out)) = 15).
Proof.
  intros st g i R W F MP RD out valid. apply reach_inv in R.
  assert (FI : out = flat (dec_out st i)) by (unfold out, fired; rewrite F, MP, RD; reflexivity).
  destruct (dec_prefix (i_slots i) (alloc_tags st) (Z.ldiff (now_br_mask st) (l_clear (br_latch st)))) as (rest & A & B & C & D & E).
  fold (dec_out st i) in B, C, D, E. rewrite <- FI in B, C, D, E. fold valid in B, D, E.
  split; [exact D|]. split; [exact B|]. intros LT. specialize (E LT).
  pose proof (free_count st g R) as FC. unfold alloc_tags in E. rewrite firstn_length in E.
  change (fun p : option nat * Z => GInst (snd p) (fst p)) with tog.
  assert (length (tags (map tog out)) <= length out).
  { clear. induction out as [|[[t|] z] l IH]; [cbn; lia| |]; cbn [map]; rewrite tags_cons; cbn [tag1 tog fst g_tag app length]; lia. }
  assert (length valid <= length (i_slots i)).
  { unfold valid. clear. induction (i_slots i) as [|s l IH]; [cbn; lia|]. cbn. destruct (sl_valid s); cbn; lia. }
  unfold MAXBR in E. lia.
Qed.
Print Assumptions c06_decode_prefix_and_stall.
(** Seven double-branch cycles use 14 tags; the eighth can place only one. *)
Fixpoint iter (n : nat) (p : idu * list ginst) : idu * list ginst :=
  match n with O => p | S n' => let q := iter n' p in cyc (fst q) (snd q) brs 0 end.
Lemma iter_reach n : reach (fst (iter n (idu_init, []))) (snd (iter n (idu_init, []))).
Proof.
  induction n; [apply reach_init|]. cbn [iter]. apply reach_step; [exact IHn|reflexivity|].
  intros _. split; [vm_compute; discriminate|]. split; [|discriminate]. intros t. cbn [i_exu brs no_branch l_clear]. rewrite Z.bits_0. discriminate.
Qed.
Example c06_decode_prefix_and_stall_ex :
  let p := iter 7 (idu_init, []) in
  reach (fst p) (snd p) /\ length (tags (snd p)) = 14 /\ length (fired (fst p) brs) = 1 /\ length (fired (idu_init) brs) = 2.
Proof. split; [apply (iter_reach 7)|vm_compute; auto]. Qed.
