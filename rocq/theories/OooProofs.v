(** Proofs for C72. *)
From Coq Require Import Permutation.
From Verif Require Import Base BaseLemmas RenModel RenSpec RenProofs PrfModel PrfProps OooModel OooSpec.
Local Open Scope nat_scope.

(** *** Lists *)
Lemma marks_app r y : forall a b k, marks r y k (a ++ b) = marks r y k a ++ marks r y (k + length a) b.
Proof. induction a as [|x a IH]; intros b k; cbn [app marks length]; [rewrite Nat.add_0_r; reflexivity|]. rewrite IH. do 3 f_equal. lia. Qed.
Lemma marks_g r y : forall l k, map x_g (marks r y k l) = map x_g l.
Proof. induction l as [|x l IH]; intros k; cbn; [reflexivity|]. now rewrite IH. Qed.
Lemma marks_split r y : forall l k a x b, marks r y k l = a ++ x :: b ->
  exists a0 x0 b0, l = a0 ++ x0 :: b0 /\ a = marks r y k a0 /\ x = mark r y (k + length a0) x0 /\ b = marks r y (S (k + length a0)) b0.
Proof.
  induction l as [|z l IH]; intros k a x b H; [destruct a; discriminate|]. cbn [marks] in H. destruct a as [|w a].
  - cbn in H. injection H as <- <-. exists [], z, l. cbn. rewrite Nat.add_0_r. auto.
  - cbn in H. injection H as <- H. destruct (IH (S k) a x b H) as (a0 & x0 & b0 & -> & -> & -> & ->). exists (z :: a0), x0, b0. cbn [length app marks].
    rewrite <- !plus_n_Sm. cbn [plus]. auto.
Qed.
Lemma map_split {A B} (f : A -> B) : forall l a x b, map f l = a ++ x :: b -> exists a0 x0 b0, l = a0 ++ x0 :: b0 /\ a = map f a0 /\ x = f x0 /\ b = map f b0.
Proof.
  induction l as [|z l IH]; intros a x b H; [destruct a; discriminate|]. cbn in H. destruct a as [|w a]; cbn in H.
  - injection H as <- <-. exists [], z, l. auto.
  - injection H as <- H. destruct (IH a x b H) as (a0 & x0 & b0 & -> & -> & -> & ->). exists (z :: a0), x0, b0. auto.
Qed.
Lemma app_split {A} : forall (l m a : list A) x b, l ++ m = a ++ x :: b ->
  (exists b', l = a ++ x :: b' /\ b = b' ++ m) \/ exists a', a = l ++ a' /\ m = a' ++ x :: b.
Proof.
  induction l as [|z l IH]; intros m a x b H; cbn in H; [right; exists a; auto|]. destruct a as [|w a]; cbn in H.
  - inversion H; subst. left. exists l. auto.
  - inversion H as [[E1 E2]]; subst w. destruct (IH _ _ _ _ E2) as [(b' & -> & ->)|(a' & -> & ->)]; [left; exists b'|right; exists a']; auto.
Qed.
Lemma upto_length t : forall g, firstn (length (upto_tag t g)) g = upto_tag t g.
Proof. intros g. destruct (upto_tag_prefix t g) as [post E]. rewrite E at 2. rewrite firstn_app, Nat.sub_diag, firstn_all, firstn_O, app_nil_r. reflexivity. Qed.
Lemma fresh_g : forall l w, length w = length l -> map x_g (map fresh (combine l w)) = l.
Proof. induction l as [|e l IH]; intros [|w ws] H; cbn in *; try lia; [reflexivity|]. f_equal. apply IH. lia. Qed.
Lemma untagx_g c : forall l, map x_g (map (untagx c) l) = map (untag c) (map x_g l).
Proof. intros. rewrite !map_map. reflexivity. Qed.

(** *** Sequential runs *)
Lemma seq_app V a b : seq_run V (a ++ b) = seq_run (seq_run V a) b.
Proof. apply fold_left_app. Qed.
(** what the sequential machine looks at *)
Definition skel (x : fly) := (g_en (x_g x), g_dest (x_g x), fst (g_src1 (x_g x)), fst (g_src2 (x_g x)), x_w x).
Lemma skel_step V x y : skel x = skel y -> seq1 V x = seq1 V y /\ src1 V x = src1 V y /\ src2 V x = src2 V y /\ result V x = result V y.
Proof. unfold skel. intros H. injection H as E1 E2 E3 E4 E5. unfold seq1, result, src1, src2. rewrite E1, E2, E3, E4, E5. auto. Qed.
Lemma seq_skel : forall a b V, map skel a = map skel b -> seq_run V a = seq_run V b.
Proof.
  induction a as [|x a IH]; intros [|y b] V H; try discriminate; [reflexivity|]. cbn [map] in H. assert (H1 : skel x = skel y) by exact (f_equal (hd (skel x)) H). assert (H2 : map skel a = map skel b) by exact (f_equal (@tl _) H).
  unfold seq_run. cbn [fold_left]. fold (seq_run (seq1 V x) a). fold (seq_run (seq1 V y) b). destruct (skel_step V x y) as (E & _); [exact H1|]. rewrite E. apply IH. exact H2.
Qed.
Lemma skel_mark r y k x : skel (mark r y k x) = skel x.
Proof. reflexivity. Qed.
Lemma skel_marks r y : forall l k, map skel (marks r y k l) = map skel l.
Proof. induction l as [|x l IH]; intros k; cbn [marks map]; [reflexivity|]. now rewrite IH, skel_mark. Qed.
Lemma skel_untag c x : skel (untagx c x) = skel x.
Proof. unfold skel, untagx. cbn [x_g x_w]. destruct (untag_fields c (x_g x)) as (-> & -> & _ & _ & -> & ->). reflexivity. Qed.
Lemma skel_untags c : forall l, map skel (map (untagx c) l) = map skel l.
Proof. intros. rewrite map_map. apply map_ext. intros; apply skel_untag. Qed.

(** *** The register file as the next reader sees it *)
Definition cur (r : prf) (p : nat) : Z := overlay (latch r) (regs r p) p.
Lemma read_plain r i p : (forall w, In (Some w) (p_bypass i) -> b_dest w <> Some p) -> read r i p = cur r p.
Proof.
  intros N. unfold read, cur, overlay. destruct (find (writes p) (p_bypass i)) as [o|] eqn:F; [|reflexivity].
  apply find_some in F. destruct F as [F W]. destruct o as [w|]; [|discriminate]. cbn in W. destruct (b_dest w) as [q|] eqn:D; [|discriminate].
  apply Nat.eqb_eq in W. subst q. exfalso. exact (N w F D).
Qed.
Lemma read_bypassed r i p : (exists w, In (Some w) (p_bypass i) /\ b_dest w = Some p) -> exists w, In (Some w) (p_bypass i) /\ b_dest w = Some p /\ read r i p = b_val w.
Proof.
  intros (w0 & I0 & D0). unfold read. destruct (find (writes p) (p_bypass i)) as [o|] eqn:F.
  - apply find_some in F. destruct F as [F W]. destruct o as [w|]; [|discriminate]. cbn in W. destruct (b_dest w) as [q|] eqn:D; [|discriminate].
    apply Nat.eqb_eq in W. subst q. exists w. auto.
  - exfalso. pose proof (find_none _ _ F _ I0) as X. cbn in X. rewrite D0, Nat.eqb_refl in X. discriminate.
Qed.
Lemma bypassed_dec i p : (exists w, In (Some w) (p_bypass i) /\ b_dest w = Some p) \/ (forall w, In (Some w) (p_bypass i) -> b_dest w <> Some p).
Proof.
  destruct (existsb (writes p) (p_bypass i)) eqn:E.
  - apply existsb_exists in E. destruct E as (o & I & W). destruct o as [w|]; [|discriminate]. cbn in W. destruct (b_dest w) as [q|] eqn:D; [|discriminate].
    apply Nat.eqb_eq in W. subst q. left. exists w. auto.
  - right. intros w I D. assert (existsb (writes p) (p_bypass i) = true); [|congruence]. apply existsb_exists. exists (Some w). split; [exact I|]. cbn. rewrite D. apply Nat.eqb_refl.
Qed.
Definition writer (i : prf_in) (p : nat) (w : wb) : Prop := In (Some w) (p_entry i) /\ survives i w /\ b_dest w = Some p.
Lemma writer_latch i p : (exists w, writer i p w) \/ (forall o, In o (map (latch1 i) (p_entry i)) -> writes p o = false).
Proof.
  destruct (existsb (writes p) (map (latch1 i) (p_entry i))) eqn:E.
  - apply existsb_exists in E. destruct E as (o & I & W). apply in_map_iff in I. destruct I as (o' & <- & I). apply latch1_writes in W.
    destruct W as (w & -> & S & D & _). left. exists w. split; auto.
  - right. intros o I. destruct (writes p o) eqn:W; [|reflexivity]. assert (existsb (writes p) (map (latch1 i) (p_entry i)) = true); [|congruence]. apply existsb_exists. eauto.
Qed.
Lemma latch_some i w : survives i w -> exists w', latch1 i (Some w) = Some w' /\ b_dest w' = b_dest w /\ b_val w' = b_val w.
Proof.
  intros [F S]. unfold latch1. rewrite F. unfold wb_killed, nz. destruct (p_mispred i); cbn [andb]; [|eexists; split; [reflexivity|]; auto].
  destruct (Z.eqb_spec (Z.land (b_mask w) (p_brmask i)) 0); [eexists; split; [reflexivity|]; auto|]. exfalso. auto.
Qed.
Lemma cur_new r i p v : (exists w, writer i p w) -> (forall w, writer i p w -> b_val w = v) -> cur (prf_step r i) p = v.
Proof.
  intros (w & I & S & D) H. unfold cur. cbn [prf_step latch regs]. apply overlay_val.
  - exists (latch1 i (Some w)). split; [now apply in_map|]. destruct (latch_some i w S) as (w' & -> & D' & _). cbn. rewrite D', D. apply Nat.eqb_refl.
  - intros o O W. apply in_map_iff in O. destruct O as (o' & <- & O). apply latch1_writes in W. destruct W as (w1 & -> & S1 & D1 & ->). apply H. split; auto.
Qed.
Lemma cur_old r i p : p <> 0 -> (forall w, ~ writer i p w) -> cur (prf_step r i) p = cur r p.
Proof.
  intros P N. unfold cur. cbn [prf_step latch regs]. destruct (writer_latch i p) as [(w & W)|H]; [destruct (N w W)|].
  rewrite overlay_none by exact H. apply write_all_overlay. exact P.
Qed.
Lemma cur_zero r i : (forall w, ~ writer i 0 w) -> cur (prf_step r i) 0 = 0%Z.
Proof.
  intros N. unfold cur. cbn [prf_step latch regs]. destruct (writer_latch i 0) as [(w & W)|H]; [destruct (N w W)|]. rewrite overlay_none by exact H. reflexivity.
Qed.

(** *** Owners of physical registers *)
Lemma taken_in : forall l x, In x l -> g_en (x_g x) = true -> In (g_preg (x_g x)) (taken (map x_g l)).
Proof.
  induction l as [|z l IH]; intros x I E; [destruct I|]. cbn [map taken]. destruct I as [->|I]; [rewrite E; now left|].
  destruct (g_en (x_g z)); [right|]; auto.
Qed.
Lemma owner_unique : forall l a x b c y d, NoDup (taken (map x_g l)) -> l = a ++ x :: b -> l = c ++ y :: d ->
  g_en (x_g x) = true -> g_en (x_g y) = true -> g_preg (x_g x) = g_preg (x_g y) -> a = c /\ x = y.
Proof.
  induction l as [|z l IH]; intros a x b c y d N E1 E2 Ex Ey P; [destruct a; discriminate|].
  destruct a as [|u a]; destruct c as [|v c]; cbn in E1, E2.
  - injection E1 as -> _. injection E2 as -> _. auto.
  - injection E1 as -> ->. injection E2 as _ ->. exfalso. cbn [map taken] in N. rewrite Ex in N. inversion N as [|? ? H _]; subst. apply H. rewrite P. apply taken_in; [|exact Ey]. apply in_or_app. right. now left.
  - injection E1 as _ ->. injection E2 as -> _. exfalso. cbn [map taken] in N. rewrite Ey in N. inversion N as [|? ? H _]; subst. apply H. rewrite <- P. apply taken_in; [|exact Ex]. apply in_or_app. right. now left.
  - injection E1 as -> E1. injection E2 as -> E2. assert (N' : NoDup (taken (map x_g l))) by (cbn [map taken] in N; destruct (g_en (x_g v)); [now inversion N|exact N]).
    destruct (IH a x b c y d N' E1 E2 Ex Ey P) as [-> ->]. auto.
Qed.
Lemma sources_app : forall l1 l2 f, sources f (l1 ++ l2) <-> sources f l1 /\ sources (newest f l1) l2.
Proof.
  induction l1 as [|e l1 IH]; intros l2 f; cbn [app sources newest]; [tauto|]. rewrite (IH l2 (step_rat f e)). change (newest (fun x => if g_en e && (x =? g_dest e) then g_preg e else f x) l1) with (newest (step_rat f e) l1). tauto.
Qed.
Lemma sources_untag c : forall l f, sources f l -> sources f (map (untag c) l).
Proof.
  induction l as [|e l IH]; intros f; cbn [map sources]; [auto|]. intros (A & B & C). destruct (untag_fields c e) as (E1 & E2 & E3 & _ & E5 & E6). rewrite E5, E6.
  repeat split; auto. apply IH. eapply sources_ext; [|exact C]. intros a. unfold step_rat. now rewrite E1, E2, E3.
Qed.
Lemma newest_snoc f l e a : newest f (l ++ [e]) a = if g_en e && (a =? g_dest e) then g_preg e else newest f l a.
Proof. rewrite newest_app. reflexivity. Qed.

(** *** The invariant *)
Definition facts (R : nat -> Z) (V : nat -> Z) (l : list fly) : Prop :=
  forall a x b, l = a ++ x :: b ->
    (forall v1 v2, x_ops x = Some (v1, v2) -> v1 = src1 (seq_run V a) x /\ v2 = src2 (seq_run V a) x) /\
    (x_wb x = true -> g_en (x_g x) = true -> R (g_preg (x_g x)) = result (seq_run V a) x).
Record good (c : core) : Prop := {
  d_reach : reach (k_ren c) (map x_g (k_fly c));
  d_src : sources (arch_rat (k_ren c)) (map x_g (k_fly c));
  d_bound : forall x, In x (k_fly c) -> (w_en1 (x_w x) = true -> fst (g_src1 (x_g x)) < RAT_NUM) /\ (w_en2 (x_w x) = true -> fst (g_src2 (x_g x)) < RAT_NUM);
  d_facts : facts (cur (k_prf c)) (seq_run zero (k_log c)) (k_fly c);
  d_arch : forall a, a < RAT_NUM -> cur (k_prf c) (arch_rat (k_ren c) a) = seq_run zero (k_log c) a;
  d_zero : cur (k_prf c) 0 = 0%Z;
  d_rat0 : arch_rat (k_ren c) 0 = 0 }.

Lemma arch_free st g a : reach st g -> a < RAT_NUM -> ~ In (arch_rat st a) (taken g).
Proof.
  intros R A I. pose proof (register_partition st g R) as P.
  assert (N : NoDup (map (arch_rat st) (seq 0 RAT_NUM) ++ taken g ++ free_regs st)).
  { eapply Permutation_NoDup; [apply Permutation_sym; exact P|]. apply seq_NoDup. }
  apply (nodup_app_disj _ _ (arch_rat st a) N); [apply in_map, in_seq; lia|]. apply in_or_app. now left.
Qed.
Lemma taken_nodup st g : reach st g -> NoDup (taken g).
Proof.
  intros R. pose proof (register_partition st g R) as P.
  assert (N : NoDup (map (arch_rat st) (seq 0 RAT_NUM) ++ taken g ++ free_regs st)).
  { eapply Permutation_NoDup; [apply Permutation_sym; exact P|]. apply seq_NoDup. }
  apply nodup_app_r in N. apply nodup_app_l in N. exact N.
Qed.
Lemma chain_dest : forall g ck ckh arch hc e, chain ck ckh arch hc g -> In e g -> g_en e = true -> 1 <= g_dest e < RAT_NUM.
Proof. induction g as [|z g IH]; intros ck ckh arch hc e C I E; [destruct I|]. cbn [chain] in C. destruct C as (A & _ & C). destruct I as [->|I]; [apply A; exact E|]. eapply IH; eauto. Qed.
Lemma dest_bound c x : good c -> In x (k_fly c) -> g_en (x_g x) = true -> 1 <= g_dest (x_g x) < RAT_NUM.
Proof.
  intros G I E. pose proof (reach_inv _ _ (d_reach _ G)) as V. eapply chain_dest; [exact (p_chain _ _ _ _ _ _ _ (v_p _ _ V))|apply in_map; exact I|exact E].
Qed.

Section cycle.
  Variables (c : core) (y : cyc).
  Hypothesis G : good c.
  Hypothesis O : cycle_ok c y.
  Let V := seq_run zero (k_log c).
  Let ND : NoDup (taken (map x_g (k_fly c))) := taken_nodup _ _ (d_reach _ G).

  (** a result that is driven for the register of [x] is the sequential one *)
  Lemma driven_value a x b w : k_fly c = a ++ x :: b -> g_en (x_g x) = true -> b_dest w = Some (g_preg (x_g x)) ->
    (exists z, In z (k_fly c) /\ result_of z w) -> b_val w = result (seq_run V a) x.
  Proof using G ND.
    intros E En D (z & Iz & Ez & Dz & v1 & v2 & Oz & ->). apply in_split in Iz. destruct Iz as (a' & b' & E').
    assert (P : g_preg (x_g x) = g_preg (x_g z)) by congruence.
    destruct (owner_unique _ _ _ _ _ _ _ ND E E' En Ez P) as [-> ->]. destruct (proj1 (d_facts _ G _ _ _ E') v1 v2 Oz) as [-> ->]. reflexivity.
  Qed.
  Lemma driven_arch a w : a < RAT_NUM -> b_dest w = Some (arch_rat (k_ren c) a) -> (exists z, In z (k_fly c) /\ result_of z w) -> False.
  Proof using G.
    intros A D (z & Iz & Ez & Dz & _). apply (arch_free _ _ a (d_reach _ G) A). assert (E : arch_rat (k_ren c) a = g_preg (x_g z)) by congruence. rewrite E. apply taken_in; assumption.
  Qed.

  (** the newest writer before a place, once readable, reads as the sequential value *)
  Lemma lookup : forall a b, k_fly c = a ++ b -> forall r, r < RAT_NUM ->
    readable (k_fly c) (y_prf y) (newest (arch_rat (k_ren c)) (map x_g a) r) ->
    read (k_prf c) (y_prf y) (newest (arch_rat (k_ren c)) (map x_g a) r) = seq_run V a r.
  Proof using G O ND.
    induction a as [|x a IH] using rev_ind; intros b E r Hr Rd.
    - cbn [map newest] in *. rewrite read_plain; [apply (d_arch _ G); exact Hr|]. intros w I D. apply (driven_arch r w Hr D). apply (o_bypass _ _ _ O w I). congruence.
    - rewrite <- app_assoc in E. cbn [app] in E. rewrite map_app in *. cbn [map] in *. rewrite newest_snoc in *. rewrite seq_app. unfold seq_run at 1. cbn [fold_left]. unfold seq1.
      destruct (g_en (x_g x)) eqn:En; cbn [andb] in *; [|apply (IH (x :: b) E r Hr Rd)]. unfold fupd.
      destruct (r =? g_dest (x_g x)) eqn:Er; [|apply (IH (x :: b) E r Hr Rd)].
      assert (Ix : In x (k_fly c)) by (rewrite E; apply in_or_app; right; now left).
      destruct (bypassed_dec (y_prf y) (g_preg (x_g x))) as [B|B].
      + destruct (read_bypassed (k_prf c) (y_prf y) _ B) as (w & Iw & Dw & ->). apply (driven_value a x b w E En Dw). apply (o_bypass _ _ _ O w Iw). congruence.
      + rewrite read_plain by exact B. destruct (Rd x Ix En eq_refl) as [W|(w & Iw & Dw)]; [|destruct (B w Iw Dw)]. apply (proj2 (d_facts _ G _ _ _ E) W En).
  Qed.
  Lemma source_names a x b : k_fly c = a ++ x :: b ->
    snd (g_src1 (x_g x)) = newest (arch_rat (k_ren c)) (map x_g a) (fst (g_src1 (x_g x))) /\ snd (g_src2 (x_g x)) = newest (arch_rat (k_ren c)) (map x_g a) (fst (g_src2 (x_g x))).
  Proof using G.
    intros E. pose proof (d_src _ G) as S. rewrite E, map_app in S. apply sources_app in S. destruct S as [_ S]. cbn [map sources] in S. tauto.
  Qed.
  Lemma reads_right a x b : k_fly c = a ++ x :: b -> y_read y (length a) = true ->
    reads (k_prf c) (y_prf y) x = (src1 (seq_run V a) x, src2 (seq_run V a) x).
  Proof using G O ND.
    intros E Rd. destruct (o_read _ _ _ O a x b E Rd) as [R1 R2]. destruct (source_names a x b E) as [N1 N2].
    assert (Ix : In x (k_fly c)) by (rewrite E; apply in_or_app; right; now left). destruct (d_bound _ G x Ix) as [B1 B2].
    unfold reads, src1, src2, operand. f_equal.
    - destruct (w_en1 (x_w x)); [|reflexivity]. rewrite N1 in *. apply (lookup a (x :: b) E); auto.
    - destruct (w_en2 (x_w x)); [|reflexivity]. rewrite N2 in *. apply (lookup a (x :: b) E); auto.
  Qed.

  Let R' := cur (prf_step (k_prf c) (y_prf y)).
  Lemma writer_driven p w : writer (y_prf y) p w -> exists z, In z (k_fly c) /\ result_of z w.
  Proof using O. intros (I & S & D). apply (o_entry _ _ _ O w I S). congruence. Qed.
  Lemma zero_kept : R' 0 = 0%Z.
  Proof using G O.
    apply cur_zero. intros w W. apply (driven_arch 0 w); [unfold RAT_NUM; lia|rewrite (d_rat0 _ G); apply W|eapply writer_driven; exact W].
  Qed.
  Lemma arch_kept a : a < RAT_NUM -> R' (arch_rat (k_ren c) a) = V a.
  Proof using G O.
    intros A. destruct (Nat.eq_dec (arch_rat (k_ren c) a) 0) as [Z0|Z0].
    - rewrite Z0, zero_kept. rewrite <- (d_zero _ G), <- Z0. apply (d_arch _ G a A).
    - unfold R'. rewrite cur_old; [apply (d_arch _ G a A)|exact Z0|]. intros w W. apply (driven_arch a w A); [apply W|eapply writer_driven; exact W].
  Qed.
  Lemma owner_kept a x b : k_fly c = a ++ x :: b -> g_en (x_g x) = true -> x_wb x || y_wb y (length a) = true -> R' (g_preg (x_g x)) = result (seq_run V a) x.
  Proof using G O ND.
    intros E En W. assert (Ix : In x (k_fly c)) by (rewrite E; apply in_or_app; right; now left).
    destruct (writer_latch (y_prf y) (g_preg (x_g x))) as [Ex|N].
    - unfold R'. apply cur_new; [exact Ex|]. intros w Hw. apply (driven_value a x b w E En); [apply Hw|eapply writer_driven; exact Hw].
    - assert (NW : forall w, ~ writer (y_prf y) (g_preg (x_g x)) w).
      { intros w (I & S & D). destruct (latch_some _ _ S) as (w' & L & D' & _). assert (H : writes (g_preg (x_g x)) (latch1 (y_prf y) (Some w)) = false) by (apply N; apply in_map; exact I).
        rewrite L in H. cbn in H. rewrite D', D, Nat.eqb_refl in H. discriminate. }
      apply orb_true_iff in W. destruct W as [W|W].
      + unfold R'. rewrite cur_old; [apply (proj2 (d_facts _ G _ _ _ E) W En)| |exact NW]. intros Z0. apply (arch_free _ _ 0 (d_reach _ G)); [unfold RAT_NUM; lia|].
        rewrite (d_rat0 _ G), <- Z0. apply taken_in; assumption.
      + destruct (o_mark _ _ _ O a x b E W En) as (w & Hw). destruct (NW w Hw).
  Qed.
  Let L := marks (k_prf c) y 0 (k_fly c).
  Lemma facts_marked : facts R' V L.
  Proof using G O ND.
    intros a x b E. unfold L in E. destruct (marks_split _ _ _ _ _ _ _ E) as (a0 & x0 & b0 & E0 & -> & -> & ->). cbn [plus] in *.
    rewrite (seq_skel (marks (k_prf c) y 0 a0) a0) by apply skel_marks.
    destruct (skel_step (seq_run V a0) (mark (k_prf c) y (length a0) x0) x0 (skel_mark _ _ _ _)) as (_ & E1 & E2 & E3). rewrite E1, E2, E3. split.
    - intros v1 v2. unfold mark. cbn [x_ops]. destruct (y_read y (length a0)) eqn:Rd; [|apply (proj1 (d_facts _ G _ _ _ E0))].
      rewrite (reads_right _ _ _ E0 Rd). intros H. injection H as <- <-. auto.
    - unfold mark. cbn [x_wb x_g]. intros W En. apply (owner_kept _ _ _ E0 En W).
  Qed.
End cycle.

Lemma facts_untag R V cl l : facts R V l -> facts R V (map (untagx cl) l).
Proof.
  intros F a x b E. destruct (map_split _ _ _ _ _ E) as (a0 & x0 & b0 & E0 & -> & -> & ->). destruct (F _ _ _ E0) as [A B].
  rewrite (seq_skel _ a0) by apply skel_untags. destruct (skel_step (seq_run V a0) _ x0 (skel_untag cl x0)) as (_ & -> & -> & ->).
  cbn [untagx x_ops x_wb x_g]. destruct (untag_fields cl (x_g x0)) as (-> & _ & -> & _). auto.
Qed.
Lemma facts_prefix R V l m : facts R V (l ++ m) -> facts R V l.
Proof. intros F a x b ->. apply (F a x (b ++ m)). rewrite <- app_assoc. reflexivity. Qed.
Lemma facts_suffix R V l m : facts R V (l ++ m) -> facts R (seq_run V l) m.
Proof. intros F a x b ->. rewrite <- seq_app. apply (F (l ++ a) x b). rewrite <- app_assoc. reflexivity. Qed.
Lemma facts_fresh R V l m : facts R V l -> facts R V (l ++ map fresh m).
Proof.
  intros F a x b E. apply app_split in E. destruct E as [(b' & E & _)|(a' & -> & E)]; [exact (F _ _ _ E)|].
  destruct (map_split _ _ _ _ _ E) as (a0 & x0 & b0 & _ & _ & -> & _). cbn. split; [discriminate|discriminate].
Qed.

Lemma newest_arch : forall l f r R V, (forall a, a < RAT_NUM -> R (f a) = V a) -> facts R V l ->
  (forall x, In x l -> g_en (x_g x) = true -> x_wb x = true) -> r < RAT_NUM -> R (newest f (map x_g l) r) = seq_run V l r.
Proof.
  induction l as [|x l IH] using rev_ind; intros f r R V A F W Hr; [cbn; auto|]. rewrite map_app. cbn [map]. rewrite newest_snoc, seq_app. unfold seq_run at 1. cbn [fold_left]. unfold seq1.
  assert (I : R (newest f (map x_g l) r) = seq_run V l r) by (apply IH; auto; [eapply facts_prefix; exact F|intros; apply W; auto; apply in_or_app; now left]).
  destruct (g_en (x_g x)) eqn:En; cbn [andb]; [|exact I]. unfold fupd. destruct (r =? g_dest (x_g x)); [|exact I].
  apply (F l x [] eq_refl); auto. apply W; auto. apply in_or_app. right. now left.
Qed.
Lemma newest_zero : forall l f, (forall e, In e l -> g_en e = true -> 1 <= g_dest e) -> newest f l 0 = f 0.
Proof.
  induction l as [|e l IH] using rev_ind; intros f H; [reflexivity|]. rewrite newest_snoc. destruct (g_en e) eqn:En; cbn [andb].
  - assert (1 <= g_dest e) by (apply H; auto; apply in_or_app; right; now left). destruct (Nat.eqb_spec 0 (g_dest e)); [lia|]. apply IH. intros; apply H; auto. apply in_or_app. now left.
  - apply IH. intros; apply H; auto. apply in_or_app. now left.
Qed.

Lemma firstn_in {A} : forall n (l : list A) x, In x (firstn n l) -> In x l.
Proof. intros n l x I. rewrite <- (firstn_skipn n l). apply in_or_app. now left. Qed.
Lemma skipn_in {A} : forall n (l : list A) x, In x (skipn n l) -> In x l.
Proof. intros n l x I. rewrite <- (firstn_skipn n l). apply in_or_app. now right. Qed.
Lemma marks_in r y : forall l k x, In x (marks r y k l) -> exists z, In z l /\ x_g z = x_g x /\ x_w z = x_w x.
Proof. induction l as [|z l IH]; intros k x I; [destruct I|]. destruct I as [<-|I]; [exists z; cbn; auto|]. destruct (IH _ _ I) as (z' & I' & E). exists z'. cbn. auto. Qed.
Lemma marks_firstn r y : forall l k n, firstn n (marks r y k l) = marks r y k (firstn n l).
Proof. induction l as [|x l IH]; intros k [|n]; cbn; try reflexivity. now rewrite IH. Qed.

Lemma good_step c y : good c -> cycle_ok c y -> good (core_step c y).
Proof.
  intros G O. pose proof (facts_marked c y G O) as FM. set (L := marks (k_prf c) y 0 (k_fly c)) in *. set (R' := cur (prf_step (k_prf c) (y_prf y))) in *. set (V := seq_run zero (k_log c)) in *.
  assert (GL : map x_g L = map x_g (k_fly c)) by apply marks_g.
  pose proof (o_traffic _ _ _ O) as T. pose proof (d_reach _ G) as Re.
  set (n := y_done y) in *. set (dn := map x_g (firstn n (k_fly c))) in *.
  assert (Ld : length dn = length (firstn n (k_fly c))) by (unfold dn; now rewrite map_length).
  assert (SK : skipn (length dn) (map x_g (k_fly c)) = map x_g (skipn n (k_fly c))).
  { rewrite Ld. rewrite <- (firstn_skipn n (k_fly c)) at 2. rewrite map_app. rewrite <- (map_length x_g). apply skipn_app_done. }
  assert (Gs : map x_g (k_fly (core_step c y)) = g_step (map x_g (k_fly c)) (y_ren y) (leaving (k_ren c) (y_ren y)) dn (y_clear y)).
  { unfold core_step, g_step. cbn [k_fly]. destruct (i_flush (y_ren y)); [reflexivity|]. fold L. destruct (i_mispred (y_ren y)) as [t|].
    - rewrite untagx_g. f_equal. rewrite GL. rewrite <- firstn_map, GL. apply upto_length.
    - rewrite map_app, untagx_g, fresh_g by apply (o_new _ _ _ O). f_equal. f_equal. rewrite <- skipn_map, GL. fold n. rewrite SK, <- skipn_map. reflexivity. }
  assert (Ar : forall a, arch_rat (ren_step (k_ren c) (y_ren y)) a = newest (arch_rat (k_ren c)) dn a) by (intros a; apply (retirement _ _ _ _ _ Re T)).
  assert (Fd : facts R' V (firstn n L)).
  { unfold L. rewrite marks_firstn. eapply facts_prefix. rewrite <- marks_app. rewrite (firstn_skipn n (k_fly c)). exact FM. }
  assert (Vd : seq_run zero (k_log c ++ firstn n (k_fly c)) = seq_run V (firstn n L)).
  { rewrite seq_app. fold V. apply seq_skel. unfold L. rewrite marks_firstn. symmetry. apply skel_marks. }
  assert (A' : forall a, a < RAT_NUM -> R' (arch_rat (ren_step (k_ren c) (y_ren y)) a) = seq_run V (firstn n L) a).
  { intros a A. rewrite Ar. unfold dn. replace (map x_g (firstn n (k_fly c))) with (map x_g (firstn n L)) by (rewrite <- !firstn_map, GL; reflexivity).
    apply newest_arch; [intros; apply (arch_kept c y G O); assumption|exact Fd| |exact A]. intros x I En. unfold L in I. rewrite marks_firstn in I.
    apply in_split in I. destruct I as (a1 & b1 & E1). destruct (marks_split _ _ _ _ _ _ _ E1) as (a0 & x0 & b0 & E0 & _ & -> & _). cbn [mark x_wb x_g] in *.
    rewrite (o_done _ _ _ O x0); [reflexivity| |exact En]. fold n. rewrite E0. apply in_or_app. right. now left. }
  assert (RD : reach (k_ren (core_step c y)) (map x_g (k_fly (core_step c y)))) by (rewrite Gs; cbn [core_step k_ren]; apply reach_step; assumption).
  constructor; [exact RD| | | | | |].
  - (* sources *)
    rewrite Gs. cbn [core_step k_ren]. unfold g_step. destruct (i_flush (y_ren y)) eqn:Fl; [exact I|]. destruct (i_mispred (y_ren y)) as [t|] eqn:Mp.
    + apply sources_untag. eapply sources_ext; [intros a; symmetry; apply (mispredict_recovery _ _ _ _ _ t Re T Mp)|].
      destruct (upto_tag_prefix t (map x_g (k_fly c))) as [post E]. pose proof (d_src _ G) as S. rewrite E in S. apply sources_app in S. apply S.
    + assert (S1 : sources (newest (arch_rat (k_ren c)) dn) (skipn (length dn) (map x_g (k_fly c)))).
      { rewrite SK. pose proof (d_src _ G) as S. rewrite <- (firstn_skipn n (k_fly c)), map_app in S. apply sources_app in S. apply S. }
      apply sources_app. split.
      * apply sources_untag. eapply sources_ext; [|exact S1]. intros a. symmetry. apply Ar.
      * destruct (fire_inv (k_ren c) _ (y_ren y) (reach_inv _ _ Re)) as (_ & _ & _ & _ & _ & _ & S). eapply sources_ext; [|exact S].
        intros a. rewrite (v_spec _ _ (reach_inv _ _ Re) a). rewrite newest_untag. rewrite <- (firstn_skipn n (k_fly c)) at 1. rewrite map_app, newest_app. rewrite SK.
        apply newest_ext. intros b. symmetry. apply Ar.
  - (* bounds *)
    assert (BL : forall x, In x L -> (w_en1 (x_w x) = true -> fst (g_src1 (x_g x)) < RAT_NUM) /\ (w_en2 (x_w x) = true -> fst (g_src2 (x_g x)) < RAT_NUM)).
    { intros x I. destruct (marks_in _ _ _ _ _ I) as (z & Iz & E1 & E2). rewrite <- E1, <- E2. apply (d_bound _ G z Iz). }
    assert (BU : forall cl l x, (forall z, In z l -> In z L) -> In x (map (untagx cl) l) -> (w_en1 (x_w x) = true -> fst (g_src1 (x_g x)) < RAT_NUM) /\ (w_en2 (x_w x) = true -> fst (g_src2 (x_g x)) < RAT_NUM)).
    { intros cl l x Hl I. apply in_map_iff in I. destruct I as (z & <- & I). cbn [untagx x_g x_w]. destruct (untag_fields cl (x_g z)) as (_ & _ & _ & _ & -> & ->). apply BL. auto. }
    intros x. cbn [core_step k_fly]. fold L. destruct (i_flush (y_ren y)); [intros []|]. destruct (i_mispred (y_ren y)) as [t|].
    + apply BU. intros z. apply firstn_in.
    + intros I. apply in_app_or in I. destruct I as [I|I]; [revert I; apply BU; intros z; apply skipn_in|]. apply in_map_iff in I. destruct I as ((e & w) & <- & I). apply (o_srcs _ _ _ O e w I).
  - (* facts *)
    cbn [core_step k_fly k_log k_prf]. fold L R'. destruct (i_flush (y_ren y)); [intros a x b E; destruct a; discriminate|]. fold n. rewrite Vd.
    destruct (i_mispred (y_ren y)) as [t|] eqn:Mp.
    + apply facts_untag. assert (Dn : firstn n L = []).
      { destruct T as (_ & Tc & _ & _ & Tm). rewrite Mp in Tm. destruct Tm as (_ & C0 & F0). assert (Z0 : dn = []) by (destruct Tc as [(_ & _ & Tc)|(Tc & _)]; [rewrite C0 in Tc; now inversion Tc|exact Tc]).
        assert (map x_g (firstn n L) = []) by (rewrite <- firstn_map, GL, firstn_map; exact Z0). destruct (firstn n L); [reflexivity|discriminate]. }
      rewrite Dn. cbn [seq_run fold_left]. eapply facts_prefix. rewrite (firstn_skipn _ L). exact FM.
    + apply facts_fresh. apply facts_untag. apply facts_suffix. rewrite (firstn_skipn n L). exact FM.
  - cbn [core_step k_ren k_prf k_log]. fold n R'. rewrite Vd. exact A'.
  - exact (zero_kept c y G O).
  - cbn [core_step k_ren]. rewrite Ar. rewrite newest_zero; [apply (d_rat0 _ G)|]. intros e I En. unfold dn in I. apply in_map_iff in I. destruct I as (x & <- & I). apply firstn_in in I.
    apply (dest_bound c x G I En).
Qed.
Lemma good_init n : good (core_init n).
Proof.
  assert (Z0 : forall p, cur (prf_init n) p = 0%Z).
  { intros p. unfold cur. cbn [prf_init latch regs]. apply overlay_none. intros o I. apply repeat_spec in I. now subst. }
  constructor; [exact reach_init|exact I|intros x []|intros a x b E; destruct a; discriminate|intros a _; apply Z0|apply Z0|reflexivity].
Qed.
Lemma good_runs n c : runs n c -> good c.
Proof. unfold runs. induction 1; [apply good_init|apply good_step; assumption]. Qed.

(** *** What is seen from outside *)
Lemma regs_next r i p : regs (prf_step r i) p = if p =? 0 then 0%Z else cur r p.
Proof.
  cbn [prf_step regs]. destruct (Nat.eqb_spec p 0) as [->|P]; [reflexivity|]. apply write_all_overlay. exact P.
Qed.
Lemma commit_newest : forall cs d acc, Forall (fun c => c_valid c = true) cs -> Forall (fun c => c_exc c = false) cs -> Forall2 reports cs d ->
  forall a, ca_arch (fold_left (commit_one false) cs acc) a = newest (ca_arch acc) d a.
Proof.
  intros cs d acc Hv He F. revert acc Hv He. induction F as [|c e cs d [E H] F IH]; intros acc Hv He a; [reflexivity|].
  inversion Hv as [|? ? V1 V2]; inversion He as [|? ? X1 X2]; subst. cbn [fold_left newest]. rewrite IH by assumption. apply newest_ext. intros b.
  unfold commit_one. rewrite V1, X1, E. cbn [negb andb]. destruct (g_en e); cbn [andb ca_arch]; [|reflexivity].
  destruct (H eq_refl) as (-> & -> & _). unfold fupd. reflexivity.
Qed.
Lemma firstn_forall {A} (P : A -> Prop) n l : Forall P l -> Forall P (firstn n l).
Proof. intros H. apply Forall_forall. intros x I. rewrite Forall_forall in H. apply H. eapply firstn_in; exact I. Qed.
Lemma firstn_forall2 {A B} (P : A -> B -> Prop) : forall l m, Forall2 P l m -> forall n, Forall2 P (firstn n l) (firstn n m).
Proof. induction 1; intros [|n]; cbn; constructor; auto. Qed.
Lemma checked_right c y k r : good c -> cycle_ok c y -> r < RAT_NUM ->
  checked_gpr c y k r = seq_run zero (k_log c ++ firstn k (firstn (y_done y) (k_fly c))) r.
Proof.
  intros G O Hr. set (d := firstn k (firstn (y_done y) (k_fly c))).
  assert (Ar : forall a, ca_arch (fold_left (commit_one (i_interrupt (y_ren y))) (firstn k (committing (y_ren y)))
    (ComAcc (arch_rat (k_ren c)) (free_list (k_ren c)) (free_tail (k_ren c)) (free_head_commit (k_ren c)))) a = newest (arch_rat (k_ren c)) (map x_g d) a).
  { destruct (o_traffic _ _ _ O) as (_ & [(Ni & Ne & F)|(Z0 & _ & T)] & _).
    - intros a. rewrite Ni. rewrite (commit_newest _ (map x_g d)); [reflexivity| | |].
      + apply firstn_forall. apply Forall_forall. intros x I. unfold committing in I. now apply filter_In in I.
      + apply firstn_forall. exact Ne.
      + unfold d. rewrite <- firstn_map. apply firstn_forall2. exact F.
    - intros a. rewrite commit_trap by (apply firstn_forall; exact T). unfold d. destruct (firstn (y_done y) (k_fly c)); [|discriminate]. rewrite firstn_nil. reflexivity. }
  unfold checked_gpr. cbn zeta. rewrite Ar. rewrite regs_next.
  assert (Fc : facts (cur (k_prf c)) (seq_run zero (k_log c)) d).
  { pose proof (d_facts _ G) as F. rewrite <- (firstn_skipn (y_done y) (k_fly c)) in F. apply facts_prefix in F.
    rewrite <- (firstn_skipn k (firstn (y_done y) (k_fly c))) in F. apply facts_prefix in F. exact F. }
  assert (E : cur (k_prf c) (newest (arch_rat (k_ren c)) (map x_g d) r) = seq_run zero (k_log c ++ d) r).
  { rewrite seq_app. apply newest_arch; [apply (d_arch _ G)|exact Fc| |exact Hr]. intros x I En. apply (o_done _ _ _ O x); [|exact En]. eapply firstn_in. exact I. }
  rewrite <- E. destruct (Nat.eqb_spec (newest (arch_rat (k_ren c)) (map x_g d) r) 0) as [Z0|]; [|reflexivity]. rewrite Z0. symmetry. apply (d_zero _ G).
Qed.
Lemma get_reg_right c y r : good c -> cycle_ok c y -> r < RAT_NUM -> get_reg (core_step c y) r = seq_run zero (k_log (core_step c y)) r.
Proof.
  intros G O Hr. cbn [core_step k_log]. pose proof (checked_right c y (length (committing (y_ren y))) r G O Hr) as C.
  unfold checked_gpr in C. cbn zeta in C. rewrite firstn_all in C. unfold get_reg. cbn [core_step k_prf k_ren].
  assert (A : arch_rat (ren_step (k_ren c) (y_ren y)) r = ca_arch (fold_left (commit_one (i_interrupt (y_ren y))) (committing (y_ren y))
    (ComAcc (arch_rat (k_ren c)) (free_list (k_ren c)) (free_tail (k_ren c)) (free_head_commit (k_ren c)))) r).
  { unfold ren_step. unfold committing. rewrite <- commit_filter. fold (commit_loop (k_ren c) (y_ren y)). destruct (i_flush (y_ren y)); [reflexivity|]. destruct (i_mispred (y_ren y)); reflexivity. }
  rewrite A, C. do 2 f_equal. destruct (o_traffic _ _ _ O) as (_ & [(_ & _ & F)|(Z0 & _)] & _).
  - assert (Le : length (committing (y_ren y)) = length (map x_g (firstn (y_done y) (k_fly c)))) by (clear -F; induction F; cbn; congruence). rewrite map_length in Le. rewrite Le. apply firstn_all.
  - destruct (firstn (y_done y) (k_fly c)); [apply firstn_nil|discriminate].
Qed.
