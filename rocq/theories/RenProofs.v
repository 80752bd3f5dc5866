(** Proofs for C01/C02. *)
From Verif Require Import Base RenModel RenSpec.
From Coq Require Import Permutation.
Local Open Scope nat_scope.
Ltac Zify.zify_post_hook ::= Z.div_mod_to_equations.

Lemma loop_inc_mod : forall x, x < 64 -> loop_inc x = (x + 1) mod 64.
Proof.
  intros x H. unfold loop_inc, PRF_NUM. destruct (x + 1 =? 64) eqn:E.
  - apply Nat.eqb_eq in E. rewrite E. reflexivity.
  - apply Nat.eqb_neq in E. rewrite Nat.mod_small; lia.
Qed.
Lemma mod_add_l : forall a b, (a mod 64 + b) mod 64 = (a + b) mod 64.
Proof. intros. rewrite Nat.add_mod_idemp_l; auto. Qed.
Lemma mod_lt64 : forall a, a mod 64 < 64.
Proof. intros. apply Nat.mod_upper_bound. discriminate. Qed.

(** *** newest *)
Definition step_rat (arch : nat -> nat) (e : gentry) : nat -> nat :=
  fun x => if g_en e && (x =? g_dest e) then g_preg e else arch x.
Lemma newest_ext : forall l f g, (forall a, f a = g a) -> forall a, newest f l a = newest g l a.
Proof.
  induction l; intros f g H b; cbn [newest]; auto.
  apply IHl. intros x. destruct (g_en a && (x =? g_dest a)); auto.
Qed.
Lemma newest_app : forall l1 l2 f a, newest f (l1 ++ l2) a = newest (newest f l1) l2 a.
Proof. induction l1; intros; cbn [newest app]; auto. Qed.
Lemma newest_cons : forall e l f, newest f (e :: l) = newest (step_rat f e) l.
Proof. reflexivity. Qed.
Lemma taken_app : forall l1 l2, taken (l1 ++ l2) = taken l1 ++ taken l2.
Proof. induction l1; intros; cbn [taken app]; auto. destruct (g_en a); rewrite IHl1; auto. Qed.
Lemma tags_app : forall l1 l2, tags (l1 ++ l2) = tags l1 ++ tags l2.
Proof. intros. unfold tags. apply flat_map_app. Qed.
Lemma tags_cons : forall e l,
  tags (e :: l) = (match g_tag e with Some t => [t] | None => [] end) ++ tags l.
Proof. reflexivity. Qed.

(** *** The per-entry history invariant *)
Fixpoint chain (ck : nat -> nat -> nat) (ckh : nat -> nat) (arch : nat -> nat) (hc : nat)
    (g : list gentry) : Prop :=
  match g with
  | [] => True
  | e :: g' =>
      let arch' := step_rat arch e in
      let hc' := if g_en e then loop_inc hc else hc in
      (g_en e = true -> 1 <= g_dest e < RAT_NUM /\ g_old e = arch (g_dest e)) /\
      (forall t, g_tag e = Some t -> (forall a, ck t a = arch' a) /\ ckh t = hc') /\
      chain ck ckh arch' hc' g'
  end.

Lemma chain_ext : forall g ck ckh f h hc, (forall a, f a = h a) ->
  chain ck ckh f hc g -> chain ck ckh h hc g.
Proof.
  induction g as [|e g IH]; intros ck ckh f h hc E; cbn [chain]; auto.
  intros (A & B & C). split; [|split].
  - intros G. destruct (A G). split; auto. rewrite <- E; auto.
  - intros t T. destruct (B t T) as [B1 B2]. split; auto.
    intros a. rewrite B1. unfold step_rat. destruct (_ && _); auto.
  - eapply IH; [|exact C]. intros a. unfold step_rat. destruct (_ && _); auto.
Qed.

Fixpoint head_after (hc : nat) (g : list gentry) : nat :=
  match g with
  | [] => hc
  | e :: g' => head_after (if g_en e then loop_inc hc else hc) g'
  end.
Lemma head_after_eq : forall g hc, hc < 64 ->
  head_after hc g = (hc + length (taken g)) mod 64.
Proof.
  induction g as [|e g IH]; intros hc H; cbn [head_after taken].
  - cbn [length]. rewrite Nat.add_0_r, Nat.mod_small; auto.
  - destruct (g_en e).
    + rewrite IH; rewrite loop_inc_mod; auto using mod_lt64.
      rewrite mod_add_l. cbn [length]. f_equal. lia.
    + apply IH; auto.
Qed.
Lemma chain_app : forall g1 g2 ck ckh arch hc,
  chain ck ckh arch hc (g1 ++ g2) <->
  chain ck ckh arch hc g1 /\ chain ck ckh (newest arch g1) (head_after hc g1) g2.
Proof.
  induction g1 as [|e g IH]; intros; cbn [chain app newest head_after].
  - split; [intros; split; auto | intros [_ H]; auto].
  - rewrite IH. fold (step_rat arch e). tauto.
Qed.
Lemma in_tags : forall g t, In t (tags g) <-> exists e, In e g /\ g_tag e = Some t.
Proof.
  intros. unfold tags. rewrite in_flat_map. split; intros (e & I & H); exists e; split; auto.
  - destruct (g_tag e); cbn in H; [destruct H as [H|[]]; subst; auto | contradiction].
  - rewrite H. left; auto.
Qed.
Lemma chain_frame : forall g ck ckh ck' ckh' arch hc,
  (forall t, In t (tags g) -> (forall a, ck' t a = ck t a) /\ ckh' t = ckh t) ->
  chain ck ckh arch hc g -> chain ck' ckh' arch hc g.
Proof.
  induction g as [|e g IH]; intros ck ckh ck' ckh' arch hc F; cbn [chain]; auto.
  intros (A & B & C). split; auto. split.
  - intros t T. destruct (B t T). destruct (F t).
    + apply in_tags. exists e. split; auto. left; auto.
    + split; [intros; rewrite H1; auto | rewrite H2; auto].
  - eapply IH; [|exact C]. intros t I. apply F.
    rewrite tags_cons. apply in_or_app; auto.
Qed.
Lemma untag_fields : forall c e, g_en (untag c e) = g_en e /\ g_dest (untag c e) = g_dest e /\
  g_preg (untag c e) = g_preg e /\ g_old (untag c e) = g_old e /\
  g_src1 (untag c e) = g_src1 e /\ g_src2 (untag c e) = g_src2 e.
Proof. intros. unfold untag. destruct (g_tag e) as [t|]; [destruct (c t)|]; cbn; repeat split. Qed.
Lemma untag_tag : forall c e t, g_tag (untag c e) = Some t -> g_tag e = Some t /\ c t = false.
Proof.
  intros c e t. unfold untag. destruct (g_tag e) as [u|] eqn:E.
  - destruct (c u) eqn:Cu; cbn; [discriminate|]. rewrite E. intros H; inversion H; subst; auto.
  - rewrite E. discriminate.
Qed.
Lemma newest_untag : forall c g f a, newest f (map (untag c) g) a = newest f g a.
Proof.
  induction g as [|e g IH]; intros; cbn [map newest]; auto.
  destruct (untag_fields c e) as (E1 & E2 & E3 & _). rewrite E1, E2, E3. apply IH.
Qed.
Lemma taken_untag : forall c g, taken (map (untag c) g) = taken g.
Proof.
  induction g as [|e g IH]; cbn [map taken]; auto.
  destruct (untag_fields c e) as (E1 & E2 & E3 & _). rewrite E1, E3, IH. auto.
Qed.
Lemma chain_untag : forall c g ck ckh arch hc,
  chain ck ckh arch hc g -> chain ck ckh arch hc (map (untag c) g).
Proof.
  induction g as [|e g IH]; intros; cbn [map chain]; auto. destruct H as (A & B & C).
  destruct (untag_fields c e) as (E1 & E2 & E3 & E4 & _).
  unfold step_rat in *. rewrite E1, E2, E3, E4. split; auto. split; auto.
  intros t T. apply untag_tag in T. apply B. tauto.
Qed.
Lemma tags_untag_in : forall c g t, In t (tags (map (untag c) g)) -> In t (tags g).
Proof.
  intros c g t I. apply in_tags in I. destruct I as (e & I & T). apply in_map_iff in I.
  destruct I as (e' & E & I). subst. apply in_tags. exists e'. split; auto.
  apply untag_tag in T. tauto.
Qed.
Lemma tags_untag_nodup : forall c g, NoDup (tags g) -> NoDup (tags (map (untag c) g)).
Proof.
  induction g as [|e g IH]; intros H; cbn [map]; auto.
  rewrite tags_cons in *. unfold untag at 1. destruct (g_tag e) as [t|] eqn:T.
  - destruct (c t); cbn [g_tag app] in *.
    + apply IH. inversion H; auto.
    + rewrite T. cbn [app]. constructor; [|apply IH; inversion H; auto].
      inversion H; subst. intro I. apply H2. eapply tags_untag_in; eauto.
  - rewrite T. cbn [app] in *. auto.
Qed.

(** *** The ring and the register budget *)
Definition ring (fl : nat -> nat) (h n : nat) : list nat :=
  map (fun k => fl ((h + k) mod 64)) (seq 0 n).
Lemma ring_length : forall fl h n, length (ring fl h n) = n.
Proof. intros. unfold ring. rewrite map_length, seq_length. auto. Qed.
Lemma ring_cons : forall fl h n, h < 64 -> ring fl h (S n) = fl h :: ring fl (loop_inc h) n.
Proof.
  intros. unfold ring. cbn [seq map]. rewrite Nat.add_0_r, Nat.mod_small; auto. f_equal.
  rewrite <- seq_shift, map_map. apply map_ext. intros k. rewrite loop_inc_mod; auto.
  rewrite mod_add_l. do 2 f_equal. lia.
Qed.
Lemma seq_map_add : forall n m s, seq (s + n) m = map (fun k => n + k) (seq s m).
Proof.
  intros n m; revert n; induction m; intros; cbn [seq map]; auto. f_equal; [lia|].
  rewrite <- IHm. f_equal.
Qed.
Lemma ring_app : forall fl h n m,
  ring fl h (n + m) = ring fl h n ++ ring fl ((h + n) mod 64) m.
Proof.
  intros. unfold ring. rewrite seq_app, map_app. f_equal.
  rewrite seq_map_add, map_map. apply map_ext. intros k.
  rewrite mod_add_l. do 2 f_equal. lia.
Qed.
Lemma ring_ext : forall f g h n, (forall k, k < n -> f ((h + k) mod 64) = g ((h + k) mod 64)) ->
  ring f h n = ring g h n.
Proof. intros. unfold ring. apply map_ext_in. intros k I. apply in_seq in I. apply H. lia. Qed.

Definition budget (arch fl : nat -> nat) (hc : nat) : Prop :=
  Permutation (map arch (seq 0 RAT_NUM) ++ ring fl hc POOL) (seq 0 PRF_NUM).

Lemma map_fupd_notin : forall (f : nat -> nat) d v l, ~ In d l -> map (fupd f d v) l = map f l.
Proof.
  intros. apply map_ext_in. intros a I. unfold fupd. destruct (Nat.eqb_spec a d); auto.
  subst; contradiction.
Qed.
Lemma budget_commit : forall arch fl hc d,
  hc < 64 -> d < RAT_NUM -> budget arch fl hc ->
  budget (fupd arch d (fl hc)) (fupd fl ((hc + POOL) mod 64) (arch d)) (loop_inc hc).
Proof.
  intros arch fl hc d H D B. unfold budget in *. eapply Permutation_trans; [|exact B].
  assert (S33 : seq 0 RAT_NUM = seq 0 d ++ d :: seq (S d) (RAT_NUM - S d)).
  { replace RAT_NUM with (d + S (RAT_NUM - S d)) at 1 by (unfold RAT_NUM in *; lia).
    rewrite seq_app. reflexivity. }
  rewrite S33, !map_app. cbn [map].
  rewrite !map_fupd_notin by (rewrite in_seq; lia).
  unfold fupd at 1. rewrite Nat.eqb_refl.
  assert (R0 : ring fl hc POOL = fl hc :: ring fl (loop_inc hc) 30)
    by (apply (ring_cons fl hc 30); auto).
  rewrite R0. clear R0.
  assert (R : ring (fupd fl ((hc + POOL) mod 64) (arch d)) (loop_inc hc) POOL
              = ring fl (loop_inc hc) 30 ++ [arch d]).
  { change POOL with (30 + 1) at 2. rewrite ring_app. f_equal.
    - apply ring_ext. intros k K. unfold fupd.
      destruct (Nat.eqb_spec ((loop_inc hc + k) mod 64) ((hc + POOL) mod 64)); auto.
      exfalso. rewrite loop_inc_mod in e by auto. rewrite mod_add_l in e. unfold POOL in e. lia.
    - unfold ring. cbn [seq map]. f_equal. unfold fupd.
      rewrite loop_inc_mod by auto.
      replace ((((hc + 1) mod 64 + 30) mod 64 + 0) mod 64) with ((hc + POOL) mod 64)
        by (unfold POOL; lia).
      rewrite Nat.eqb_refl. auto. }
  rewrite R. clear.
  set (A := map arch (seq 0 d)). set (C := map arch (seq (S d) (RAT_NUM - S d))).
  set (T := ring fl (loop_inc hc) 30). set (x := fl hc). set (y := arch d).
  rewrite <- !app_assoc. apply Permutation_app_head. cbn [app].
  transitivity (x :: y :: C ++ T).
  - apply perm_skip. rewrite app_assoc. rewrite Permutation_app_comm. reflexivity.
  - rewrite perm_swap. apply perm_skip. apply Permutation_middle.
Qed.

(** *** Firing *)
Lemma valid_stalled : forall l a, Forall (fun b => b = false) (valid_loop true l a).
Proof.
  induction l as [|s l IH]; intros [|[p v] a]; cbn [valid_loop]; auto.
  rewrite andb_false_r. cbn [negb]. destruct (s_valid s && negb (s_dest_en s)); auto.
Qed.
Lemma rename_novalid : forall l rat prev a v, Forall (fun b => b = false) v ->
  Forall (fun r => r_valid r = false) (rename_loop rat prev l a v).
Proof.
  induction l as [|s l IH]; intros rat prev [|[p q] a] [|b v] H; cbn [rename_loop]; auto.
  inversion H; subst. constructor; auto.
Qed.
Lemma filter_nofire : forall l r rdy, Forall (fun r => fires rdy r = false) r ->
  filter (fun p : dslot * renamed => fires rdy (snd p)) (combine l r) = [].
Proof.
  induction l as [|s l IH]; intros [|x r] rdy H; cbn [combine filter]; auto.
  inversion H; subst. cbn [snd]. rewrite H2. auto.
Qed.
Lemma fold_nofire : forall r rdy acc, Forall (fun r => fires rdy r = false) r ->
  fold_left (fire_one rdy) r acc = acc.
Proof.
  induction r as [|x r IH]; intros rdy acc H; cbn [fold_left]; auto. inversion H; subst.
  unfold fire_one at 2. rewrite H2. cbn [andb]. auto.
Qed.
Lemma bypass_snoc : forall rat prev s p a,
  bypass rat (prev ++ [(s, p)]) a =
  if negb (s_valid s) || negb (s_dest_en s) then bypass rat prev a
  else if s_dest s =? 0 then bypass rat prev a
  else if a =? s_dest s then p else bypass rat prev a.
Proof. intros. unfold bypass. rewrite fold_left_app. reflexivity. Qed.

Definition out_of (l : list dslot) (R : list renamed) (rdy : bool) : list gentry :=
  map (fun p : dslot * renamed => enters (snd p) (fst p))
      (filter (fun p : dslot * renamed => fires rdy (snd p)) (combine l R)).

(** Sources of the entries in [new] name the newest register. *)
Fixpoint sources (rat : nat -> nat) (new : list gentry) : Prop :=
  match new with
  | [] => True
  | e :: new' =>
      snd (g_src1 e) = rat (fst (g_src1 e)) /\ snd (g_src2 e) = rat (fst (g_src2 e)) /\
      sources (step_rat rat e) new'
  end.
Lemma sources_ext : forall l f g, (forall a, f a = g a) -> sources f l -> sources g l.
Proof.
  induction l; intros f g E; cbn [sources]; auto. intros (A & B & C).
  rewrite <- !E. split; auto. split; auto. eapply IHl; [|exact C].
  intros b. unfold step_rat. destruct (_ && _); auto.
Qed.

Lemma fire_main : forall fl rat l prev head count acc,
  head < 64 -> fa_head acc = head -> (forall a, bypass rat prev a = fa_rat acc a) ->
  Forall slot_ok l ->
  let A := alloc_loop fl head count l in
  let R := rename_loop rat prev l A (valid_loop false l A) in
  let new := out_of l R true in
  let acc' := fold_left (fire_one true) R acc in
  (forall a, fa_rat acc' a = newest (fa_rat acc) new a) /\
  fa_head acc' = head_after head new /\
  length (taken new) <= count /\
  (forall k, k < length (taken new) -> fl ((head + k) mod 64) = nth k (taken new) 0) /\
  (forall t, ~ In t (tags new) -> (forall a, fa_ckpt acc' t a = fa_ckpt acc t a) /\
                                   fa_ckh acc' t = fa_ckh acc t) /\
  (NoDup (tags new) -> chain (fa_ckpt acc') (fa_ckh acc') (fa_rat acc) head new) /\
  sources (fa_rat acc) new.
Proof.
  intros fl rat. induction l as [|s l IH]; intros prev head count acc Hh Hacc Hb Hok A R new acc'.
  { cbn in *. subst. repeat split; auto; intros; lia. }
  inversion Hok as [|? ? Hs Hl]; subst. clear Hok.
  subst A R new acc'. cbn [alloc_loop].
  destruct (s_valid s) eqn:V; [destruct (s_dest_en s) eqn:D|]; cbn [andb negb].
  - (* writes a register *)
    destruct (0 <? count) eqn:C.
    + (* allocated *)
      cbn [valid_loop]. rewrite V, D. cbn [andb negb rename_loop].
      set (A := alloc_loop fl (loop_inc (fa_head acc)) (count - 1) l).
      set (p := fl (fa_head acc)).
      set (r := Renamed true (s_dest_en s) (s_dest s) _ _ _ p _ _).
      cbn [fold_left].
      set (acc1 := fire_one true acc r).
      assert (F : fires true r = true) by reflexivity.
      assert (A1 : fa_rat acc1 = fupd (fa_rat acc) (s_dest s) p
                   /\ fa_head acc1 = loop_inc (fa_head acc)).
      { unfold acc1, fire_one. rewrite F. cbn [andb r_dest_en r]. rewrite D.
        destruct (r_branch r); cbn; auto. }
      destruct A1 as [A1 A2].
      assert (Hd : 1 <= s_dest s < RAT_NUM) by (apply Hs; auto).
      assert (Hb1 : forall a, bypass rat (prev ++ [(s, p)]) a = fa_rat acc1 a).
      { intros a. rewrite bypass_snoc, V, D, A1. cbn [negb orb].
        destruct (Nat.eqb_spec (s_dest s) 0); [lia|]. unfold fupd. rewrite Hb. auto. }
      assert (Hh1 : loop_inc (fa_head acc) < 64)
        by (rewrite loop_inc_mod by auto; apply mod_lt64).
      specialize (IH (prev ++ [(s, p)]) (loop_inc (fa_head acc)) (count - 1) acc1 Hh1 A2 Hb1 Hl).
      cbv zeta in IH. fold A in IH.
      set (R := rename_loop rat (prev ++ [(s, p)]) l A (valid_loop false l A)) in *.
      assert (OUT : out_of (s :: l) (r :: R) true = enters r s :: out_of l R true).
      { unfold out_of. cbn [combine filter snd]. rewrite F. reflexivity. }
      rewrite OUT. set (new := out_of l R true) in *. set (acc' := fold_left (fire_one true) R acc1) in *.
      set (e := enters r s) in *.
      assert (Ee : g_en e = true) by (cbn; auto).
      assert (Es : forall a, step_rat (fa_rat acc) e a = fa_rat acc1 a).
      { intros a. rewrite A1. unfold step_rat, fupd. rewrite Ee. cbn. auto. }
      destruct IH as (I1 & I2 & I3 & I4 & I5 & I6 & I7).
      apply Nat.ltb_lt in C. cbn [taken newest head_after]. rewrite Ee. cbn [length].
      split; [|split; [|split; [|split; [|split; [|split]]]]].
      * intros a. rewrite I1. apply newest_ext. intros x. rewrite <- Es. unfold step_rat. rewrite Ee. auto.
      * exact I2.
      * lia.
      * intros [|k] K; cbn [nth].
        -- rewrite Nat.add_0_r, Nat.mod_small by auto. reflexivity.
        -- rewrite <- I4 by lia. f_equal. rewrite loop_inc_mod by auto. rewrite mod_add_l. f_equal. lia.
      * intros t T. rewrite tags_cons in T.
        assert (T2 : ~ In t (tags new)) by (intro; apply T; apply in_or_app; auto).
        destruct (I5 t T2) as [J1 J2]. 
        assert (K : fa_ckpt acc1 t = fa_ckpt acc t /\ fa_ckh acc1 t = fa_ckh acc t).
        { unfold acc1, fire_one. rewrite F. cbn [andb r_dest_en r]. rewrite D.
          cbn [r_branch r]. destruct (s_branch s) eqn:Br; cbn [fa_ckpt fa_ckh]; auto.
          unfold fupd. cbn [r_tag r]. destruct (Nat.eqb_spec t (s_tag s)); auto.
          exfalso. apply T. apply in_or_app. left. unfold e, enters, r. cbn. try rewrite Br. left; auto. }
        destruct K as [K1 K2]. split; [intros; rewrite J1, K1; auto | rewrite J2; auto].
      * intros ND. rewrite tags_cons in ND. cbn [chain]. rewrite Ee.
        assert (ND2 : NoDup (tags new)) by (destruct (g_tag e); auto; inversion ND; auto).
        split; [|split].
        -- intros _. split; [exact Hd|]. unfold e, enters, r. cbn. apply Hb.
        -- intros t T. rewrite T in ND. cbn [app] in ND. inversion ND; subst.
           destruct (I5 t H1) as [J1 J2].
           assert (Br : s_branch s = true /\ t = s_tag s).
           { unfold e, enters, r in T. cbn in T. destruct (s_branch s); inversion T; auto. }
           destruct Br as [Br Tt].
           assert (K : fa_ckpt acc1 t = fa_rat acc1 /\ fa_ckh acc1 t = fa_head acc1).
           { unfold acc1, fire_one. rewrite F. cbn [andb r_dest_en r_branch r]. rewrite D, Br.
             cbn [fa_ckpt fa_ckh fa_rat fa_head]. unfold fupd. cbn [r_tag r]. subst t.
             rewrite Nat.eqb_refl. auto. }
           destruct K as [K1 K2]. split.
           ++ intros a. rewrite J1, K1. symmetry. apply Es.
           ++ rewrite J2, K2. exact A2.
        -- eapply chain_ext; [|apply I6; auto]. intros; symmetry; apply Es.
      * cbn [sources]. split; [|split].
        -- unfold e, enters, r. cbn. apply Hb.
        -- unfold e, enters, r. cbn. apply Hb.
        -- eapply sources_ext; [|exact I7]. intros; symmetry; apply Es.
    + (* no register left: stall *)
      cbn [valid_loop]. rewrite V, D. cbn [andb negb rename_loop].
      match goal with |- context[out_of (s :: l) (?x :: ?R)] => set (r := x); set (RR := R) end.
      assert (NF : Forall (fun r => fires true r = false) (r :: RR)).
      { constructor; [reflexivity|]. subst RR.
        eapply Forall_impl; [|apply rename_novalid, valid_stalled].
        intros x H. unfold fires. cbv beta in H. rewrite H. auto. }
      rewrite fold_nofire by auto. unfold out_of. rewrite filter_nofire by auto. cbn.
      repeat split; auto; intros; lia.
  - (* valid, writes nothing *)
    cbn [valid_loop]. rewrite V, D. cbn [andb negb rename_loop].
    set (A := alloc_loop fl (fa_head acc) count l).
    set (r := Renamed true (s_dest_en s) (s_dest s) _ _ _ 0 _ _).
    cbn [fold_left]. set (acc1 := fire_one true acc r).
    assert (F : fires true r = true) by reflexivity.
    assert (A1 : fa_rat acc1 = fa_rat acc /\ fa_head acc1 = fa_head acc).
    { unfold acc1, fire_one. rewrite F. cbn [andb r_dest_en r]. rewrite D.
      destruct (r_branch r); cbn; auto. }
    destruct A1 as [A1 A2].
    assert (Hb1 : forall a, bypass rat (prev ++ [(s, 0)]) a = fa_rat acc1 a).
    { intros a. rewrite bypass_snoc, V, D, A1. cbn [negb orb]. apply Hb. }
    specialize (IH (prev ++ [(s, 0)]) (fa_head acc) count acc1 Hh A2 Hb1 Hl).
    cbv zeta in IH. fold A in IH.
    set (R := rename_loop rat (prev ++ [(s, 0)]) l A (valid_loop false l A)) in *.
    assert (OUT : out_of (s :: l) (r :: R) true = enters r s :: out_of l R true).
    { unfold out_of. cbn [combine filter snd]. rewrite F. reflexivity. }
    rewrite OUT. set (new := out_of l R true) in *. set (acc' := fold_left (fire_one true) R acc1) in *.
    set (e := enters r s) in *.
    assert (Ee : g_en e = false) by (cbn; auto).
    assert (Es : forall a, step_rat (fa_rat acc) e a = fa_rat acc1 a).
    { intros a. rewrite A1. unfold step_rat. rewrite Ee. auto. }
    destruct IH as (I1 & I2 & I3 & I4 & I5 & I6 & I7).
    cbn [taken newest head_after]. rewrite Ee.
    split; [|split; [|split; [|split; [|split; [|split]]]]]; auto.
    * intros a. rewrite I1, A1. apply newest_ext. intros x. auto.
    * intros t T. rewrite tags_cons in T.
      assert (T2 : ~ In t (tags new)) by (intro; apply T; apply in_or_app; auto).
      destruct (I5 t T2) as [J1 J2]. 
      assert (K : fa_ckpt acc1 t = fa_ckpt acc t /\ fa_ckh acc1 t = fa_ckh acc t).
      { unfold acc1, fire_one. rewrite F. cbn [andb r_dest_en r]. rewrite D.
        cbn [r_branch r]. destruct (s_branch s) eqn:Br; cbn [fa_ckpt fa_ckh]; auto.
        unfold fupd. cbn [r_tag r]. destruct (Nat.eqb_spec t (s_tag s)); auto.
        exfalso. apply T. apply in_or_app. left. unfold e, enters, r. cbn. try rewrite Br. left; auto. }
      destruct K as [K1 K2]. split; [intros; rewrite J1, K1; auto | rewrite J2; auto].
    * intros ND. rewrite tags_cons in ND. cbn [chain]. rewrite Ee.
      assert (ND2 : NoDup (tags new)) by (destruct (g_tag e); auto; inversion ND; auto).
      split; [|split].
      -- discriminate.
      -- intros t T. rewrite T in ND. cbn [app] in ND. inversion ND; subst.
         destruct (I5 t H1) as [J1 J2].
         assert (Br : s_branch s = true /\ t = s_tag s).
         { unfold e, enters, r in T. cbn in T. destruct (s_branch s); inversion T; auto. }
         destruct Br as [Br Tt].
         assert (K : fa_ckpt acc1 t = fa_rat acc1 /\ fa_ckh acc1 t = fa_head acc1).
         { unfold acc1, fire_one. rewrite F. cbn [andb r_dest_en r_branch r]. rewrite D, Br.
           cbn [fa_ckpt fa_ckh fa_rat fa_head]. unfold fupd. cbn [r_tag r]. subst t.
           rewrite Nat.eqb_refl. auto. }
         destruct K as [K1 K2]. split.
         ++ intros a. rewrite J1, K1. symmetry. apply Es.
         ++ rewrite J2, K2. exact A2.
      -- eapply chain_ext; [|apply I6; auto]. intros; symmetry; apply Es.
    * cbn [sources]. split; [|split].
      -- unfold e, enters, r. cbn. apply Hb.
      -- unfold e, enters, r. cbn. apply Hb.
      -- eapply sources_ext; [|exact I7]. intros; symmetry; apply Es.
  - (* empty slot *)
    cbn [valid_loop]. rewrite V. cbn [andb negb rename_loop].
    set (A := alloc_loop fl (fa_head acc) count l).
    set (r := Renamed false (s_dest_en s) (s_dest s) _ _ _ 0 _ _).
    cbn [fold_left].
    assert (F : fires true r = false) by reflexivity.
    assert (A0 : fire_one true acc r = acc) by (unfold fire_one; rewrite F; auto).
    rewrite A0.
    assert (Hb1 : forall a, bypass rat (prev ++ [(s, 0)]) a = fa_rat acc a).
    { intros a. rewrite bypass_snoc, V. cbn [negb orb]. apply Hb. }
    specialize (IH (prev ++ [(s, 0)]) (fa_head acc) count acc Hh eq_refl Hb1 Hl).
    cbv zeta in IH. fold A in IH.
    set (R := rename_loop rat (prev ++ [(s, 0)]) l A (valid_loop false l A)) in *.
    assert (OUT : out_of (s :: l) (r :: R) true = out_of l R true).
    { unfold out_of. cbn [combine filter snd]. rewrite F. reflexivity. }
    rewrite OUT. exact IH.
Qed.

(** *** Invariant without the front half *)
Record pinv (arch fl : nat -> nat) (tail hc : nat) (ck : nat -> nat -> nat) (ckh : nat -> nat)
    (g : list gentry) : Prop := Pinv {
  p_hc : hc < 64;
  p_tail : tail = (hc + POOL) mod 64;
  p_cnt : length (taken g) <= POOL;
  p_ring : forall k, k < length (taken g) -> fl ((hc + k) mod 64) = nth k (taken g) 0;
  p_budget : budget arch fl hc;
  p_chain : chain ck ckh arch hc g;
  p_tags : NoDup (tags g);
  p_tagb : Forall (fun t => t < MAX_BR_NUM) (tags g)
}.

Lemma nodup_app_l : forall {A} (a b : list A), NoDup (a ++ b) -> NoDup a.
Proof. induction a; intros b H; constructor; inversion H; subst; [intro; apply H2, in_or_app; auto | eauto]. Qed.
Lemma pinv_prefix : forall arch fl tail hc ck ckh g1 g2,
  pinv arch fl tail hc ck ckh (g1 ++ g2) -> pinv arch fl tail hc ck ckh g1.
Proof.
  intros arch fl tail hc ck ckh g1 g2 []. rewrite taken_app, app_length in *.
  rewrite tags_app in *. constructor; auto.
  - lia.
  - intros k K. rewrite p_ring0 by lia. rewrite app_nth1; auto.
  - apply chain_app in p_chain0. tauto.
  - eapply nodup_app_l; eauto.
  - apply Forall_app in p_tagb0. tauto.
Qed.
Lemma pinv_untag : forall c arch fl tail hc ck ckh g,
  pinv arch fl tail hc ck ckh g -> pinv arch fl tail hc ck ckh (map (untag c) g).
Proof.
  intros c arch fl tail hc ck ckh g []. constructor; auto; try rewrite taken_untag; auto.
  - apply chain_untag; auto.
  - apply tags_untag_nodup; auto.
  - apply Forall_forall. intros t I. apply tags_untag_in in I.
    rewrite Forall_forall in p_tagb0. auto.
Qed.
Lemma head_after_lt : forall g hc, hc < 64 -> head_after hc g < 64.
Proof. intros. rewrite head_after_eq; auto using mod_lt64. Qed.
Lemma head_after_app : forall g1 g2 hc, head_after hc (g1 ++ g2) = head_after (head_after hc g1) g2.
Proof. induction g1; intros; cbn [head_after app]; auto. Qed.
Lemma head_after_untag : forall c g hc, head_after hc (map (untag c) g) = head_after hc g.
Proof.
  induction g as [|e g IH]; intros; cbn [map head_after]; auto.
  destruct (untag_fields c e) as (E1 & _). rewrite E1. auto.
Qed.

Lemma free_count : forall arch fl tail hc ck ckh g, pinv arch fl tail hc ck ckh g ->
  ring_distance (head_after hc g) tail = POOL - length (taken g).
Proof.
  intros arch fl tail hc ck ckh g []. rewrite head_after_eq by auto. subst tail.
  unfold ring_distance, PRF_NUM, POOL in *.
  set (n := length (taken g)) in *. clearbody n. clear - p_hc0 p_cnt0.
  destruct ((hc + 31) mod 64 <? (hc + n) mod 64) eqn:E; lia.
Qed.

Lemma nodup_app_disj : forall {A} (a b : list A) x, NoDup (a ++ b) -> In x a -> ~ In x b.
Proof.
  induction a; intros b x H I; [destruct I|]. inversion H; subst. destruct I; subst; eauto.
  intro. apply H2, in_or_app; auto.
Qed.
Lemma nodup_app_r : forall {A} (a b : list A), NoDup (a ++ b) -> NoDup b.
Proof. induction a; intros b H; auto. inversion H; eauto. Qed.

Lemma leaving_out_of : forall st i, leaving st i = out_of (inst st) (comb_rename st) (i_ready i).
Proof. reflexivity. Qed.

Lemma fires_notready : forall R, Forall (fun r => fires false r = false) R.
Proof. intros. apply Forall_forall. intros. unfold fires. apply andb_false_r. Qed.

Record inv (st : ren) (g : list gentry) : Prop := Inv {
  v_p : pinv (arch_rat st) (free_list st) (free_tail st) (free_head_commit st)
             (ckpt st) (ckpt_head st) g;
  v_head : free_head st = head_after (free_head_commit st) g;
  v_spec : forall a, spec_rat st a = newest (arch_rat st) g a;
  v_slots : Forall slot_ok (inst st)
}.

(** Effect of firing, for either value of ready. *)
Lemma fire_inv : forall st g i, inv st g ->
  let f := fire_loop st (i_ready i) in
  let new := leaving st i in
  (forall a, fa_rat f a = newest (spec_rat st) new a) /\
  fa_head f = head_after (free_head st) new /\
  length (taken new) <= POOL - length (taken g) /\
  (forall k, k < length (taken new) ->
     free_list st ((free_head st + k) mod 64) = nth k (taken new) 0) /\
  (forall t, ~ In t (tags new) -> (forall a, fa_ckpt f t a = ckpt st t a) /\
                                   fa_ckh f t = ckpt_head st t) /\
  (NoDup (tags new) -> chain (fa_ckpt f) (fa_ckh f) (spec_rat st) (free_head st) new) /\
  sources (spec_rat st) new.
Proof.
  intros st g i [] f new.
  assert (Hh : free_head st < 64).
  { rewrite v_head0. apply head_after_lt. apply (p_hc _ _ _ _ _ _ _ v_p0). }
  subst f new. unfold fire_loop. rewrite leaving_out_of. destruct (i_ready i).
  - rewrite <- (free_count _ _ _ _ _ _ _ v_p0). rewrite <- v_head0.
    pose proof (fire_main (free_list st) (spec_rat st) (inst st) [] (free_head st)
      (ring_distance (free_head st) (free_tail st))
      (FireAcc (spec_rat st) (free_head st) (ckpt st) (ckpt_head st)) Hh eq_refl
      (fun a => eq_refl) v_slots0) as H.
    exact H.
  - rewrite fold_nofire by apply fires_notready. unfold out_of.
    rewrite filter_nofire by apply fires_notready. cbn.
    repeat split; auto; intros; lia.
Qed.

Lemma pinv_append : forall st g i clear, inv st g ->
  NoDup (tags (map (untag clear) g) ++ tags (leaving st i)) ->
  Forall (fun t => t < MAX_BR_NUM) (tags (leaving st i)) ->
  let f := fire_loop st (i_ready i) in
  pinv (arch_rat st) (free_list st) (free_tail st) (free_head_commit st)
       (fa_ckpt f) (fa_ckh f) (map (untag clear) g ++ leaving st i).
Proof.
  intros st g i clear I ND TB f. pose proof (fire_inv st g i I) as F. cbv zeta in F.
  fold f in F. destruct F as (F1 & F2 & F3 & F4 & F5 & F6 & F7).
  destruct I as [P Hh Hs Hsl]. pose proof (pinv_untag clear _ _ _ _ _ _ _ P) as PU.
  destruct PU as [u1 u2 u3 u4 u5 u6 u7 u8]. rewrite taken_untag in *.
  pose proof (p_cnt _ _ _ _ _ _ _ P).
  constructor; auto; try rewrite taken_app, app_length, taken_untag; try rewrite tags_app; auto.
  - lia.
  - intros k K. destruct (Nat.lt_ge_cases k (length (taken g))).
    + rewrite app_nth1 by auto. auto.
    + rewrite app_nth2 by auto. rewrite <- F4 by lia. f_equal. rewrite Hh.
      rewrite head_after_eq by auto. rewrite mod_add_l. f_equal. lia.
  - apply chain_app. split.
    + eapply chain_frame; [|exact u6]. intros t I. apply F5.
      eapply nodup_app_disj; eauto.
    + eapply chain_ext with (f := spec_rat st).
      * intros a. rewrite Hs. symmetry. apply newest_untag.
      * rewrite head_after_untag, <- Hh. apply F6. eapply nodup_app_r; eauto.
  - apply Forall_app; auto.
Qed.

(** *** Retirement *)
Lemma commit_filter : forall intr l acc,
  fold_left (commit_one intr) l acc = fold_left (commit_one intr) (filter c_valid l) acc.
Proof.
  induction l as [|c l IH]; intros acc; cbn [fold_left filter]; auto.
  destruct (c_valid c) eqn:V; cbn [fold_left]; auto. rewrite IH.
  unfold commit_one at 2. rewrite V. auto.
Qed.
Lemma commit_main : forall cs done rest acc ck ckh,
  Forall (fun c => c_valid c = true) cs -> Forall (fun c => c_exc c = false) cs ->
  Forall2 reports cs done ->
  pinv (ca_arch acc) (ca_fl acc) (ca_tail acc) (ca_hc acc) ck ckh (done ++ rest) ->
  let acc' := fold_left (commit_one false) cs acc in
  pinv (ca_arch acc') (ca_fl acc') (ca_tail acc') (ca_hc acc') ck ckh rest /\
  (forall a, newest (ca_arch acc') rest a = newest (ca_arch acc) (done ++ rest) a) /\
  head_after (ca_hc acc') rest = head_after (ca_hc acc) (done ++ rest) /\
  (forall a, ca_arch acc' a = newest (ca_arch acc) done a).
Proof.
  induction cs as [|c cs IH]; intros done rest acc ck ckh V X R P acc'.
  { inversion R; subst. subst acc'. cbn in *. auto. }
  inversion R as [|? e ? done' Rc Rr]; subst. inversion V; subst. inversion X; subst.
  subst acc'. cbn [fold_left].
  destruct Rc as [Re Rf]. destruct P. cbn [app] in *.
  set (acc1 := commit_one false acc c).
  assert (A : pinv (ca_arch acc1) (ca_fl acc1) (ca_tail acc1) (ca_hc acc1) ck ckh (done' ++ rest)
    /\ (forall a, ca_arch acc1 a = step_rat (ca_arch acc) e a)
    /\ ca_hc acc1 = if g_en e then loop_inc (ca_hc acc) else ca_hc acc).
  { unfold acc1, commit_one. rewrite H1, H3, Re. cbn [andb negb].
    cbn [chain taken] in *. rewrite tags_cons in *.
    destruct p_chain0 as (C1 & C2 & C3).
    assert (T1 : NoDup (tags (done' ++ rest)) /\ Forall (fun t => t < MAX_BR_NUM) (tags (done' ++ rest))).
    { split; [eapply nodup_app_r; eauto | apply Forall_app in p_tagb0; tauto]. }
    destruct T1. destruct (g_en e) eqn:En; cbn [andb ca_arch ca_fl ca_tail ca_hc].
    - destruct (Rf eq_refl) as (R1 & R2 & R3). destruct (C1 eq_refl) as [D O].
      cbn [length] in *.
      assert (F0 : ca_fl acc (ca_hc acc) = g_preg e).
      { specialize (p_ring0 0). rewrite Nat.add_0_r, Nat.mod_small in p_ring0 by auto.
        rewrite p_ring0 by lia. reflexivity. }
      split; [|split]; auto.
      + constructor; auto.
        * rewrite loop_inc_mod by auto. apply mod_lt64.
        * rewrite p_tail0. rewrite !loop_inc_mod by auto using mod_lt64.
          rewrite !mod_add_l. f_equal. lia.
        * lia.
        * intros k K. unfold fupd. rewrite p_tail0, loop_inc_mod by auto.
          destruct (Nat.eqb_spec (((ca_hc acc + 1) mod 64 + k) mod 64) ((ca_hc acc + POOL) mod 64)).
          -- exfalso. rewrite mod_add_l in e0. unfold POOL in *. lia.
          -- rewrite mod_add_l. specialize (p_ring0 (S k)). cbn [nth] in p_ring0.
             rewrite <- p_ring0 by lia. do 2 f_equal. lia.
        * rewrite R1, R2, R3, O, <- F0, p_tail0. apply budget_commit; auto. tauto.
        * eapply chain_ext; [|exact C3]. intros a. unfold step_rat, fupd.
          rewrite En, R1, R2. cbn [andb]. auto.
      + intros a. unfold step_rat, fupd. rewrite En, R1, R2. cbn [andb]. auto.
    - split; [|split]; auto.
      + constructor; auto.
        eapply chain_ext; [|exact C3]. intros a. unfold step_rat. rewrite En. auto.
      + intros a. unfold step_rat. rewrite En. auto. }
  destruct A as (A1 & A2 & A3).
  specialize (IH done' rest acc1 ck ckh H2 H4 Rr A1). cbv zeta in IH.
  destruct IH as (I1 & I2 & I3 & I4). split; auto. split; [|split].
  - intros a. rewrite I2. rewrite newest_cons. apply newest_ext. auto.
  - rewrite I3, A3. reflexivity.
  - intros a. rewrite I4. rewrite newest_cons. apply newest_ext. auto.
Qed.
Lemma commit_trap : forall intr cs acc,
  Forall (fun c => c_exc c = true \/ intr = true) cs ->
  fold_left (commit_one intr) cs acc = acc.
Proof.
  induction cs as [|c cs IH]; intros acc H; cbn [fold_left]; auto. inversion H; subst.
  rewrite IH by auto. unfold commit_one. destruct H2 as [E|E]; rewrite E; cbn;
  rewrite ?andb_false_r; auto.
Qed.
Lemma reports_untag : forall clear c e, reports c e -> reports c (untag clear e).
Proof.
  intros clear c e [A B]. destruct (untag_fields clear e) as (E1 & E2 & E3 & E4 & _).
  unfold reports. rewrite E1, E2, E3, E4. auto.
Qed.
Lemma reports_map : forall clear cs d, Forall2 reports cs d ->
  Forall2 reports cs (map (untag clear) d).
Proof. induction 1; cbn [map]; constructor; auto using reports_untag. Qed.

(** *** Recovery *)
Lemma upto_tag_prefix : forall t g, exists post, g = upto_tag t g ++ post.
Proof.
  induction g as [|e g [post IH]]; cbn [upto_tag]; [exists []; auto|].
  destruct (g_tag e) as [u|].
  - destruct (u =? t); [exists g; auto|]. exists post. cbn [app]. f_equal. auto.
  - exists post. cbn [app]. f_equal. auto.
Qed.
Lemma upto_tag_chain : forall t g ck ckh arch hc,
  In t (tags g) -> chain ck ckh arch hc g ->
  (forall a, ck t a = newest arch (upto_tag t g) a) /\ ckh t = head_after hc (upto_tag t g).
Proof.
  induction g as [|e g IH]; intros ck ckh arch hc I C; [destruct I|].
  cbn [chain] in C. destruct C as (C1 & C2 & C3). rewrite tags_cons in I. cbn [upto_tag].
  destruct (g_tag e) as [u|] eqn:T.
  - destruct (Nat.eqb_spec u t).
    + subst u. destruct (C2 t eq_refl) as [D1 D2]. split; auto.
    + cbn [app In] in I. destruct I; [contradiction|].
      destruct (IH _ _ _ _ H C3) as [J1 J2]. split; auto.
  - destruct (IH _ _ _ _ I C3) as [J1 J2]. split; auto.
Qed.

Lemma pipeline_ok : forall st i, Forall slot_ok (inst st) -> Forall slot_ok (i_dec i) ->
  Forall slot_ok (comb_pipeline st i).
Proof.
  intros st i H D. unfold comb_pipeline.
  destruct (i_flush i || _).
  - apply Forall_forall. intros s I. apply in_map_iff in I. destruct I as (s' & E & _). subst.
    unfold slot_ok. cbn. discriminate.
  - destruct (ren_ready st i); auto. apply Forall_forall. intros s I. apply in_map_iff in I.
    destruct I as ([s' r] & E & I). subst. apply in_combine_l in I.
    rewrite Forall_forall in H. specialize (H _ I). unfold slot_ok in *. cbn [fst snd set_valid s_valid s_dest_en s_dest].
    intros V. apply andb_prop in V. apply H. tauto.
Qed.

Lemma inv_init : inv ren_init [].
Proof.
  constructor; cbn; auto. constructor; cbn; auto; try lia; try constructor.
  unfold budget. vm_compute. apply Permutation_refl.
Qed.

Lemma skipn_app_done : forall {A} (d r : list A), skipn (length d) (d ++ r) = r.
Proof. induction d; cbn; auto. Qed.

Lemma inv_step : forall st g i done clear, inv st g -> traffic_ok st g i done clear ->
  inv (ren_step st i) (g_step g i (leaving st i) done clear).
Proof.
  intros st g i done clear I ([rest Hg] & Hc & Hd & [ND TB] & Hm).
  pose proof (pinv_append st g i clear I ND TB) as PA. cbv zeta in PA.
  pose proof (fire_inv st g i I) as F. cbv zeta in F.
  destruct F as (F1 & F2 & F3 & F4 & F5 & F6 & F7).
  set (f := fire_loop st (i_ready i)) in *. set (new := leaving st i) in *.
  pose proof (pipeline_ok st i (v_slots _ _ I) Hd) as PO.
  (* what retirement leaves *)
  assert (CM : let c := commit_loop st i in
     (i_flush i = true \/ (i_interrupt i = false /\ Forall2 reports (committing i) done)) /\
     exists left, 
       (i_flush i = false -> left = rest) /\
       pinv (ca_arch c) (ca_fl c) (ca_tail c) (ca_hc c) (fa_ckpt f) (fa_ckh f)
            (map (untag clear) left ++ new) /\
       (forall a, newest (ca_arch c) (map (untag clear) left ++ new) a =
                  newest (arch_rat st) (g ++ new) a) /\
       head_after (ca_hc c) (map (untag clear) left ++ new) =
         head_after (free_head_commit st) (g ++ new)).
  { cbv zeta. unfold commit_loop. rewrite commit_filter. fold (committing i).
    destruct Hc as [(Hi & Hx & Hr)|(Hdone & Hfl & Hx)].
    - split; [right; auto|]. exists rest. split; auto.
      rewrite Hi. rewrite Hg, map_app, <- app_assoc in PA.
      assert (Va : Forall (fun c => c_valid c = true) (committing i)).
      { apply Forall_forall. intros c Ic. unfold committing in Ic. apply filter_In in Ic. tauto. }
      pose proof (commit_main (committing i) (map (untag clear) done) (map (untag clear) rest ++ new)
        (ComAcc (arch_rat st) (free_list st) (free_tail st) (free_head_commit st))
        _ _ Va Hx (reports_map clear _ _ Hr) PA) as CM. cbv zeta in CM.
      destruct CM as (M1 & M2 & M3 & M4). cbn [ca_arch ca_hc] in *. split; auto. split.
      + intros a. rewrite M2. rewrite app_assoc, <- map_app, <- Hg.
        rewrite !newest_app. apply newest_ext. intros; apply newest_untag.
      + rewrite M3. rewrite app_assoc, <- map_app, <- Hg.
        rewrite !head_after_app, head_after_untag. auto.
    - split; [left; auto|]. exists g. split; [congruence|].
      rewrite commit_trap by auto. cbn [ca_arch ca_fl ca_tail ca_hc]. split; auto. split.
      + intros a. rewrite !newest_app. apply newest_ext. intros; apply newest_untag.
      + rewrite !head_after_app, head_after_untag. auto. }
  cbv zeta in CM. destruct CM as [CM0 (lft & CM1 & CM2 & CM3 & CM4)].
  unfold ren_step, g_step. fold f. destruct (i_flush i) eqn:Fl.
  - constructor; cbn [arch_rat spec_rat free_list free_tail free_head free_head_commit ckpt ckpt_head inst]; auto.
    apply (pinv_prefix _ _ _ _ _ _ [] _ CM2).
  - specialize (CM1 eq_refl). subst lft.
    destruct CM0 as [|[Hi Hr]]; [discriminate|].
    destruct (i_mispred i) as [t|] eqn:Mi.
    + destruct Hm as (Ht & Hn & _).
      rewrite Hn in Hr. inversion Hr; subst done. cbn [app] in Hg. subst rest.
      assert (CL : commit_loop st i =
        ComAcc (arch_rat st) (free_list st) (free_tail st) (free_head_commit st)).
      { unfold commit_loop. rewrite commit_filter. fold (committing i). rewrite Hn. auto. }
      rewrite CL. cbn [ca_arch ca_fl ca_tail ca_hc].
      pose proof (v_p _ _ I) as P.
      destruct (upto_tag_chain t g _ _ _ _ Ht (p_chain _ _ _ _ _ _ _ P)) as [U1 U2].
      constructor; cbn [arch_rat spec_rat free_list free_tail free_head free_head_commit ckpt ckpt_head inst]; auto.
      * (* pinv *)
        destruct (upto_tag_prefix t g) as [post E].
        assert (Q : pinv (arch_rat st) (free_list st) (free_tail st) (free_head_commit st)
                     (fa_ckpt f) (fa_ckh f) (map (untag clear) (upto_tag t g))).
        { rewrite E, map_app, <- app_assoc in PA. eapply pinv_prefix; eauto. }
        apply (pinv_untag (fun u => u =? t)) in Q. rewrite map_map in Q.
        erewrite map_ext; [exact Q|]. intros e. unfold untag. 
        destruct (g_tag e) as [u|] eqn:T; cbn [orb].
        -- destruct (clear u); cbn [orb g_tag]; auto. rewrite T. destruct (u =? t); auto.
        -- rewrite T. auto.
      * rewrite U2. rewrite head_after_untag. auto.
      * intros a. rewrite U1. symmetry. apply newest_untag.
    + rewrite Hg at 1. rewrite skipn_app_done.
      constructor; cbn [arch_rat spec_rat free_list free_tail free_head free_head_commit ckpt ckpt_head inst]; auto.
      * rewrite F2, CM4, head_after_app. f_equal. apply (v_head _ _ I).
      * intros a. rewrite F1, CM3, newest_app. apply newest_ext. apply (v_spec _ _ I).
Qed.

Theorem reach_inv : forall st g, reach st g -> inv st g.
Proof. induction 1; auto using inv_init. apply inv_step; auto. Qed.

(** *** Consequences used by the property theorems *)
Lemma free_regs_ring : forall st g, inv st g ->
  free_regs st = ring (free_list st) (free_head st) (POOL - length (taken g)).
Proof.
  intros st g []. unfold free_regs. rewrite v_head0.
  rewrite (free_count _ _ _ _ _ _ _ v_p0). reflexivity.
Qed.
Lemma ring_taken : forall fl h l, (forall k, k < length l -> fl ((h + k) mod 64) = nth k l 0) ->
  ring fl h (length l) = l.
Proof.
  intros. apply nth_ext with (d := 0) (d' := 0); rewrite ring_length; auto.
  intros k K. unfold ring.
  rewrite nth_indep with (d' := fl ((h + 0) mod 64)) by (rewrite map_length, seq_length; auto).
  change (fl ((h + 0) mod 64)) with ((fun j => fl ((h + j) mod 64)) 0).
  rewrite map_nth. rewrite seq_nth by auto. apply H; auto.
Qed.
Lemma inv_pool : forall st g, inv st g ->
  ring (free_list st) (free_head_commit st) POOL = taken g ++ free_regs st.
Proof.
  intros st g I. rewrite (free_regs_ring st g I). destruct I. destruct v_p0.
  replace POOL with (length (taken g) + (POOL - length (taken g))) at 1 by lia.
  rewrite ring_app. f_equal.
  - apply ring_taken; auto.
  - rewrite v_head0, head_after_eq by auto. reflexivity.
Qed.
Lemma inv_partition : forall st g, inv st g ->
  Permutation (map (arch_rat st) (seq 0 RAT_NUM) ++ taken g ++ free_regs st) (seq 0 PRF_NUM).
Proof.
  intros st g I. rewrite <- (inv_pool st g I). exact (p_budget _ _ _ _ _ _ _ (v_p _ _ I)).
Qed.
Theorem register_partition : forall st g, reach st g ->
  Permutation (map (arch_rat st) (seq 0 RAT_NUM) ++ taken g ++ free_regs st) (seq 0 PRF_NUM).
Proof. intros. apply inv_partition, reach_inv; auto. Qed.

Lemma step_rat_perm : forall arch e X, g_en e = true -> g_dest e < RAT_NUM ->
  Permutation (map arch (seq 0 RAT_NUM) ++ g_preg e :: X)
              (map (step_rat arch e) (seq 0 RAT_NUM) ++ arch (g_dest e) :: X).
Proof.
  intros arch e X En D.
  assert (S33 : seq 0 RAT_NUM = seq 0 (g_dest e) ++ g_dest e :: seq (S (g_dest e)) (RAT_NUM - S (g_dest e))).
  { replace RAT_NUM with (g_dest e + S (RAT_NUM - S (g_dest e))) at 1 by (unfold RAT_NUM in *; lia).
    rewrite seq_app. reflexivity. }
  assert (Q : forall l, ~ In (g_dest e) l -> map (step_rat arch e) l = map arch l).
  { intros l N. apply map_ext_in. intros a I. unfold step_rat. rewrite En. cbn [andb].
    destruct (Nat.eqb_spec a (g_dest e)); auto. subst; contradiction. }
  rewrite S33, !map_app. cbn [map]. rewrite !Q by (rewrite in_seq; lia).
  unfold step_rat. rewrite En, Nat.eqb_refl. cbn [andb].
  rewrite <- !app_assoc. apply Permutation_app_head. cbn [app].
  set (C := map arch _). clear.
  transitivity (arch (g_dest e) :: g_preg e :: C ++ X).
  - apply perm_skip. symmetry. apply Permutation_middle.
  - rewrite perm_swap. apply perm_skip. apply Permutation_middle.
Qed.
Lemma newest_nodup : forall g ck ckh arch hc X, chain ck ckh arch hc g ->
  NoDup (map arch (seq 0 RAT_NUM) ++ taken g ++ X) ->
  NoDup (map (newest arch g) (seq 0 RAT_NUM) ++ X).
Proof.
  induction g as [|e g IH]; intros ck ckh arch hc X C H; auto.
  cbn [chain] in C. destruct C as (C1 & _ & C3). rewrite newest_cons. cbn [taken] in H.
  destruct (g_en e) eqn:En.
  - destruct (C1 eq_refl) as [D _].
    cbn [app] in H. eapply Permutation_NoDup in H; [|apply step_rat_perm; auto; tauto].
    specialize (IH _ _ _ _ (arch (g_dest e) :: X) C3).
    assert (N : NoDup (map (newest (step_rat arch e) g) (seq 0 RAT_NUM) ++ arch (g_dest e) :: X)).
    { apply IH. eapply Permutation_NoDup; [|exact H]. apply Permutation_app_head.
      apply Permutation_middle. }
    apply NoDup_remove_1 in N. auto.
  - eapply IH; eauto.
    erewrite map_ext; [exact H|]. intros a. unfold step_rat. rewrite En. auto.
Qed.
Theorem spec_table_no_alias : forall st g, reach st g ->
  NoDup (map (spec_rat st) (seq 0 RAT_NUM) ++ free_regs st).
Proof.
  intros st g R. pose proof (reach_inv _ _ R) as I.
  erewrite (map_ext (spec_rat st)) by (apply (v_spec _ _ I)).
  eapply newest_nodup; [apply (p_chain _ _ _ _ _ _ _ (v_p _ _ I))|].
  eapply Permutation_NoDup; [symmetry; apply inv_partition; auto | apply seq_NoDup].
Qed.

Lemma sources_nth : forall new rat k e, sources rat new -> nth_error new k = Some e ->
  snd (g_src1 e) = newest rat (firstn k new) (fst (g_src1 e)) /\
  snd (g_src2 e) = newest rat (firstn k new) (fst (g_src2 e)).
Proof.
  induction new as [|x new IH]; intros rat [|k] e S N; cbn [nth_error] in N; try discriminate.
  - inversion N; subst. cbn in S. tauto.
  - cbn [sources] in S. cbn [firstn]. rewrite newest_cons. apply IH; tauto.
Qed.
Theorem operands_name_newest : forall st g i k e, reach st g ->
  nth_error (leaving st i) k = Some e ->
  snd (g_src1 e) = newest (arch_rat st) (g ++ firstn k (leaving st i)) (fst (g_src1 e)) /\
  snd (g_src2 e) = newest (arch_rat st) (g ++ firstn k (leaving st i)) (fst (g_src2 e)).
Proof.
  intros st g i k e R N. pose proof (reach_inv _ _ R) as I.
  destruct (fire_inv st g i I) as (_ & _ & _ & _ & _ & _ & S).
  destruct (sources_nth _ _ _ _ S N) as [A B]. rewrite !newest_app.
  rewrite A, B. split; apply newest_ext; apply (v_spec _ _ I).
Qed.
(** leaving instructions take the first free registers, in order *)
Theorem destinations_fresh : forall st g i, reach st g ->
  exists rest, free_regs st = taken (leaving st i) ++ rest /\
  NoDup (taken (leaving st i)) /\
  (forall p, In p (taken (leaving st i)) ->
     ~ In p (taken g) /\ ~ In p (map (spec_rat st) (seq 0 RAT_NUM)) /\
     ~ In p (map (arch_rat st) (seq 0 RAT_NUM))).
Proof.
  intros st g i R. pose proof (reach_inv _ _ R) as I.
  destruct (fire_inv st g i I) as (_ & _ & F3 & F4 & _).
  rewrite (free_regs_ring st g I).
  set (n := length (taken (leaving st i))) in *.
  assert (E : ring (free_list st) (free_head st) (POOL - length (taken g)) =
    taken (leaving st i) ++ ring (free_list st) ((free_head st + n) mod 64) (POOL - length (taken g) - n)).
  { replace (POOL - length (taken g)) with (n + (POOL - length (taken g) - n)) at 1 by lia.
    rewrite ring_app. f_equal. unfold n. apply ring_taken. auto. }
  eexists. split; [exact E|].
  pose proof (register_partition st g R) as P.
  rewrite (free_regs_ring st g I), E in P.
  assert (N : NoDup (map (arch_rat st) (seq 0 RAT_NUM) ++ taken g ++ taken (leaving st i) ++
     ring (free_list st) ((free_head st + n) mod 64) (POOL - length (taken g) - n))).
  { eapply Permutation_NoDup; [symmetry; exact P | apply seq_NoDup]. }
  split.
  - apply nodup_app_r in N. apply nodup_app_r in N. apply nodup_app_l in N. auto.
  - intros p Ip. split; [|split].
    + intro J. apply nodup_app_r in N. eapply (nodup_app_disj _ _ p N J), in_or_app; auto.
    + intro J. pose proof (spec_table_no_alias st g R) as NS.
      apply (nodup_app_disj _ _ p NS J). rewrite (free_regs_ring st g I), E. apply in_or_app; auto.
    + intro J. apply (nodup_app_disj _ _ p N J). apply in_or_app; right. apply in_or_app; auto.
Qed.

(** *** No instruction is lost, duplicated or reordered at this stage *)
Lemma filter_map_setvalid : forall (pairs : list (dslot * renamed)) rdy,
  Forall (fun p => r_valid (snd p) = true -> s_valid (fst p) = true) pairs ->
  (exists pre post, pairs = pre ++ post /\
     Forall (fun p => s_valid (fst p) = r_valid (snd p)) pre /\
     Forall (fun p => r_valid (snd p) = false) post) ->
  exists n,
    map fst (filter (fun p => fires rdy (snd p)) pairs) =
      firstn n (filter s_valid (map fst pairs)) /\
    filter s_valid (map (fun p => set_valid (fst p) (s_valid (fst p) && negb (fires rdy (snd p)))) pairs)
      = skipn n (filter s_valid (map fst pairs)) /\
    (forallb (fun p => fires rdy (snd p) || negb (s_valid (fst p))) pairs = true ->
       n = length (filter s_valid (map fst pairs))).
Proof.
  intros pairs rdy H (pre & post & -> & Hpre & Hpost).
  assert (SV : forall s, set_valid s (s_valid s) = s) by (intros []; auto).
  destruct rdy.
  - exists (length (filter s_valid (map fst pre))).
    rewrite !map_app, !filter_app, !map_app.
    assert (P1 : map fst (filter (fun p => fires true (snd p)) pre) = filter s_valid (map fst pre)
      /\ filter s_valid (map (fun p => set_valid (fst p) (s_valid (fst p) && negb (fires true (snd p)))) pre) = []).
    { clear - Hpre. induction Hpre as [|[s r] l E]; cbn; auto. cbn in E. assert (F : fires true r = s_valid s) by (unfold fires; rewrite andb_true_r; auto). rewrite !F.
      destruct IHHpre as [A B]. destruct (s_valid s) eqn:V; cbn [map filter set_valid s_valid negb andb]; rewrite ?A, ?B; auto. }
    assert (P2 : map fst (filter (fun p => fires true (snd p)) post) = []
      /\ filter s_valid (map (fun p => set_valid (fst p) (s_valid (fst p) && negb (fires true (snd p)))) post) = filter s_valid (map fst post)
      /\ (forallb (fun p => fires true (snd p) || negb (s_valid (fst p))) post = true -> filter s_valid (map fst post) = [])).
    { clear - Hpost SV. induction Hpost as [|[s r] l E]; cbn; auto. cbn in E.
      destruct IHHpost as (A & B & C). assert (F : fires true r = false) by (unfold fires; rewrite E; auto). rewrite !F. cbn [andb negb].
      rewrite andb_true_r, SV. rewrite A, B. destruct (s_valid s) eqn:V; cbn [negb orb andb]; split; auto; split; auto; discriminate. }
    destruct P1 as [A B]. destruct P2 as (C & D & E). rewrite A, B, C, D. 
    rewrite app_nil_r. cbn [app]. rewrite firstn_app, Nat.sub_diag, firstn_all. cbn [firstn]. rewrite app_nil_r.
    rewrite skipn_app, Nat.sub_diag, skipn_all. cbn [skipn app]. split; auto. split; auto.
    rewrite forallb_app. intros X. apply andb_prop in X. rewrite E by tauto. rewrite app_nil_r. auto.
  - exists 0. clear Hpre Hpost H. cbn [firstn skipn].
    generalize (pre ++ post) as l. induction l as [|[s r] l (A & B & C)]; cbn; auto.
    assert (F : fires false r = false) by (unfold fires; apply andb_false_r). rewrite !F.
    cbn [negb]. rewrite andb_true_r, SV, A, B.
    destruct (s_valid s); cbn [orb negb andb]; split; auto; split; auto; discriminate.
Qed.

Lemma rename_shape : forall fl rat l prev head count,
  let A := alloc_loop fl head count l in
  let R := rename_loop rat prev l A (valid_loop false l A) in
  length R = length l /\
  Forall (fun p : dslot * renamed => r_valid (snd p) = true -> s_valid (fst p) = true) (combine l R) /\
  exists pre post, combine l R = pre ++ post /\
     Forall (fun p => s_valid (fst p) = r_valid (snd p)) pre /\
     Forall (fun p => r_valid (snd p) = false) post /\
     (length (filter (fun s => s_valid s && s_dest_en s) l) <= count -> post = []).
Proof.
  intros fl rat. induction l as [|s l IH]; intros prev head count A R.
  { subst A R. cbn. split; auto. split; auto. exists [], []. auto. }
  subst A R. cbn [alloc_loop].
  assert (LA : forall fl l h c, length (alloc_loop fl h c l) = length l).
  { clear. induction l; intros; cbn; auto. destruct (_ && _ && _); cbn; auto. }
  assert (LV : forall l b a, length a = length l -> length (valid_loop b l a) = length l).
  { clear. induction l; intros b [|[x y] r] E; cbn in *; auto; try lia.
    destruct (_ && _); cbn; [rewrite IHl; lia|]. destruct (_ && _); cbn; rewrite IHl; lia. }
  assert (LR : forall l rat prev a v, length a = length l -> length v = length l ->
     length (rename_loop rat prev l a v) = length l).
  { clear. induction l; intros rat prev [|[x y] r] [|v0 v] E1 E2; cbn in *; auto; try lia. }
  destruct (s_valid s && s_dest_en s) eqn:VD; cbn [andb].
  - destruct (0 <? count) eqn:C.
    + cbn [valid_loop]. rewrite VD. cbn [negb andb rename_loop combine].
      match goal with |- context[rename_loop rat ?p l ?a _] =>
        destruct (IH p (loop_inc head) (count - 1)) as (I1 & I2 & pre & post & I3 & I4 & I5 & I6) end.
      cbv zeta in *. split; [cbn; rewrite I1; auto|].
      apply andb_prop in VD. destruct VD as [V D].
      split; [constructor; auto|]. 
      eexists (_ :: pre), post. rewrite I3. split; [reflexivity|]. split; [constructor; auto|].
      split; auto. intros L. apply I6. cbn [filter] in L. rewrite V, D in L. cbn [andb length] in L. lia.
    + cbn [valid_loop]. rewrite VD. cbn [negb andb rename_loop combine].
      split; [cbn [length]; rewrite LR; auto; rewrite LV; auto|].
      apply andb_prop in VD. destruct VD as [V D].
      match goal with |- context[combine l ?R] => assert (NV : Forall (fun p => r_valid (snd p) = false) (combine l R)) end.
      { apply Forall_forall. intros [x y] I. apply in_combine_r in I.
        pose proof (rename_novalid l rat (prev ++ [(s, 0)]) (alloc_loop fl head count l) _
          (valid_stalled l (alloc_loop fl head count l))) as Q.
        rewrite Forall_forall in Q. apply Q; auto. }
      split.
      * constructor; auto. eapply Forall_impl; [|exact NV]. intros [x y] E. cbn in *. congruence.
      * eexists [], (_ :: _). split; [reflexivity|]. split; auto. split; [constructor; auto|].
        intros L. exfalso. cbn [filter] in L. rewrite V, D in L. cbn [andb length] in L.
        apply Nat.ltb_ge in C. lia.
  - cbn [valid_loop]. rewrite VD. cbn [andb].
    assert (X : exists b, b = s_valid s /\ 
      (if s_valid s && negb (s_dest_en s)
        then negb false :: valid_loop false l (alloc_loop fl head count l)
        else false :: valid_loop false l (alloc_loop fl head count l)) =
      b :: valid_loop false l (alloc_loop fl head count l)).
    { exists (s_valid s). split; auto. destruct (s_valid s), (s_dest_en s); auto. discriminate. }
    destruct X as (b & Eb & X). rewrite X. cbn [rename_loop combine].
    destruct (IH (prev ++ [(s, 0)]) head count) as (I1 & I2 & pre & post & I3 & I4 & I5 & I6).
    cbv zeta in *. split; [cbn; rewrite I1; auto|]. split.
    + constructor; auto. cbn. congruence.
    + eexists (_ :: pre), post. rewrite I3. split; [reflexivity|]. split; [constructor; auto|].
      split; auto. intros L. apply I6. cbn [filter] in L. rewrite VD in L. auto.
Qed.

Lemma map_fst_combine : forall {A B} (l : list A) (r : list B), length r = length l ->
  map fst (combine l r) = l.
Proof. induction l; intros [|y r] H; cbn in *; auto; try lia. f_equal. apply IHl. lia. Qed.

Theorem in_order_prefix : forall st i, i_flush i = false -> i_mispred i = None ->
  exists n,
    left_slots st i = firstn n (filter s_valid (inst st)) /\
    (inst (ren_step st i) = i_dec i /\ n = length (filter s_valid (inst st)) \/
     filter s_valid (inst (ren_step st i)) = skipn n (filter s_valid (inst st))).
Proof.
  intros st i Fl Mi.
  destruct (rename_shape (free_list st) (spec_rat st) (inst st) [] (free_head st)
    (ring_distance (free_head st) (free_tail st))) as (L & S1 & pre & post & S2 & S3 & S4 & _).
  cbv zeta in *. fold (comb_alloc st) in *. fold (ren_valid st) in *. fold (comb_rename st) in *.
  destruct (filter_map_setvalid (combine (inst st) (comb_rename st)) (i_ready i)) as (n & N1 & N2 & N3).
  { exact S1. } { exists pre, post. auto. }
  rewrite map_fst_combine in * by auto.
  exists n. split; [exact N1|]. unfold ren_step. rewrite Fl, Mi. cbn [inst].
  unfold comb_pipeline. rewrite Fl, Mi. cbn [orb]. destruct (ren_ready st i) eqn:RR.
  - left. split; auto. apply N3. unfold ren_ready in RR. apply andb_prop in RR. tauto.
  - right. exact N2.
Qed.

Theorem no_spurious_stall : forall st g i, reach st g -> i_ready i = true ->
  length (filter (fun s => s_valid s && s_dest_en s) (inst st)) <= length (free_regs st) ->
  left_slots st i = filter s_valid (inst st).
Proof.
  intros st g i R Rd L. pose proof (reach_inv _ _ R) as I.
  unfold free_regs in L. rewrite map_length, seq_length in L.
  destruct (rename_shape (free_list st) (spec_rat st) (inst st) [] (free_head st)
    (ring_distance (free_head st) (free_tail st))) as (Le & S1 & pre & post & S2 & S3 & S4 & S5).
  cbv zeta in *. fold (comb_alloc st) in *. fold (ren_valid st) in *. fold (comb_rename st) in *.
  specialize (S5 L). subst post. rewrite app_nil_r in S2.
  unfold left_slots. rewrite Rd. rewrite S2.
  rewrite <- (map_fst_combine (inst st) (comb_rename st) Le) at 1. rewrite S2.
  clear - S3. induction S3 as [|[s r] l E]; cbn; auto. cbn in E. unfold fires at 1. rewrite andb_true_r, <- E.
  destruct (s_valid s); cbn; rewrite IHS3; auto.
Qed.

(** *** Recovery theorems *)

Theorem mispredict_recovery : forall st g i done clear t, reach st g ->
  traffic_ok st g i done clear -> i_mispred i = Some t ->
  (forall a, spec_rat (ren_step st i) a = newest (arch_rat st) (upto_tag t g) a) /\
  (forall a, arch_rat (ren_step st i) a = arch_rat st a) /\
  (forall squashed, g = upto_tag t g ++ squashed ->
     free_regs (ren_step st i) = taken squashed ++ free_regs st) /\
  Forall (fun s => s_valid s = false) (inst (ren_step st i)).
Proof.
  intros st g i done clear t R T M. pose proof (reach_inv _ _ R) as I.
  pose proof (inv_step st g i done clear I T) as I'.
  destruct T as (_ & _ & _ & _ & Hm). rewrite M in Hm. destruct Hm as (Ht & Hn & Fl).
  unfold g_step in I'. rewrite Fl, M in I'.
  assert (CL : commit_loop st i =
        ComAcc (arch_rat st) (free_list st) (free_tail st) (free_head_commit st)).
  { unfold commit_loop. rewrite commit_filter. fold (committing i). rewrite Hn. auto. }
  destruct (upto_tag_chain t g _ _ _ _ Ht (p_chain _ _ _ _ _ _ _ (v_p _ _ I))) as [U1 U2].
  split; [|split; [|split]].
  - intros a. unfold ren_step. rewrite Fl, M. cbn. auto.
  - intros a. unfold ren_step. rewrite Fl, M, CL. cbn. auto.
  - intros sq E. pose proof (inv_pool _ _ I') as P'. pose proof (inv_pool _ _ I) as P.
    assert (Q1 : free_list (ren_step st i) = free_list st)
      by (unfold ren_step; rewrite Fl, M, CL; auto).
    assert (Q2 : free_head_commit (ren_step st i) = free_head_commit st)
      by (unfold ren_step; rewrite Fl, M, CL; auto).
    rewrite Q1, Q2, P in P'. rewrite taken_untag in P'. rewrite E, taken_app, <- app_assoc in P' at 1.
    apply app_inv_head in P'. auto.
  - unfold ren_step. rewrite Fl, M. cbn [inst]. unfold comb_pipeline. rewrite M, orb_true_r.
    apply Forall_forall. intros s J. apply in_map_iff in J. destruct J as (s' & <- & _). auto.
Qed.

Theorem retirement : forall st g i done clear, reach st g ->
  traffic_ok st g i done clear ->
  (forall a, arch_rat (ren_step st i) a = newest (arch_rat st) done a).
Proof.
  intros st g i done clear R T a. pose proof (reach_inv _ _ R) as I.
  destruct T as ([rest Hg] & Hc & _).
  assert (E : arch_rat (ren_step st i) = ca_arch (commit_loop st i)).
  { unfold ren_step. destruct (i_flush i); auto. destruct (i_mispred i); auto. }
  rewrite E. unfold commit_loop. rewrite commit_filter. fold (committing i).
  destruct Hc as [(Hi & Hx & Hr)|(Hdone & Hfl & Hx)].
  - rewrite Hi.
    assert (Va : Forall (fun c => c_valid c = true) (committing i)).
    { apply Forall_forall. intros c Ic. unfold committing in Ic. apply filter_In in Ic. tauto. }
    pose proof (v_p _ _ I) as P. rewrite Hg in P.
    exact (proj2 (proj2 (proj2 (commit_main (committing i) done rest
        (ComAcc (arch_rat st) (free_list st) (free_tail st) (free_head_commit st))
        _ _ Va Hx Hr P))) a).
  - subst done. rewrite commit_trap by auto. auto.
Qed.

Theorem flush_recovery : forall st g i done clear, reach st g ->
  traffic_ok st g i done clear -> i_flush i = true ->
  (forall a, spec_rat (ren_step st i) a = newest (arch_rat st) done a) /\
  Permutation (map (spec_rat (ren_step st i)) (seq 0 RAT_NUM) ++ free_regs (ren_step st i))
              (seq 0 PRF_NUM) /\
  Forall (fun s => s_valid s = false) (inst (ren_step st i)).
Proof.
  intros st g i done clear R T Fl.
  assert (E : spec_rat (ren_step st i) = arch_rat (ren_step st i))
    by (unfold ren_step; rewrite Fl; auto).
  split; [|split].
  - intros a. rewrite E. eapply retirement; eauto.
  - rewrite E. pose proof (register_partition _ _ (reach_step _ _ _ _ _ R T)) as P.
    unfold g_step in P. rewrite Fl in P. exact P.
  - unfold ren_step. rewrite Fl. cbn [inst]. unfold comb_pipeline. rewrite Fl. cbn [orb].
    apply Forall_forall. intros s J. apply in_map_iff in J. destruct J as (s' & <- & _). auto.
Qed.

(** *** The map a branch recovers to is fixed when it is renamed *)
Lemma upto_untag : forall c t l, c t = false ->
  upto_tag t (map (untag c) l) = map (untag c) (upto_tag t l).
Proof.
  induction l as [|e l IH]; intros C; cbn [map upto_tag]; auto.
  unfold untag at 1. destruct (g_tag e) as [u|] eqn:T.
  - destruct (c u) eqn:Cu; cbn [g_tag].
    + destruct (Nat.eqb_spec u t); [congruence|]. cbn [map]. rewrite IH; auto.
    + rewrite T. destruct (u =? t); cbn [map]; auto. rewrite IH; auto.
  - rewrite T. cbn [map]. rewrite IH; auto.
Qed.
Lemma tags_untag_clear : forall c g t, In t (tags (map (untag c) g)) -> c t = false.
Proof.
  intros c g t I. apply in_tags in I. destruct I as (e & I & T). apply in_map_iff in I.
  destruct I as (e' & E & I). subst. apply untag_tag in T. tauto.
Qed.
Lemma upto_app_in : forall t a b, In t (tags a) -> upto_tag t (a ++ b) = upto_tag t a.
Proof.
  induction a as [|e a IH]; intros b I; [destruct I|]. rewrite tags_cons in I. cbn [app upto_tag].
  destruct (g_tag e) as [u|]; cbn [app In] in I.
  - destruct (Nat.eqb_spec u t); auto. destruct I; [contradiction|]. rewrite IH; auto.
  - rewrite IH; auto.
Qed.
Lemma upto_app_notin : forall t a b, ~ In t (tags a) -> upto_tag t (a ++ b) = a ++ upto_tag t b.
Proof.
  induction a as [|e a IH]; intros b I; auto. rewrite tags_cons in I. cbn [app upto_tag].
  destruct (g_tag e) as [u|]; cbn [app In] in I.
  - destruct (Nat.eqb_spec u t); [exfalso; auto|]. rewrite IH; auto.
  - rewrite IH; auto.
Qed.
Theorem branch_map_stable : forall st g i done clear t, reach st g ->
  traffic_ok st g i done clear -> In t (tags g) -> ~ In t (tags (leaving st i)) ->
  let g' := g_step g i (leaving st i) done clear in
  In t (tags g') ->
  forall a, newest (arch_rat (ren_step st i)) (upto_tag t g') a =
            newest (arch_rat st) (upto_tag t g) a.
Proof.
  intros st g i done clear t R T It Nn g' It' a.
  pose proof (retirement st g i done clear R T) as RT.
  pose proof (reach_inv _ _ R) as I.
  pose proof (p_tags _ _ _ _ _ _ _ (v_p _ _ I)) as ND.
  rewrite (newest_ext _ _ _ RT).
  destruct T as ([rest Hg] & Hc & _ & _ & Hm). subst g'. unfold g_step in *.
  destruct (i_flush i) eqn:Fl; [destruct It'|]. destruct (i_mispred i) as [u|] eqn:Mi.
  - destruct Hm as (Hu & Hn & _).
    assert (D : done = []).
    { destruct Hc as [(_ & _ & Hr)|(D & _)]; auto. rewrite Hn in Hr. inversion Hr; auto. }
    rewrite D. cbn [newest].
    pose proof (tags_untag_clear _ _ _ It') as C. rewrite upto_untag by auto.
    rewrite newest_untag. apply tags_untag_in in It'.
    destruct (upto_tag_prefix u g) as [post E]. rewrite E at 2.
    rewrite upto_app_in; auto.
  - rewrite Hg in It' |- *. rewrite skipn_app_done in *.
    rewrite tags_app in It'. apply in_app_or in It'. destruct It' as [It'|]; [|contradiction].
    rewrite upto_app_in by auto.
    pose proof (tags_untag_clear _ _ _ It') as C. rewrite upto_untag by auto.
    rewrite newest_untag. apply tags_untag_in in It'.
    rewrite upto_app_notin, newest_app; auto.
    intro J. rewrite Hg, tags_app in ND. eapply nodup_app_disj; eauto.
Qed.
Theorem branch_map_at_rename : forall st g i done clear k e t, reach st g ->
  traffic_ok st g i done clear -> i_flush i = false -> i_mispred i = None ->
  nth_error (leaving st i) k = Some e -> g_tag e = Some t ->
  let g' := g_step g i (leaving st i) done clear in
  forall a, newest (arch_rat (ren_step st i)) (upto_tag t g') a =
            newest (spec_rat st) (firstn (S k) (leaving st i)) a.
Proof.
  intros st g i done clear k e t R T Fl Mi N Te g' a.
  pose proof (retirement st g i done clear R T) as RT.
  pose proof (reach_inv _ _ R) as I.
  destruct T as ([rest Hg] & Hc & _ & [ND _] & _). subst g'. unfold g_step.
  rewrite Fl, Mi. rewrite Hg at 1. rewrite skipn_app_done.
  rewrite (newest_ext _ _ _ RT).
  assert (Nt : ~ In t (tags (map (untag clear) rest))).
  { intro J. assert (In t (tags (leaving st i))).
    { apply in_tags. exists e. split; auto. eapply nth_error_In; eauto. }
    eapply (nodup_app_disj _ _ t ND); auto. rewrite Hg, map_app, tags_app.
    apply in_or_app; auto. }
  rewrite upto_app_notin by auto. rewrite newest_app.
  rewrite (newest_ext _ (newest (newest (arch_rat st) done) (map (untag clear) rest)) (spec_rat st)).
  2: { intros x. rewrite newest_untag, <- newest_app, <- Hg. symmetry. apply (v_spec _ _ I). }
  f_equal.
  apply nodup_app_r in ND. clear - ND N Te. revert k N ND.
  induction (leaving st i) as [|x l IH]; intros [|k] N ND; cbn [nth_error] in N; try discriminate.
  - inversion N; subst. cbn [upto_tag firstn]. rewrite Te, Nat.eqb_refl. auto.
  - cbn [upto_tag]. change (firstn (S (S k)) (x :: l)) with (x :: firstn (S k) l).
    rewrite tags_cons in ND. destruct (g_tag x) as [u|].
    + cbn [app] in ND. inversion ND; subst. destruct (Nat.eqb_spec u t).
      * exfalso. subst. apply H1. apply in_tags. exists e. split; auto. eapply nth_error_In; eauto.
      * rewrite (IH k); auto.
    + rewrite (IH k); auto.
Qed.
