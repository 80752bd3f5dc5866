(** Proofs about branch tags. *)
From Verif Require Import Base BaseLemmas IduModel IduSpec.
Local Open Scope nat_scope.
Ltac Zify.zify_post_hook ::= Z.div_mod_to_equations.

Definition tb (m : Z) (u : nat) : bool := Z.testbit m (Z.of_nat u).
Lemma tb_ldiff a b u : tb (Z.ldiff a b) u = tb a u && negb (tb b u).
Proof. apply Z.ldiff_spec. Qed.
Lemma tb_lor a b u : tb (Z.lor a b) u = tb a u || tb b u.
Proof. apply Z.lor_spec. Qed.
Lemma tb_one t u : tb (Z.shiftl 1 (Z.of_nat t)) u = (t =? u).
Proof.
  unfold tb. rewrite Z.shiftl_1_l, Z.pow2_bits_eqb by lia.
  destruct (Z.eqb_spec (Z.of_nat t) (Z.of_nat u)); destruct (Nat.eqb_spec t u); lia.
Qed.

(** *** Loops *)
Lemma clear_tags_gen c l : forall tv t,
  fold_left (fun tv i => if bit c i then fupd tv i true else tv) l tv t =
  tv t || (bit c t && existsb (Nat.eqb t) l).
Proof.
  induction l as [|i l IH]; intros tv t; cbn [fold_left existsb]; [rewrite andb_false_r, orb_false_r; reflexivity|].
  rewrite IH. unfold fupd. destruct (Nat.eqb_spec t i) as [->|N].
  - destruct (bit c i); [rewrite Nat.eqb_refl|]; cbn; rewrite ?orb_true_r; reflexivity.
  - destruct (bit c i); [destruct (Nat.eqb_spec t i); [contradiction|]|]; reflexivity.
Qed.
Lemma in_range t : existsb (Nat.eqb t) (seq 1 (NTAG - 1)) = (1 <=? t) && (t <? NTAG).
Proof.
  destruct (existsb (Nat.eqb t) (seq 1 (NTAG - 1))) eqn:E.
  - apply existsb_exists in E. destruct E as (x & X & E). apply in_seq in X. apply Nat.eqb_eq in E. unfold NTAG in *. lia.
  - symmetry. apply not_true_is_false. intros T. apply not_true_iff_false in E. apply E.
    apply existsb_exists. exists t. split; [apply in_seq; unfold NTAG in *; lia|apply Nat.eqb_refl].
Qed.
Lemma clear_tags_spec c tv t : clear_tags c tv t = tv t || (tb c t && (1 <=? t) && (t <? NTAG)).
Proof. unfold clear_tags. rewrite clear_tags_gen, in_range. rewrite andb_assoc. reflexivity. Qed.
Lemma clear_now_gen c l : forall n u,
  tb (fold_left (fun n i => if bit c i then Z.ldiff n (Z.shiftl 1 (Z.of_nat i)) else n) l n) u =
  tb n u && negb (bit c u && existsb (Nat.eqb u) l).
Proof.
  induction l as [|i l IH]; intros n u; cbn [fold_left existsb]; [rewrite andb_false_r, andb_true_r; reflexivity|].
  rewrite IH. destruct (bit c i) eqn:B.
  - rewrite tb_ldiff, tb_one. destruct (Nat.eqb_spec u i) as [->|N].
    + rewrite Nat.eqb_refl, B. cbn. rewrite andb_false_r. reflexivity.
    + destruct (Nat.eqb_spec i u); [congruence|]. cbn. rewrite andb_true_r. reflexivity.
  - destruct (Nat.eqb_spec u i) as [->|N]; [rewrite B|]; reflexivity.
Qed.
Lemma clear_now_spec c n u : tb (clear_now c n) u = tb n u && negb (tb c u && (1 <=? u) && (u <? NTAG)).
Proof. unfold clear_now. rewrite clear_now_gen, in_range, andb_assoc. reflexivity. Qed.
Lemma clear_cp_gen c l : forall cp t, NoDup l ->
  fold_left (fun cp i => fupd cp i (Z.ldiff (cp i) c)) l cp t = if existsb (Nat.eqb t) l then Z.ldiff (cp t) c else cp t.
Proof.
  induction l as [|i l IH]; intros cp t ND; cbn [fold_left existsb]; [reflexivity|].
  inversion ND; subst. rewrite IH by assumption. unfold fupd. destruct (Nat.eqb_spec t i) as [->|N]; cbn [orb]; [|reflexivity].
  destruct (existsb (Nat.eqb i) l) eqn:E; [|reflexivity].
  apply existsb_exists in E. destruct E as (x & X & E). apply Nat.eqb_eq in E. subst x. contradiction.
Qed.
Lemma clear_cp_spec c cp t u : 1 <= t < NTAG -> tb (clear_cp c cp t) u = tb (cp t) u && negb (tb c u).
Proof.
  intros R. unfold clear_cp. destruct (Z.eqb_spec c 0) as [->|N].
  - unfold tb at 3. rewrite Z.bits_0, andb_true_r. reflexivity.
  - rewrite clear_cp_gen by apply seq_NoDup. rewrite in_range.
    replace ((1 <=? t) && (t <? NTAG)) with true by lia. apply tb_ldiff.
Qed.

(** *** Lists *)
Lemma tags_app a b : tags (a ++ b) = tags a ++ tags b.
Proof. apply flat_map_app. Qed.
Definition tag1 (e : ginst) : list nat := match g_tag e with Some t => [t] | None => [] end.
Lemma tags_cons e l : tags (e :: l) = tag1 e ++ tags l.
Proof. reflexivity. Qed.
Lemma upto_prefix t g : exists r, g = upto_tag t g ++ r.
Proof.
  induction g as [|e g (r & IH)]; [exists []; reflexivity|]. cbn [upto_tag].
  destruct (match g_tag e with Some u => u =? t | None => false end); [exists g; reflexivity|].
  exists r. cbn. f_equal. exact IH.
Qed.
Lemma tags_resolve c g : tags (map (resolve c) g) = filter (fun t => negb (tb c t)) (tags g).
Proof.
  induction g as [|e g IH]; [reflexivity|]. cbn [map]. rewrite !tags_cons, filter_app, IH. f_equal.
  unfold tag1, resolve. cbn [g_tag]. destruct (g_tag e) as [t|]; [|reflexivity]. cbn [filter].
  unfold tb. destruct (Z.testbit c (Z.of_nat t)); reflexivity.
Qed.
Lemma NoDup_app_l {A} (a b : list A) : NoDup (a ++ b) -> NoDup a.
Proof. induction a as [|x a IH]; intros H; [constructor|]. inversion H; subst. constructor; [|auto]. intros X. apply H2. apply in_or_app. left. exact X. Qed.
Lemma NoDup_app_r {A} (a b : list A) : NoDup (a ++ b) -> NoDup b.
Proof. induction a as [|x a IH]; intros H; [exact H|]. inversion H; auto. Qed.
Lemma NoDup_app_disj {A} (a b : list A) x : NoDup (a ++ b) -> In x a -> ~ In x b.
Proof.
  induction a as [|y a IH]; intros H X J; [destruct X|]. inversion H as [|? ? N1 N2]; subst. destruct X as [->|X].
  - apply N1. apply in_or_app. right. exact J.
  - exact (IH N2 X J).
Qed.

(** Masks and checkpoints of a list whose older unresolved tags are [pre]. *)
Fixpoint masks (cp : nat -> Z) (pre : list nat) (g : list ginst) : Prop :=
  match g with
  | [] => True
  | e :: g' =>
      (forall u, tb (g_mask e) u = true <-> In u pre) /\
      (forall t, g_tag e = Some t -> forall u, tb (cp t) u = true <-> In u (pre ++ [t])) /\
      masks cp (pre ++ tag1 e) g'
  end.
Lemma masks_ext cp cp' g : forall pre pre',
  (forall u, In u pre <-> In u pre') ->
  (forall t, In t (tags g) -> forall u, tb (cp t) u = tb (cp' t) u) ->
  masks cp pre g -> masks cp' pre' g.
Proof.
  induction g as [|e g IH]; intros pre pre' E C M; [exact I|]. destruct M as (M1 & M2 & M3).
  split; [|split].
  - intros u. rewrite M1. apply E.
  - intros t T u. rewrite <- C by (rewrite tags_cons; unfold tag1; rewrite T; left; reflexivity).
    rewrite (M2 t T u), !in_app_iff. rewrite E. reflexivity.
  - apply (IH (pre ++ tag1 e)); [| |exact M3].
    + intros u. rewrite !in_app_iff, E. reflexivity.
    + intros t T. apply C. rewrite tags_cons. apply in_or_app. right. exact T.
Qed.
Lemma masks_app cp g h : forall pre, masks cp pre (g ++ h) <-> masks cp pre g /\ masks cp (pre ++ tags g) h.
Proof.
  induction g as [|e g IH]; intros pre.
  - cbn [app masks]. change (tags []) with (@nil nat). rewrite app_nil_r. tauto.
  - cbn [app masks]. rewrite IH, tags_cons, app_assoc. tauto.
Qed.
Lemma masks_resolve c cp cp' g : forall pre,
  (forall t, In t (tags g) -> forall u, tb (cp' t) u = tb (cp t) u && negb (tb c u)) ->
  masks cp pre g -> masks cp' (filter (fun t => negb (tb c t)) pre) (map (resolve c) g).
Proof.
  induction g as [|e g IH]; intros pre C M; [exact I|]. destruct M as (M1 & M2 & M3). cbn [map masks].
  split; [|split].
  - intros u. cbn [resolve g_mask]. rewrite tb_ldiff, andb_true_iff, M1, filter_In. reflexivity.
  - intros t T u. cbn [resolve g_tag] in T. destruct (g_tag e) as [t'|] eqn:TE; [|discriminate].
    fold (tb c t') in T. destruct (tb c t') eqn:B; [discriminate|]. injection T as <-.
    rewrite C by (rewrite tags_cons; unfold tag1; rewrite TE; left; reflexivity).
    rewrite andb_true_iff, (M2 _ eq_refl u), !in_app_iff, filter_In. cbn [In].
    split; [intros [[?|[<-|[]]] ?]; tauto|]. intros [[? ?]|[<-|[]]]; [tauto|].
    rewrite B. split; [right; left; reflexivity|reflexivity].
  - assert (TE : tag1 (resolve c e) = filter (fun t => negb (tb c t)) (tag1 e)).
    { unfold tag1, resolve. cbn [g_tag]. destruct (g_tag e) as [t|]; [|reflexivity]. cbn [filter].
      unfold tb. destruct (Z.testbit c (Z.of_nat t)); reflexivity. }
    rewrite TE, <- filter_app. apply IH; [|exact M3].
    intros t T. apply C. rewrite tags_cons. apply in_or_app. right. exact T.
Qed.

Record core (tv : nat -> bool) (now : Z) (cp : nat -> Z) (g : list ginst) : Prop := Core {
  c_nodup : NoDup (tags g);
  c_range : forall t, In t (tags g) -> 1 <= t < NTAG;
  c_free : forall t, t < NTAG -> (tv t = true <-> t <> 0 /\ ~ In t (tags g));
  c_now : forall u, tb now u = true <-> In u (tags g);
  c_masks : masks cp [] g
}.

Lemma core_resolve tv now cp g c : core tv now cp g ->
  (forall t, tb c t = true -> In t (tags g)) ->
  core (clear_tags c tv) (clear_now c now) (clear_cp c cp) (map (resolve c) g).
Proof.
  intros [N R F W M] S. constructor.
  - rewrite tags_resolve. apply NoDup_filter. exact N.
  - intros t. rewrite tags_resolve, filter_In. intros [T _]. auto.
  - intros t T. rewrite clear_tags_spec, tags_resolve, filter_In, orb_true_iff, (F t T).
    destruct (tb c t) eqn:B; cbn [negb andb].
    + specialize (R t (S t B)). replace ((1 <=? t) && (t <? NTAG)) with true by lia. split; [intros _|auto].
      split; [lia|]. intros [_ X]; discriminate.
    + split; [intros [?|?]; [tauto|discriminate]|]. intros [A X]. left. split; [exact A|]. intros Y. apply X. auto.
  - intros u. rewrite clear_now_spec, tags_resolve, filter_In, andb_true_iff, W.
    destruct (tb c u) eqn:B; cbn [negb andb].
    + specialize (R u (S u B)). replace ((1 <=? u) && (u <? NTAG)) with true by lia. cbn. intuition discriminate.
    + tauto.
  - apply (masks_resolve c cp _ g []); [|exact M]. intros t T u. apply clear_cp_spec. auto.
Qed.

Lemma core_skip tv now cp g k : core tv now cp g -> tags (firstn k g) = [] -> core tv now cp (skipn k g).
Proof.
  intros [N R F W M] E. pose proof (firstn_skipn k g) as S.
  assert (T : tags g = tags (skipn k g)).
  { rewrite <- S at 1. rewrite tags_app, E. reflexivity. }
  constructor; try (rewrite <- T; assumption).
  rewrite <- S in M. apply masks_app in M. destruct M as [_ M]. rewrite E in M. exact M.
Qed.

(** Mispredict: the younger branches disappear. *)
Lemma upto_cp cp g t : forall pre, NoDup (pre ++ tags g) -> masks cp pre g -> In t (tags g) ->
  forall u, tb (cp t) u = true <-> In u (pre ++ tags (upto_tag t g)).
Proof.
  induction g as [|e g IH]; intros pre ND M T u; [destruct T|]. destruct M as (M1 & M2 & M3).
  cbn [upto_tag]. rewrite tags_cons in T, ND. unfold tag1 in *. destruct (g_tag e) as [x|] eqn:TE.
  - destruct (Nat.eqb_spec x t) as [->|NE].
    + rewrite (M2 t eq_refl u). unfold tags. cbn [flat_map]. rewrite TE. cbn. reflexivity.
    + cbn in T. destruct T as [?|T]; [contradiction|].
      rewrite (IH (pre ++ [x])); [| |exact M3|exact T].
      * rewrite tags_cons. unfold tag1. rewrite TE, <- app_assoc. reflexivity.
      * rewrite <- app_assoc. exact ND.
  - cbn in T. rewrite (IH (pre ++ [])); [| |exact M3|exact T].
    + rewrite tags_cons. unfold tag1. rewrite TE, app_nil_r. reflexivity.
    + rewrite app_nil_r. exact ND.
Qed.
Lemma core_upto tv now cp g t tv' now' : core tv now cp g -> In t (tags g) ->
  (forall x, x < NTAG -> tv' x = tv x || (tb now x && negb (tb (cp t) x) && (1 <=? x) && (x <? NTAG))) ->
  (forall u, tb now' u = tb now u && negb (tb now u && negb (tb (cp t) u))) ->
  core tv' now' cp (upto_tag t g).
Proof.
  intros [N R F W M] T TV NW. destruct (upto_prefix t g) as (r & G).
  pose proof (upto_cp cp g t [] N M T) as CP. cbn [app] in CP.
  assert (SUB : forall u, In u (tags (upto_tag t g)) -> In u (tags g)).
  { intros u U. rewrite G, tags_app. apply in_or_app. left. exact U. }
  constructor.
  - rewrite G, tags_app in N. eapply NoDup_app_l. exact N.
  - auto.
  - intros x X. rewrite TV by exact X. rewrite orb_true_iff, (F x X).
    destruct (tb (cp t) x) eqn:B.
    + rewrite andb_false_r. pose proof (proj1 (CP x) B) as IX. cbn [andb]. split; [|tauto].
      intros [[? Y]|?]; [|discriminate]. exfalso. apply Y. auto.
    + assert (~ In x (tags (upto_tag t g))) by (intros Y; apply CP in Y; congruence).
      destruct (tb now x) eqn:B2.
      * pose proof (R x (proj1 (W x) B2)).
        replace (1 <=? x) with true by lia. replace (x <? NTAG) with true by lia.
        cbn [negb andb]. split; [intros _; split; [lia|assumption]|]. intros _. right. reflexivity.
      * cbn. assert (~ In x (tags g)) by (intros Y; apply W in Y; congruence). intuition discriminate.
  - intros u. rewrite NW. destruct (tb (cp t) u) eqn:B.
    + rewrite andb_false_r, andb_true_r. rewrite W. pose proof (proj1 (CP u) B). split; [tauto|auto].
    + assert (~ In u (tags (upto_tag t g))) by (intros Y; apply CP in Y; congruence).
      destruct (tb now u); cbn; split; intros; try discriminate; contradiction.
  - rewrite G in M. apply masks_app in M. apply M.
Qed.

(** Decode and fire. *)
Definition flat (out : list (option (option nat * Z))) : list (option nat * Z) :=
  flat_map (fun o => match o with Some x => [x] | None => [] end) out.
Definition tog (p : option nat * Z) : ginst := GInst (snd p) (fst p).
Lemma flat_stall {A} (ss : list A) : flat (map (fun _ => None) ss) = [].
Proof. induction ss; [reflexivity|]. cbn. assumption. Qed.
Lemma fire_stall (ss : list slot) ts tv now cp : fire_slots (map (fun _ => None) ss) ts tv now cp = (tv, now, cp).
Proof. induction ss; [reflexivity|]. cbn. assumption. Qed.

Lemma fire_core ss : forall ts running tv now cp g,
  core tv now cp g -> (forall u, tb running u = true <-> In u (tags g)) ->
  NoDup ts -> (forall t, In t ts -> 1 <= t < NTAG /\ tv t = true) ->
  let '(tv', now', cp') := fire_slots (decode_slots ss ts running) ts tv now cp in
  core tv' now' cp' (g ++ map tog (flat (decode_slots ss ts running))).
Proof.
  induction ss as [|s ss IH]; intros ts running tv now cp g C RU ND FR.
  - cbn. rewrite app_nil_r. exact C.
  - cbn [decode_slots]. destruct (sl_valid s).
    + destruct (sl_branch s).
      * destruct ts as [|t ts].
        -- rewrite fire_stall, (flat_stall (s :: ss)). cbn. rewrite app_nil_r. exact C.
        -- cbn [fire_slots flat flat_map app map].
           inversion ND as [|? ? NI ND']; subst.
           destruct (FR t (or_introl eq_refl)) as [Rt Ft].
           assert (NT : ~ In t (tags g)) by (apply (c_free _ _ _ _ C t); [lia|exact Ft]).
           specialize (IH ts (Z.lor running (Z.shiftl 1 (Z.of_nat t))) (fupd tv t false)
             (Z.lor now (Z.shiftl 1 (Z.of_nat t))) (fupd cp t (Z.lor now (Z.shiftl 1 (Z.of_nat t))))
             (g ++ [GInst running (Some t)])).
           assert (TG : tags (g ++ [GInst running (Some t)]) = tags g ++ [t]) by (rewrite tags_app; reflexivity).
           rewrite <- app_assoc in IH. cbn [app] in IH. apply IH; clear IH.
           ++ destruct C as [N R F W M]. constructor.
              ** rewrite TG. apply NoDup_rev in N. rewrite <- (rev_involutive (tags g ++ [t])), rev_app_distr.
                 apply NoDup_rev. cbn. constructor; [rewrite <- in_rev; exact NT|exact N].
              ** intros x. rewrite TG, in_app_iff. intros [X|[<-|[]]]; [auto|lia].
              ** intros x X. rewrite TG, in_app_iff. unfold fupd. cbn [In]. destruct (Nat.eqb_spec x t) as [->|NE].
                 --- split; [discriminate|]. intros [_ Y]. exfalso. apply Y. auto.
                 --- rewrite (F x X). split; [intros [? Y]; split; [assumption|]; intros [?|[?|[]]]; [tauto|congruence]|tauto].
              ** intros u. rewrite TG, in_app_iff, tb_lor, tb_one, orb_true_iff, W, Nat.eqb_eq. cbn [In]. tauto.
              ** apply masks_app. split.
                 --- apply (masks_ext cp _ g [] []); [reflexivity| |exact M]. intros x X u. unfold fupd.
                     destruct (Nat.eqb_spec x t) as [->|]; [contradiction|reflexivity].
                 --- cbn [app masks g_mask g_tag]. split; [exact RU|]. split; [|exact I].
                     intros x X u. injection X as <-. rewrite fupd_eq, tb_lor, tb_one, orb_true_iff, W, Nat.eqb_eq, in_app_iff.
                     cbn [In]. tauto.
           ++ intros u. rewrite TG, in_app_iff, tb_lor, tb_one, orb_true_iff, RU, Nat.eqb_eq. cbn [In]. tauto.
           ++ exact ND'.
           ++ intros x X. destruct (FR x (or_intror X)) as [Rx Fx]. split; [exact Rx|]. unfold fupd.
              destruct (Nat.eqb_spec x t) as [->|]; [contradiction|exact Fx].
      * cbn [fire_slots flat flat_map app map].
        specialize (IH ts running tv now cp (g ++ [GInst running None])).
        rewrite <- app_assoc in IH. cbn [app] in IH.
        assert (TG : tags (g ++ [GInst running None]) = tags g) by (rewrite tags_app; cbn; apply app_nil_r).
        apply IH; clear IH; auto.
        -- destruct C as [N R F W M]. constructor; rewrite ?TG; auto.
           apply masks_app. split; [exact M|]. cbn. split; [exact RU|]. split; [discriminate|exact I].
        -- rewrite TG. exact RU.
    + cbn [fire_slots flat flat_map app map]. apply IH; assumption.
Qed.

Lemma alloc_in st t : In t (alloc_tags st) -> t < NTAG /\ tag_vec st t = true.
Proof.
  unfold alloc_tags. intros H.
  assert (X : In t (filter (tag_vec st) (seq 0 NTAG))).
  { rewrite <- (firstn_skipn MAXBR). apply in_or_app. left. exact H. }
  apply filter_In in X. destruct X as [X1 X2]. apply in_seq in X1. split; [lia|exact X2].
Qed.
Lemma alloc_nodup st : NoDup (alloc_tags st).
Proof.
  unfold alloc_tags.
  assert (N : NoDup (filter (tag_vec st) (seq 0 NTAG))) by (apply NoDup_filter, seq_NoDup).
  rewrite <- (firstn_skipn MAXBR) in N. eapply NoDup_app_l. exact N.
Qed.

Definition inv (st : idu) (g : list ginst) : Prop :=
  core (tag_vec st) (now_br_mask st) (br_mask_cp st) g /\ latch_ok (br_latch st) g.

Lemma inv_init : inv idu_init [].
Proof.
  split; [constructor|].
  - constructor.
  - intros t [].
  - intros t _. cbn. destruct (Nat.eqb_spec t 0); cbn; split; intros; try discriminate; try tauto; lia.
  - intros u. unfold tb. cbn. rewrite Z.bits_0. split; [discriminate|intros []].
  - exact I.
  - split; [cbn; lia|]. split; [|discriminate]. intros t. cbn. rewrite Z.bits_0. discriminate.
Qed.

Lemma inv_step st g i k : inv st g -> commit_ok g st k ->
  (i_flush i = false -> latch_ok (i_exu i) (g_step g st i k)) ->
  inv (idu_step st i) (g_step g st i k).
Proof.
  intros [C (L0 & L1 & L2)] K LK. unfold idu_step, g_step in *.
  destruct (i_flush i) eqn:FL.
  - split; [constructor|]; cbn [tag_vec now_br_mask br_mask_cp br_latch].
    + constructor.
    + intros t [].
    + intros t T. destruct (Nat.eqb_spec t 0) as [->|]; [split; [discriminate|tauto]|].
      replace (t <? NTAG) with true by lia. split; [intros _; split; [assumption|intros []]|reflexivity].
    + intros u. unfold tb. rewrite Z.bits_0. split; [discriminate|intros []].
    + exact I.
    + split; [cbn; lia|]. split; [|discriminate]. intros t. cbn. rewrite Z.bits_0. discriminate.
  - specialize (LK eq_refl). unfold commit_ok in K.
    destruct (l_mispred (br_latch st)) eqn:MP.
    + specialize (L2 eq_refl). pose proof (L1 _ L2) as TI. fold (tb (l_clear (br_latch st)) (l_id (br_latch st))) in L2.
      assert (FI : fired st i = []) by (unfold fired; rewrite FL, MP; reflexivity).
      rewrite FI in *. cbn [map app] in *. rewrite app_nil_r in *.
      split; [|exact LK]. cbn [tag_vec now_br_mask br_mask_cp].
      apply core_skip; [|exact K].
      set (c := l_clear (br_latch st)) in *. set (b := l_id (br_latch st)) in *.
      set (free := Z.ldiff (now_br_mask st) (br_mask_cp st b)).
      (* truncate first, then resolve *)
      assert (C1 : core (clear_tags free (tag_vec st)) (Z.ldiff (now_br_mask st) free) (br_mask_cp st) (upto_tag b g)).
      { apply (core_upto _ _ _ _ _ _ _ C TI).
        - intros x X. rewrite clear_tags_spec. unfold free. rewrite tb_ldiff. reflexivity.
        - intros u. unfold free. rewrite !tb_ldiff. reflexivity. }
      pose proof (upto_cp (br_mask_cp st) g b [] (c_nodup _ _ _ _ C) (c_masks _ _ _ _ C) TI) as CP. cbn [app] in CP.
      (* resolving tags outside the kept part has no effect *)
      destruct C as [N R F W M]. destruct C1 as [N1 R1 F1 W1 M1].
      constructor.
      * rewrite tags_resolve. apply NoDup_filter. exact N1.
      * intros t. rewrite tags_resolve, filter_In. intros [T _]. auto.
      * intros t T. specialize (F1 t T). rewrite clear_tags_spec in F1. rewrite !clear_tags_spec, tags_resolve, filter_In.
        destruct (tb c t) eqn:B; cbn [negb andb orb].
        -- specialize (R t (L1 t B)). replace ((1 <=? t) && (t <? NTAG)) with true by lia.
           rewrite orb_true_r. cbn. split; [|reflexivity]. intros _. split; [lia|]. intros [_ X]; discriminate.
        -- rewrite orb_false_r. rewrite F1. split; intros [A X]; (split; [exact A|]); [tauto|]. intros Y. apply X. auto.
      * intros u. specialize (W1 u). rewrite tb_ldiff in W1. rewrite tb_ldiff, clear_now_spec, tags_resolve, filter_In.
        rewrite <- W1. destruct (tb c u) eqn:B; cbn [negb andb].
        -- specialize (R u (L1 u B)). replace ((1 <=? u) && (u <? NTAG)) with true by lia. cbn.
           rewrite !andb_false_r. cbn. intuition discriminate.
        -- rewrite andb_true_r. tauto.
      * apply (masks_resolve c (br_mask_cp st) _ _ []); [|exact M1]. intros t T u. apply clear_cp_spec. auto.
    + assert (C1 := core_resolve _ _ _ _ (l_clear (br_latch st)) C L1).
      assert (C2 := core_skip _ _ _ _ k C1 K). clear C1.
      destruct (i_ready i) eqn:RD.
      * assert (FI : fired st i = flat (dec_out st i)) by (unfold fired; rewrite FL, MP, RD; reflexivity).
        rewrite FI in *.
        assert (A : forall t, In t (alloc_tags st) -> 1 <= t < NTAG /\ clear_tags (l_clear (br_latch st)) (tag_vec st) t = true).
        { intros t T. destruct (alloc_in st t T) as [T1 T2]. rewrite clear_tags_spec, T2. split; [|reflexivity].
          apply (c_free _ _ _ _ C t T1) in T2. lia. }
        assert (RU : forall u, tb (Z.ldiff (now_br_mask st) (l_clear (br_latch st))) u = true <->
            In u (tags (skipn k (map (resolve (l_clear (br_latch st))) g)))).
        { intros u. pose proof (c_now _ _ _ _ C2 u) as W2. rewrite clear_now_spec in W2. rewrite tb_ldiff. rewrite <- W2.
          destruct (tb (l_clear (br_latch st)) u) eqn:B; cbn [negb andb]; [|tauto].
          pose proof (c_range _ _ _ _ C u (L1 u B)). replace ((1 <=? u) && (u <? NTAG)) with true by lia. cbn. tauto. }
        pose proof (fire_core (i_slots i) _ _ _ _ _ _ C2 RU (alloc_nodup st) A) as FC.
        fold (dec_out st i) in FC.
        destruct (fire_slots (dec_out st i) (alloc_tags st) (clear_tags (l_clear (br_latch st)) (tag_vec st))
                   (clear_now (l_clear (br_latch st)) (now_br_mask st)) (clear_cp (l_clear (br_latch st)) (br_mask_cp st)))
          as [[tv now] cp]. split; [exact FC|exact LK].
      * assert (FI : fired st i = []) by (unfold fired; rewrite FL, MP, RD; reflexivity).
        rewrite FI in *. cbn [map] in *. rewrite app_nil_r in *. split; [exact C2|exact LK].
Qed.

Lemma reach_inv st g : reach st g -> inv st g.
Proof.
  intros H. induction H as [|st g i k H IH K LK]; [apply inv_init|]. apply inv_step; assumption.
Qed.
