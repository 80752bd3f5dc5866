From Verif Require Import Base BaseLemmas ExuModel ExuSpec ExuProofs WakeModel WakeSpec.
From Coq Require Import Permutation.
Local Open Scope nat_scope.

(** Pending announcements: cycles to go, entry. *)
Fixpoint pipe_pend (st : list (option went)) : list (nat * went) :=
  match st with
  | [] => []
  | o :: st' => match o with Some e => [(length st', e)] | None => [] end ++ pipe_pend st'
  end.
Definition pend (s : tst) : list (nat * went) :=
  match s with TNone => [] | TPipe st => pipe_pend st | TIter o => opt_list o end.
Definition ent (x : item) : option went := option_map (fun p => Went p (x_mask x)) (dest (x_u x)).

Lemma pipe_pend_lt st n e : In (n, e) (pipe_pend st) -> n < length st.
Proof.
  induction st as [|o st IH]; intros H; [destruct H|]. cbn in *. apply in_app_or in H. destruct H as [H|H]; [|specialize (IH H); lia].
  destruct o; [|destruct H]. destruct H as [H|[]]. injection H as <- <-. lia.
Qed.
Lemma pipe_pend_removelast st n e : In (n, e) (pipe_pend (removelast st)) <-> In (S n, e) (pipe_pend st).
Proof.
  induction st as [|o st IH]; [reflexivity|]. destruct st as [|o' st].
  - cbn. destruct o as [w|]; cbn; [|tauto]. split; [tauto|]. intros [H|[]]. discriminate.
  - change (removelast (o :: o' :: st)) with (o :: removelast (o' :: st)). cbn [pipe_pend].
    rewrite !in_app_iff, IH. cbn [pipe_pend]. rewrite in_app_iff.
    assert (E : length (removelast (o' :: st)) = length st).
    { clear. revert o'. induction st as [|a st IH]; intros o'; [reflexivity|]. change (removelast (o' :: a :: st)) with (o' :: removelast (a :: st)). cbn [length]. now rewrite IH. }
    rewrite E. cbn [length]. destruct o as [w|]; [|tauto]. cbn [In].
    assert (X : (length st, w) = (n, e) <-> (S (length st), w) = (S n, e)) by (split; congruence). tauto.
Qed.
Lemma removelast_len {A} (l : list A) : length (removelast l) = length l - 1.
Proof. induction l as [|a [|b l] IH]; [reflexivity|reflexivity|]. change (removelast (a :: b :: l)) with (a :: removelast (b :: l)). cbn [length] in *. rewrite IH. cbn. lia. Qed.
Lemma pipe_pend_sweep c st n e : In (n, e) (pipe_pend (map (fun o => obind o (sweep c)) st)) <-> exists e0, In (n, e0) (pipe_pend st) /\ sweep c e0 = Some e.
Proof.
  induction st as [|o st IH]; cbn [map pipe_pend]; [split; [intros []|intros (? & [] & _)]|]. rewrite in_app_iff, IH, map_length. split.
  - intros [H|(e0 & H1 & H2)]; [|exists e0; rewrite in_app_iff; auto]. destruct o as [w|]; [|destruct H]. cbn [obind] in H. destruct (sweep c w) eqn:E; [|destruct H].
    destruct H as [H|[]]. injection H as <- <-. exists w. split; [now left|exact E].
  - intros (e0 & H1 & H2). apply in_app_iff in H1. destruct H1 as [H1|H1]; [|right; eauto]. left. destruct o as [w|]; [|destruct H1].
    destruct H1 as [H1|[]]. injection H1 as <- <-. cbn [obind]. rewrite H2. now left.
Qed.
Lemma pend_tflush c s n e : In (n, e) (pend (tflush c s)) <-> exists e0, In (n, e0) (pend s) /\ sweep c e0 = Some e.
Proof.
  destruct s as [|st|[[m w]|]]; cbn [tflush pend]; [split; [intros []|intros (? & [] & _)]|apply pipe_pend_sweep| |split; [intros []|intros (? & [] & _)]].
  cbn [obind fst snd]. destruct (sweep c w) as [w'|] eqn:E; cbn [option_map opt_list In]; split.
  - intros [H|[]]. injection H as <- <-. exists w. auto.
  - intros (e0 & [H|[]] & S). injection H as <- <-. rewrite E in S. injection S as <-. auto.
  - intros [].
  - intros (e0 & [H|[]] & S). injection H as <- <-. congruence.
Qed.
Lemma fires_pend t p : fires t = Some p <-> exists e, In (0, e) (pend (k_st t)) /\ g_preg e = p.
Proof.
  unfold fires, pend. destruct (k_st t) as [|st|[[n w]|]].
  - split; [discriminate|intros (? & [] & _)].
  - induction st as [|o st IH]; [split; [discriminate|intros (? & [] & _)]|]. destruct st as [|o' st].
    + cbn. destruct o as [w|]; cbn; split; try discriminate.
      * intros H. injection H as <-. exists w. auto.
      * intros (e & [H|[]] & <-). injection H as <-. reflexivity.
      * intros (? & [] & _).
    + change (last (o :: o' :: st) None) with (last (o' :: st) None). rewrite IH. cbn [pipe_pend length]. split; intros (e & H & P); exists e; (split; [|exact P]).
      * apply in_or_app. now right.
      * apply in_app_or in H. destruct H as [H|H]; [|exact H]. destruct o; [|destruct H]. destruct H as [H|[]]. discriminate.
  - destruct n as [|n]; cbn; split; try discriminate.
    + intros H. injection H as <-. eauto.
    + intros (e & [H|[]] & <-). injection H as <-. reflexivity.
    + intros (e & [H|[]] & _). discriminate.
  - split; [discriminate|intros (? & [] & _)].
Qed.

Definition new_for (t : trk) (iss : option einst) (n : nat) (e : went) : Prop :=
  exists u, iss = Some u /\ e_op u = k_op t /\ 1 < isu_lat (e_op u) (e_fn u) /\ new_ent u = Some e /\ n = isu_lat (e_op u) (e_fn u).
Lemma calc_new t iss : exists o, (forall n e, o = Some (n, e) <-> new_for t iss n e) /\
  calc iss t = match k_st t with
    | TNone => TNone
    | TPipe st => TPipe (option_map snd o :: removelast st)
    | TIter q => let nxt := match q with Some (S n, e) => Some (n, e) | _ => None end in
                 TIter (match nxt, o with None, Some (lat, e) => Some (lat - 1, e) | _, _ => nxt end) end.
Proof.
  eexists. split; [|unfold calc; reflexivity]. intros n e. unfold new_for. destruct iss as [u|]; [|split; [discriminate|intros (? & H & _); discriminate]].
  destruct (Nat.eqb_spec (e_op u) (k_op t)) as [E|E]; cbn [andb].
  - destruct (Nat.ltb_spec 1 (isu_lat (e_op u) (e_fn u))) as [L|L].
    + destruct (new_ent u) as [w|] eqn:NE; cbn [option_map]; split; try discriminate.
      * intros H. injection H as <- <-. exists u. repeat split; auto.
      * intros (v & H & _ & _ & Hw & ->). injection H as <-. congruence.
      * intros (v & H & _ & _ & Hw & _). injection H as <-. congruence.
    + split; [discriminate|]. intros (v & H & _ & L' & _). injection H as <-. lia.
  - split; [discriminate|]. intros (v & H & E' & _). injection H as <-. contradiction.
Qed.

Definition shape (f : fu) (t : trk) : Prop :=
  (forall op, f_ops f op = (op =? k_op t)) /\
  match f_kind f, k_st t with
  | KSingle, TNone => forall fn, isu_lat (k_op t) fn <= 1
  | KFixed L, TPipe st => 2 <= L /\ length st = L - 1 /\ forall fn, isu_lat (k_op t) fn = L
  | KIter lat, TIter o => forall fn, isu_lat (k_op t) fn = lat fn /\ 2 <= lat fn
  | _, _ => False
  end.
Definition agree (now : nat) (f : fu) (l : list item) (t : trk) : Prop :=
  shape f t /\ forall n e, In (n, e) (pend (k_st t)) <-> exists x, In x l /\ ent x = Some e /\ due_at (f_kind f) x = now + n + 1.

Record jinv (now : nat) (fs : list fu) (ts : list trk) (h : hist) : Prop := Jinv {
  j_inv : inv now fs h;
  j_len : length ts = length fs;
  j_agree : forall k f l t, nth_error fs k = Some f -> nth_error (live h) k = Some l -> nth_error ts k = Some t -> agree now f l t
}.

Lemma nth_unique {A} (g : A -> nat) (ls : list (list A)) : NoDup (map g (concat ls)) -> forall k j l m x y,
  nth_error ls k = Some l -> nth_error ls j = Some m -> In x l -> In y m -> g x = g y -> k = j /\ x = y.
Proof.
  induction ls as [|a ls IH]; intros N k j l m x y K J X Y E; [destruct k; discriminate|]. cbn in N. rewrite map_app in N.
  assert (Disj : forall i q z w, nth_error ls i = Some q -> In z q -> In w a -> g w = g z -> False).
  { intros i q z w I Z W G. eapply NoDup_app_disj; [exact N|apply in_map, W|]. rewrite G. apply in_map. eapply in_concat_nth; eauto. }
  destruct k as [|k], j as [|j]; cbn in K, J.
  - injection K as ->. injection J as ->. split; [reflexivity|]. apply NoDup_app_l in N. clear -N X Y E.
    induction m as [|b m IH]; [destruct X|]. cbn in N. inversion N as [|? ? NI N']; subst. destruct X as [->|X], Y as [->|Y]; auto.
    + exfalso. apply NI. rewrite E. now apply in_map.
    + exfalso. apply NI. rewrite <- E. now apply in_map.
  - injection K as ->. exfalso. exact (Disj j m y x J Y X E).
  - injection J as ->. exfalso. exact (Disj k l x y K X Y (eq_sym E)).
  - apply NoDup_app_r in N. destruct (IH N k j l m x y K J X Y E). auto.
Qed.

Lemma ent_resolve m x e : ent x = Some e -> ent (resolve m x) = Some (Went (g_preg e) (Z.ldiff (g_mask e) m)).
Proof.
  unfold ent. cbn [resolve x_u]. destruct (dest (x_u x)); [|discriminate]. cbn. intros H. injection H as <-. cbn.
  unfold x_mask. cbn. now rewrite fold_left_app.
Qed.
Lemma ent_resolve_inv m x e : ent (resolve m x) = Some e -> exists e0, ent x = Some e0 /\ e = Went (g_preg e0) (Z.ldiff (g_mask e0) m).
Proof.
  intros H. destruct (ent x) as [e0|] eqn:E.
  - exists e0. split; [reflexivity|]. apply (ent_resolve m) in E. congruence.
  - unfold ent in *. cbn [resolve x_u] in H. destruct (dest (x_u x)); discriminate.
Qed.
Lemma sweep_squash c x e0 e : ent x = Some e0 -> (sweep c e0 = Some e <-> squash c x = false /\ e = Went (g_preg e0) (Z.ldiff (g_mask e0) (c_clear c))).
Proof.
  unfold ent, sweep, squash, nz. destruct (dest (x_u x)); [|discriminate]. cbn. intros H. injection H as <-. cbn.
  destruct (c_flush c); cbn; [split; [discriminate|intros [? _]; discriminate]|].
  destruct (c_mispred c && _); split; try discriminate.
  - intros [? _]; discriminate.
  - intros H. injection H as <-. auto.
  - intros [_ ->]. reflexivity.
Qed.
Lemma in_survive c l y : In y (survive c l) <-> exists x, In x l /\ squash c x = false /\ y = resolve (c_clear c) x.
Proof.
  unfold survive. rewrite in_map_iff. split.
  - intros (x & <- & X). apply filter_In in X. destruct X as [X S]. apply negb_true_iff in S. eauto.
  - intros (x & X & S & ->). exists x. split; [reflexivity|]. apply filter_In. now rewrite S.
Qed.

Section STEP.
Variables (now : nat) (fs : list fu) (ts : list trk) (h : hist) (c : ctl) (iss : option einst).
Hypothesis J : jinv now fs ts h.
Hypothesis Hc : c_now c = now.
Hypothesis E : env_ok c iss fs h.
Hypothesis NZ : no_zombie c fs h.

(** The delivered operation was due. *)
Lemma winner_due k f l x : nth_error fs k = Some f -> nth_error (live h) k = Some l -> In x (survive c l) ->
  now < due_at (f_kind f) x -> not_id (option_map e_id (winner c fs)) x = true.
Proof.
  intros F1 F2 X D. pose proof (j_inv _ _ _ _ J) as V.
  destruct (step_units now fs h c V Hc (env_mask _ _ _ _ E) NZ) as (A & _). cbv zeta in A.
  destruct A as [->|(j & g & m & y & tl & G1 & G2 & G3 & G4 & G5 & _)]; [reflexivity|]. rewrite G4. cbn [option_map not_id]. rewrite xid_now.
  apply negb_true_iff, Nat.eqb_neq. intros Eq.
  assert (NDl : NoDup (map xid (concat (map (survive c) (live h))))).
  { change (NoDup (xids (concat (map (survive c) (live h))))). rewrite concat_survive. apply NoDup_xids_filter. exact (NoDup_xids_live _ _ _ V). }
  destruct (nth_unique xid _ NDl k j (survive c l) (survive c m) x y) as [-> ->]; auto; try (now apply map_nth_error).
  { rewrite G3. now left. }
  assert (g = f) by congruence. subst g. unfold due in G5. apply Nat.leb_le in G5. lia.
Qed.

Lemma agree_step k f l t f' :
  nth_error fs k = Some f -> nth_error (live h) k = Some l -> nth_error ts k = Some t ->
  f_kind f' = f_kind f -> f_ops f' = f_ops f ->
  agree (S now) f' (enter c iss f (filter (not_id (option_map e_id (winner c fs))) (survive c l))) (trk_next c iss t).
Proof.
  intros F1 F2 F3 K' O'. pose proof (j_agree _ _ _ _ J k f l t F1 F2 F3) as [[Sop Sk] P]. pose proof (j_inv _ _ _ _ J) as V.
  destruct (calc_new t iss) as (o & No & Cal).
  (* agreement of the old part *)
  assert (Old : forall n e, (exists e0, In (S n, e0) (pend (k_st t)) /\ sweep c e0 = Some e) <->
            exists x, In x (filter (not_id (option_map e_id (winner c fs))) (survive c l)) /\ ent x = Some e /\ due_at (f_kind f) x = S now + n + 1).
  { intros n e. split.
    - intros (e0 & I & Sw). apply P in I. destruct I as (x & X & Ex & Dx). apply (sweep_squash c x e0 e Ex) in Sw. destruct Sw as [Sq ->].
      exists (resolve (c_clear c) x). assert (In (resolve (c_clear c) x) (survive c l)) by (apply in_survive; eauto).
      split; [|split; [now apply ent_resolve|rewrite due_resolve; lia]]. apply filter_In. split; [assumption|].
      eapply winner_due; eauto. rewrite due_resolve. lia.
    - intros (y & Y & Ey & Dy). apply filter_In in Y. destruct Y as [Y _]. apply in_survive in Y. destruct Y as (x & X & Sq & ->).
      apply ent_resolve_inv in Ey. destruct Ey as (e0 & Ex & ->). rewrite due_resolve in Dy. exists e0. split.
      + apply P. exists x. split; [exact X|]. split; [exact Ex|lia].
      + apply (sweep_squash c x e0 _ Ex). auto. }
  (* a unit taking a new operation holds nothing else (iterative) *)
  assert (Emp : forall u lat, iss = Some u -> e_op u = k_op t -> f_kind f = KIter lat -> filter (not_id (option_map e_id (winner c fs))) (survive c l) = []).
  { intros u lat Iu Ou Kf. destruct E as [E0 E1 E2 E3]. specialize (E1 u Iu).
    destruct (step_units now fs h c V Hc E0 NZ) as (_ & _ & C & D & _). cbv zeta in C, D. unfold fu_ready in E1. apply andb_true_iff in E1. destruct E1 as [_ E1].
    apply existsb_exists in E1. destruct E1 as (fr & I & Y). apply In_nth_error in I. destruct I as (j & I).
    assert (Kl : j < length (fst (exec c fs))) by (apply nth_error_Some; congruence). rewrite C in Kl. pose proof (v_len _ _ _ V) as L.
    destruct (nth_error fs j) as [g|] eqn:G1; [|apply nth_error_None in G1; lia].
    destruct (nth_error (live h) j) as [m|] eqn:G2; [|apply nth_error_None in G2; lia].
    destruct (D j g m G1 G2) as (fr' & G & X). assert (fr' = fr) by congruence. subst fr'. destruct X as (X1 & X2 & X3 & X4 & X5 & X6).
    apply andb_true_iff in Y. destruct Y as [Y1 Y2]. rewrite X3 in Y1.
    assert (j = k). { apply (proj1 (v_wf _ _ _ V) j k g f (e_op u)); auto. rewrite Sop, Ou. apply Nat.eqb_refl. } subst j.
    assert (g = f) by congruence. subst g. assert (m = l) by congruence. subst m. rewrite Kf in X6. apply X6.
    apply orb_true_iff in Y2. destruct Y2 as [Y2|Y2]; [|auto]. destruct (f_slot (fst fr)); [discriminate|reflexivity]. }
  (* what a new operation adds *)
  assert (New : forall n0 e n1, new_for t iss n0 e -> due_at (f_kind f) (Item (match iss with Some u => u | None => Einst 0 0 0 0 0 end) now []) = S now + n1 + 1 ->
     forall e', sweep c e = Some e' ->
     exists x, In x (enter c iss f (filter (not_id (option_map e_id (winner c fs))) (survive c l))) /\ ent x = Some e' /\ due_at (f_kind f) x = S now + n1 + 1).
  { intros n0 e n1 (u & Iu & Ou & _ & Nu & _) Du e' Sw. rewrite Iu in *. cbn [enter]. rewrite Sop, Ou, Nat.eqb_refl.
    exists (Item u (c_now c) [c_clear c]). split; [apply in_or_app; right; now left|]. split.
    - unfold new_ent in Nu. unfold ent. cbn [x_u]. destruct (dest u); [|discriminate]. cbn in Nu |- *. injection Nu as <-.
      destruct (env_quiet _ _ _ _ E) as [Fl Mp]; [discriminate|]. unfold sweep in Sw. rewrite Fl, Mp in Sw. cbn in Sw. injection Sw as <-. reflexivity.
    - rewrite Hc. rewrite <- Du. destruct (f_kind f); reflexivity. }
  assert (NewI : forall x n1 e', In x (enter c iss f (filter (not_id (option_map e_id (winner c fs))) (survive c l))) ->
     ent x = Some e' -> due_at (f_kind f) x = S now + n1 + 1 ->
     In x (filter (not_id (option_map e_id (winner c fs))) (survive c l)) \/
     exists u e, iss = Some u /\ e_op u = k_op t /\ new_ent u = Some e /\ sweep c e = Some e' /\ due_at (f_kind f) (Item u now []) = S now + n1 + 1).
  { intros x n1 e' X Ex Dx. destruct iss as [u|] eqn:Iu; [|now left]. cbn [enter] in X. rewrite Sop in X. destruct (Nat.eqb_spec (e_op u) (k_op t)) as [Ou|]; [|now left].
    apply in_app_or in X. destruct X as [X|[<-|[]]]; [now left|]. right. unfold ent in Ex. cbn [x_u x_mask x_res fold_left] in Ex. exists u.
    unfold new_ent. destruct (dest u) as [p|]; [|discriminate]. cbn [option_map] in *. injection Ex as <-. exists (Went p (e_mask u)).
    destruct (env_quiet _ _ _ _ E) as [Fl Mp]; [discriminate|]. unfold sweep. rewrite Fl, Mp. cbn [andb g_mask g_preg]. repeat split; auto. rewrite Hc in Dx. rewrite <- Dx. destruct (f_kind f); reflexivity. }
  split.
  { split; [cbn [trk_next k_op]; now rewrite O'|]. cbn [trk_next k_st k_op]. rewrite K', Cal. destruct (f_kind f), (k_st t); cbn; auto.
    destruct Sk as (S1 & S2 & S3). split; [exact S1|]. split; [|exact S3]. rewrite map_length, removelast_len. cbn. lia. }
  intros n e. cbn [trk_next k_st]. rewrite pend_tflush, Cal, K'.
  destruct (f_kind f) as [|L|lat] eqn:Kf; destruct (k_st t) as [|st|q] eqn:Kt; try contradiction; cbn [pend].
  - (* single *)
    split; [intros (? & [] & _)|]. intros (x & X & Ex & Dx). exfalso.
    destruct (NewI x n e X Ex Dx) as [X'|(u & e1 & Iu & Ou & Nu & Sw & Du)].
    + apply filter_In in X'. destruct X' as [X' _]. apply in_survive in X'. destruct X' as (x0 & X0 & _ & ->).
      pose proof (v_units _ _ _ V k f l F1 F2) as I1. unfold inv1 in I1. rewrite Kf in I1. destruct (f_unit f); try contradiction.
      destruct I1 as [(_ & ->)|(z & _ & -> & Tz)]; [destruct X0|]. destruct X0 as [<-|[]]. cbn in Dx. lia.
    + cbn in Du. lia.
  - (* pipelined *)
    destruct Sk as (HL & Ls & Lat). cbn [pipe_pend]. split.
    + intros (e0 & I & Sw). apply in_app_or in I. destruct I as [I|I].
      * destruct o as [[n0 w]|] eqn:Eo; [|destruct I]. cbn in I. destruct I as [I|[]]. injection I as <- <-. rewrite removelast_len.
        pose proof (proj1 (No n0 w) eq_refl) as NF. eapply New; [exact NF| |exact Sw]. destruct NF as (u & -> & _). cbn. lia.
      * apply pipe_pend_removelast in I. destruct (proj1 (Old n e)) as (x & X & Y); [eauto|]. exists x. split; [|exact Y].
        destruct iss as [u|]; cbn [enter]; [destruct (f_ops f (e_op u)); [apply in_or_app; now left|]|]; exact X.
    + intros (x & X & Ex & Dx). destruct (NewI x n e X Ex Dx) as [X'|(u & e1 & Iu & Ou & Nu & Sw & Du)].
      * destruct (proj2 (Old n e)) as (e0 & I & Sw); [eauto|]. exists e0. split; [|exact Sw]. apply in_or_app. right. now apply pipe_pend_removelast.
      * exists e1. split; [|exact Sw]. apply in_or_app. left.
        assert (Eo : o = Some (isu_lat (e_op u) (e_fn u), e1)). { apply No. exists u. rewrite Ou. repeat split; auto. rewrite Lat. lia. }
        rewrite Eo. cbn. left. rewrite removelast_len. f_equal. cbn in Du. lia.
  - (* iterative *)
    split.
    + intros (e0 & I & Sw).
      destruct (match q with Some (S n1, e1) => Some (n1, e1) | _ => None end) as [[n1 e1]|] eqn:Q.
      * destruct I as [I|[]]. injection I as <- <-. destruct q as [[[|n2] e2]|]; try discriminate. injection Q as <- <-.
        destruct (proj1 (Old n2 e)) as (x & X & Y); [exists e2; split; [now left|exact Sw]|]. exists x. split; [|exact Y].
        destruct iss as [u|]; cbn [enter]; [destruct (f_ops f (e_op u)); [apply in_or_app; now left|]|]; exact X.
      * destruct o as [[n0 w]|] eqn:Eo; [|destruct I]. destruct I as [I|[]]. injection I as <- <-.
        pose proof (proj1 (No n0 w) eq_refl) as NF. eapply New; [exact NF| |exact Sw]. destruct NF as (u & -> & Ou & _ & _ & ->). rewrite Ou.
        destruct (Sk (e_fn u)) as [S1 S2]. rewrite S1. cbn. lia.
    + intros (x & X & Ex & Dx). destruct (NewI x n e X Ex Dx) as [X'|(u & e1 & Iu & Ou & Nu & Sw & Du)].
      * destruct (proj2 (Old n e)) as (e0 & I & Sw); [eauto|]. exists e0. split; [|exact Sw]. cbn [pend] in I.
        destruct q as [[n2 e2]|]; [|destruct I]. destruct I as [I|[]]. injection I as -> ->. now left.
      * exists e1. split; [|exact Sw].
        assert (Eo : o = Some (isu_lat (e_op u) (e_fn u), e1)). { apply No. exists u. rewrite Ou. repeat split; auto. destruct (Sk (e_fn u)). lia. }
        rewrite Eo. assert (Q : match q with Some (S n1, e2) => Some (n1, e2) | _ => None end = None).
        { destruct q as [[[|n2] e2]|]; auto. exfalso. destruct (proj1 (P (S n2) e2)) as (y & Y & _ & Dy); [now left|].
          assert (NE : filter (not_id (option_map e_id (winner c fs))) (survive c l) = []) by (eapply Emp; eauto).
          assert (I : In (resolve (c_clear c) y) (filter (not_id (option_map e_id (winner c fs))) (survive c l))).
          { destruct (env_quiet _ _ _ _ E) as [Fl Mp]; [congruence|].
            assert (In (resolve (c_clear c) y) (survive c l)) by (apply in_survive; exists y; unfold squash; rewrite Fl, Mp; auto).
            apply filter_In. split; [assumption|]. eapply winner_due; eauto. rewrite due_resolve, Kf. lia. }
          rewrite NE in I. destruct I. }
        rewrite Q. left. f_equal. rewrite Ou. destruct (Sk (e_fn u)) as [S1 S2]. rewrite S1. cbn in Du. lia.
Qed.

Lemma port_kind k f' : nth_error (port_step c iss fs) k = Some f' -> exists f, nth_error fs k = Some f /\ f_kind f' = f_kind f /\ f_ops f' = f_ops f.
Proof.
  clear. unfold port_step, pipeline, exec.
  assert (PK : forall (r : list (fu * bool)) (fs : list fu), length r = length fs ->
     (forall j fr, nth_error r j = Some fr -> exists f, nth_error fs j = Some f /\ f_kind (fst fr) = f_kind f /\ f_ops (fst fr) = f_ops f) ->
     forall u j fr, nth_error (insert u r) j = Some fr -> exists f, nth_error fs j = Some f /\ f_kind (fst fr) = f_kind f /\ f_ops (fst fr) = f_ops f).
  { intros r. induction r as [|[g b] r IH]; intros gs L H u j fr F; [destruct j; discriminate|]. destruct gs as [|g0 gs]; [discriminate|]. cbn [insert] in F.
    destruct (f_ops g (e_op u) && _).
    - destruct j as [|j]; [|exact (H (S j) fr F)]. cbn in F. injection F as <-. destruct (H 0 _ eq_refl) as (q & Q1 & Q2 & Q3). exists q. auto.
    - destruct j as [|j]; [exact (H 0 fr F)|]. cbn in F |- *. eapply IH; [cbn in L; lia| |exact F]. intros i fr' N. exact (H (S i) fr' N). }
  assert (C1 : forall fs taken j fr, nth_error (fst (collect c (map (fu_a c) fs) taken)) j = Some fr -> exists f, nth_error fs j = Some f /\ f_kind (fst fr) = f_kind f /\ f_ops (fst fr) = f_ops f).
  { intros gs. induction gs as [|g gs IH]; intros taken j fr F; [destruct j; discriminate|]. cbn [map collect] in F. destruct (fu_a c g) as [[g1 cm] en] eqn:A.
    destruct (collect c (map (fu_a c) gs) (taken || is_some cm)) as [r o] eqn:Cc. cbn [fst] in F. destruct j as [|j].
    - cbn in F. injection F as <-. exists g. split; [reflexivity|]. unfold fu_a in A. destruct (issue _ _ _ _) as [s2 cm2]. injection A as <- <- <-. unfold fu_b.
      destruct (consume _ _ _ _ _) as [s3 rd]. split; reflexivity.
    - cbn in F. apply (IH (taken || is_some cm)). now rewrite Cc. }
  assert (C1L : forall fs taken, length (fst (collect c (map (fu_a c) fs) taken)) = length fs).
  { intros gs. induction gs as [|g gs IH]; intros taken; [reflexivity|]. cbn [map collect]. destruct (fu_a c g) as [[g1 cm] en].
    specialize (IH (taken || is_some cm)). destruct (collect c (map (fu_a c) gs) (taken || is_some cm)) as [r o]. cbn in *. now rewrite IH. }
  assert (C2 : forall j fr, nth_error (map (fu_c c) (fst (collect c (map (fu_a c) fs) false))) j = Some fr -> exists f, nth_error fs j = Some f /\ f_kind (fst fr) = f_kind f /\ f_ops (fst fr) = f_ops f).
  { intros j fr F. rewrite nth_error_map in F. destruct (nth_error (fst _) j) as [fr0|] eqn:N; [|discriminate]. cbn in F. injection F as <-. apply C1 in N. exact N. }
  intros F. rewrite nth_error_map in F.
  match type of F with option_map _ ?o = _ => destruct o as [fr|] eqn:N; [|discriminate] end. cbn in F. injection F as <-.
  destruct iss as [u|]; [|now apply C2]. destruct (c_flush c || br_killed c u); [now apply C2|].
  eapply PK; [| |exact N]; [rewrite map_length; apply C1L|exact C2].
Qed.

Lemma jinv_step : jinv (S now) (port_step c iss fs) (map (trk_next c iss) ts) (h_step c iss (option_map e_id (winner c fs)) fs h).
Proof.
  pose proof (j_inv _ _ _ _ J) as V. pose proof (step_inv now fs h c iss V Hc (env_mask _ _ _ _ E) NZ E) as V'.
  assert (L0 : length (live (h_step c iss (option_map e_id (winner c fs)) fs h)) = length fs).
  { cbn [h_step live]. rewrite map_length, combine_length, (v_len _ _ _ V). lia. }
  split; [exact V'| |].
  - rewrite map_length, (j_len _ _ _ _ J). rewrite <- (v_len _ _ _ V'), L0. reflexivity.
  - intros k f' l' t' F1 F2 F3. destruct (port_kind k f' F1) as (f & G1 & G2 & G3).
    rewrite nth_error_map in F3. destruct (nth_error ts k) as [t|] eqn:T; [|discriminate]. cbn in F3. injection F3 as <-.
    destruct (nth_error (live h) k) as [l|] eqn:Lk.
    2:{ apply nth_error_None in Lk. rewrite (v_len _ _ _ V) in Lk. apply nth_error_None in Lk. congruence. }
    cbn [h_step live] in F2. rewrite nth_error_map, (nth_error_combine fs (live h) k f l G1 Lk) in F2. cbn in F2. injection F2 as <-.
    exact (agree_step k f l t f' G1 Lk T G2 G3).
Qed.
End STEP.

Lemma jreach_reach fs0 ts0 now fs ts h : jreach fs0 ts0 now fs ts h -> reach fs0 now fs h.
Proof. induction 1; [constructor|now apply reach_step]. Qed.

Theorem jreach_inv fs0 ts0 now fs ts h : at_reset fs0 -> well_formed fs0 -> Forall2 fits fs0 ts0 -> jreach fs0 ts0 now fs ts h -> jinv now fs ts h.
Proof.
  intros R0 W0 Ft. induction 1 as [|now fs ts h c iss R IH Hc E Z].
  - split.
    + exact (reach_inv fs0 1 fs0 _ R0 W0 (reach_init fs0)).
    + symmetry. clear -Ft. induction Ft; cbn; congruence.
    + intros k f l t F1 F2 F3. cbn [live] in F2. rewrite nth_error_map, F1 in F2. cbn in F2. injection F2 as <-.
      assert (Ff : fits f t).
      { clear -Ft F1 F3. revert k F1 F3. induction Ft as [|a b l1 l2 A F IH]; intros [|k] F1 F3; try discriminate; cbn in *; [congruence|eauto]. }
      destruct Ff as [Fo Fk]. split.
      * split; [exact Fo|]. destruct (f_kind f), (k_st t); try contradiction; auto.
        -- destruct Fk as (A & -> & B). rewrite repeat_length. auto.
        -- intros fn. now apply Fk.
      * intros n e. split; [|intros (x & [] & _)]. destruct (f_kind f), (k_st t) as [|st|o]; try contradiction; cbn [pend]; try intros [].
        -- destruct Fk as (_ & -> & _). intros H. exfalso. induction (L - 1) as [|m IHm]; [destruct H|]. cbn in H. auto.
        -- destruct Fk as [-> _]. intros [].
  - apply jinv_step; auto.
Qed.
