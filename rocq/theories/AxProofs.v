(** Proofs for the clock boundary. *)
From Verif Require Import Base AxModel AxSpec.
Local Open Scope Z_scope.

Definition accb (e : ev) : bool := match e_acc e with Some _ => true | None => false end.
Definition note (wr : bool) (es : list ev) (a : Z) : Z :=
  fold_left (fun a e => match e_acc e with Some k => if wr then 0 else k | None => a end) es a.

Lemma tick_masked own e c p : let x := tick own e (c, mask false p) in
  iq (fst x) = iq c ++ e_push e /\ r_v (snd x) = ishown (fst x) /\
  (r_v (snd x) = true -> exists t, iq (fst x) = (r_id (snd x), r_d (snd x)) :: t) /\
  (forall h t, iq c = h :: t -> r_v (snd x) = true /\ (r_id (snd x), r_d (snd x)) = h) /\
  i_acc (snd x) = accb e /\ (forall k, e_acc e = Some k -> i_aid (snd x) = k) /\ q_id (snd x) = 0.
Proof.
  cbn zeta. unfold tick, comb_out, comb_in, mask. cbn [fst snd r_v r_rdy r_id r_d i_acc i_aid q_id q_v q_rdy q_aid]. rewrite andb_false_r.
  destruct (iq c) as [|[id d] t]; cbn [fst snd iq ishown r_v r_id r_d i_acc i_aid q_id app];
    (split; [reflexivity|]; split; [reflexivity|]; split; [intros E; try discriminate E; eexists; reflexivity|];
     split; [intros h t' E; inversion E; split; reflexivity|]; split; [reflexivity|]; split; [intros k E; rewrite E; reflexivity|reflexivity]).
Qed.
Lemma extra_facts own wr es : forall c p b y b', extra (tick own) false wr es (c, p) b = (y, b') ->
  iq (fst y) = iq c ++ flat_map e_push es /\
  (es <> [] -> r_v (snd y) = ishown (fst y) /\ (r_v (snd y) = true -> exists t, iq (fst y) = (r_id (snd y), r_d (snd y)) :: t) /\
               (forall h t, iq c = h :: t -> r_v (snd y) = true /\ (r_id (snd y), r_d (snd y)) = h)) /\
  b_rv b' = b_rv b /\ b_rid b' = b_rid b /\ b_rrdy b' = b_rrdy b /\ b_acc b' = b_acc b || existsb accb es /\ b_aid b' = note wr es (b_aid b).
Proof.
  induction es as [|e t IH]; intros c p b y b' X.
  - cbn in X. inversion X; subst y b'. cbn [fst flat_map]. rewrite app_nil_r, orb_false_r. split; [reflexivity|]. split; [intros N; destruct (N eq_refl)|]. split; [reflexivity|]. split; [reflexivity|]. split; [reflexivity|]. split; reflexivity.
  - cbn [extra fst snd] in X. pose proof (tick_masked own e c p) as T. cbn zeta in T. destruct (tick own e (c, mask false p)) as [c1 p1] eqn:ET. cbn [fst snd] in *.
    destruct T as [T1 [T2 [T3 [T4 [T5 [T6 T7]]]]]].
    destruct (IH _ _ _ _ _ X) as [A [B [C [D [F [G H]]]]]].
    split; [rewrite A, T1, <- app_assoc; reflexivity|]. split.
    { intros _. destruct t as [|e' t'].
      - cbn in X. inversion X; subst y b'. cbn [fst snd]. split; [exact T2|]. split; [exact T3|exact T4].
      - destruct (B ltac:(discriminate)) as [B1 [B2 B3]]. split; [exact B1|]. split; [exact B2|]. intros h u E. rewrite T1, E in B3. apply (B3 h (u ++ e_push e)). reflexivity. }
    unfold accumulate in *. cbn [b_rv b_rid b_rrdy b_acc b_aid] in *. rewrite C, D, F, G, H, T5. split; [reflexivity|]. split; [reflexivity|]. split; [reflexivity|].
    split; [cbn [existsb]; destruct (accb e); rewrite ?orb_true_r; reflexivity|].
    cbn [note fold_left]. unfold accb, noted in *. destruct (e_acc e) as [k|]; [|reflexivity]. rewrite (T6 k eq_refl), T7. reflexivity.
Qed.

(** After a whole cycle the port shows the first response waiting. *)
Definition honest (c : icq) (p : port) : Prop :=
  (r_v p = true -> exists t, iq c = (r_id p, r_d p) :: t) /\ (ishown c = true -> iq c <> []) /\ (r_v p = true -> ishown c = true).
Lemma comb_out_facts own c p : let x := comb_out own c p in
  iq (fst x) = (if (if own then ishown c else r_v p) && r_rdy p then tl (iq c) else iq c) /\
  ishown (fst x) = r_v (snd x) /\ (r_v (snd x) = true -> exists t, iq (fst x) = (r_id (snd x), r_d (snd x)) :: t) /\ (r_v (snd x) = false -> iq (fst x) = []) /\
  r_rdy (snd x) = r_rdy p /\ q_id (snd x) = q_id p.
Proof.
  cbn zeta. unfold comb_out. destruct (if _ && _ then _ else _) as [|[id d] t]; cbn [fst snd iq ishown r_v r_id r_d r_rdy q_id];
    (split; [reflexivity|]; split; [reflexivity|]; split; [intros E; try discriminate E; eexists; reflexivity|]; split; [intros E; try discriminate E; reflexivity|]; split; reflexivity).
Qed.
(** The rest of a cycle after the main comb_outputs left [c], with [p] on the port. *)
Lemma rest_facts own wr e es c p c' p' :
  ishown c = r_v p -> (r_v p = true -> exists t, iq c = (r_id p, r_d p) :: t) -> (r_v p = false -> iq c = []) ->
  run_extra (tick own) false wr es (comb_in e c p) = (c', p') ->
  iq c' = iq c ++ flat_map e_push (e :: es) /\ honest c' p' /\
  (es <> [] -> i_acc p' = existsb accb (e :: es) /\ q_acc p' = existsb accb (e :: es) /\
     (wr = false -> q_aid p' = note false (e :: es) (i_aid p)) /\
     r_v p' = (if existsb accb (e :: es) && (r_id p' =? note wr es (if wr then q_id p else note false [e] (i_aid p))) then false else ishown c')) /\
  (r_rdy p' = true -> ishown c' = r_v p') /\
  (r_v p = false \/ r_rdy p = false -> r_v p' && r_rdy p' = false) /\
  (r_v p = true -> r_rdy p = true -> (forall x, In x (e :: es) -> e_acc x = None \/ wr = false /\ e_acc x <> Some (r_id p)) -> r_v p' = true /\ r_rdy p' = true).
Proof.
  intros S0 V0 N0 X. destruct es as [|e1 es'].
  { cbn [run_extra] in X. unfold comb_in in X. inversion X; subst c' p'. clear X. cbn [iq ishown r_v r_id r_d r_rdy i_acc q_acc q_aid flat_map]. rewrite app_nil_r. split; [reflexivity|].
    split. { split; [|split]; cbn [r_v iq ishown r_id r_d]. - intros R. destruct (V0 R) as [t T]. rewrite T. eexists. reflexivity.
      - intros R. rewrite S0 in R. destruct (V0 R) as [t T]. rewrite T. discriminate. - intros R. rewrite S0. exact R. }
    split; [intros N; destruct (N eq_refl)|]. split; [intros _; exact S0|]. split.
    - intros [E|E]; rewrite E; [reflexivity|apply andb_false_r].
    - intros A B _. split; assumption. }
  assert (NE : e1 :: es' <> []) by discriminate. remember (e1 :: es') as es eqn:Ees. clear Ees.
  unfold run_extra in X. destruct es as [|ex esx]; [destruct (NE eq_refl)|]. remember (ex :: esx) as es eqn:Ees. clear Ees.
  destruct (extra (tick own) false wr es (comb_in e c p) (capture wr (snd (comb_in e c p)))) as [y b] eqn:EX.
  unfold comb_in in EX. destruct (extra_facts own wr es _ _ _ _ _ EX) as [A [B [C [D [F [G H]]]]]]. destruct (B NE) as [B1 [B2 B3]]. clear B.
  cbn [snd iq] in A, B3. unfold capture in *. cbn [snd b_rv b_rid b_rrdy b_acc b_aid r_v r_id r_rdy i_acc] in C, D, F, G, H.
  inversion X; subst c' p'. clear X. unfold restore. cbn [fst snd iq ishown r_v r_id r_d r_rdy i_acc q_acc q_aid].
  assert (A' : iq (fst y) = iq c ++ flat_map e_push (e :: es)) by (rewrite A, <- app_assoc; reflexivity). split; [exact A'|].
  assert (GA : b_acc b = existsb accb (e :: es)) by (rewrite G; cbn [existsb accb]; reflexivity).
  assert (HA : b_aid b = note wr es (if wr then q_id p else note false [e] (i_aid p))).
  { rewrite H. unfold noted. cbn [q_id i_aid note fold_left]. destruct wr; reflexivity. }
  split.
  { split; [|split]; cbn [r_v r_id r_d].
    - intros R. apply B2. destruct (b_acc b && r_v (snd y) && (r_id (snd y) =? b_aid b)); [discriminate R|exact R].
    - intros R. rewrite <- B1 in R. destruct (B2 R) as [t T]. rewrite T. discriminate.
    - intros R. rewrite <- B1. destruct (b_acc b && r_v (snd y) && (r_id (snd y) =? b_aid b)); [discriminate R|exact R]. }
  split.
  { intros _. split; [exact GA|]. split; [exact GA|]. split.
    - intros W. subst wr. rewrite H. unfold noted. cbn [i_aid note fold_left]. reflexivity.
    - rewrite GA, <- B1. rewrite <- HA. destruct (existsb accb (e :: es)), (r_v (snd y)), (r_id (snd y) =? b_aid b); reflexivity. }
  split.
  { intros R. rewrite <- B1. destruct (b_acc b && r_v (snd y) && (r_id (snd y) =? b_aid b)); [rewrite orb_true_r in R; discriminate R|reflexivity]. }
  split.
  - intros [E|E].
    + rewrite C, E. cbn [andb negb]. rewrite andb_true_r. destruct (r_v (snd y)); cbn [orb]; [apply andb_false_r|]. rewrite andb_false_r. reflexivity.
    + rewrite F, E. match goal with |- _ && (if ?x then _ else _) = _ => destruct x end; apply andb_false_r.
  - intros R Y K. destruct (V0 R) as [t T]. rewrite T in B3. cbn [app] in B3. destruct (B3 _ _ eq_refl) as [B4 B5]. injection B5 as I5 D5.
    rewrite C, D, F, R, Y, B4, I5, Z.eqb_refl. cbn [andb negb orb].
    assert (M : b_acc b && true && (r_id p =? b_aid b) = false); [|rewrite M; split; reflexivity].
    rewrite andb_true_r. destruct (b_acc b) eqn:EB; [|reflexivity]. cbn [andb]. assert (EA : existsb accb (e :: es) = true) by congruence. clear EB. apply Z.eqb_neq. intros Q.
    assert (W : wr = false). { destruct wr; [|reflexivity]. exfalso. apply existsb_exists in EA. destruct EA as [z [I Z]]. destruct (K z I) as [N|[N _]]; [unfold accb in Z; rewrite N in Z; discriminate Z|discriminate N]. }
    subst wr. rewrite HA in Q. change (note false es (note false [e] (i_aid p))) with (note false (e :: es) (i_aid p)) in Q.
    assert (L : forall l a, existsb accb l = true -> exists z, In z l /\ e_acc z = Some (note false l a)).
    { clear. induction l as [|z l IH]; intros a E; [discriminate E|]. cbn [note fold_left]. destruct (existsb accb l) eqn:EL.
      - destruct (IH (match e_acc z with Some k => k | None => a end) eq_refl) as [u [I U]]. exists u. split; [right; exact I|exact U].
      - exists z. split; [left; reflexivity|]. cbn [existsb] in E. rewrite EL, orb_false_r in E. unfold accb in E. destruct (e_acc z) as [k|]; [|discriminate E].
        f_equal. symmetry. fold (note false l k). clear E. revert k. induction l as [|w l IHl]; intros k; [reflexivity|]. cbn [existsb] in EL. apply orb_false_elim in EL. destruct EL as [EW EL].
        cbn [note fold_left]. unfold accb in EW. destruct (e_acc w); [discriminate EW|]. apply IHl; [exact EL|]. intros a' E'. discriminate E'. }
    destruct (L _ (i_aid p) EA) as [z [I Z]]. destruct (K z I) as [N|[_ N]]; [rewrite N in Z; discriminate Z|]. apply N. rewrite Z, <- Q. reflexivity.
Qed.
