From Verif Require Import Base BaseLemmas IqModel IqSpec.
From Coq Require Import Permutation.
Local Open Scope nat_scope.

Definition occ (st : iq) (l : list nat) : list nat :=
  filter (fun k => match slots st k with Some _ => true | None => false end) l.

(** Facts about the storage alone. *)
Record wf (c : cfg) (st : iq) : Prop := Wf {
  wf_bound : forall k u, slots st k = Some u -> k < c_size c;
  wf_count : count st = length (occ st (seq 0 (c_size c)));
  wf_m1 : forall k u, slots st k = Some u -> u_s1en u = true -> u_s1busy u = true -> wm1 st (u_s1 u) k = true;
  wf_m2 : forall k u, slots st k = Some u -> u_s2en u = true -> u_s2busy u = true -> wm2 st (u_s2 u) k = true;
  wf_pregs : forall k u, slots st k = Some u -> u_s1 u < 64 /\ u_s2 u < 64
}.
(** Storage against the list of waiting micro-operations. *)
Record rel (c : cfg) (st : iq) (q : list waiting) : Prop := Rel {
  r_wf : wf c st;
  r_to : forall k u, slots st k = Some u -> exists w, In w q /\ stored_as w u;
  r_of : forall w, In w q -> exists k u, slots st k = Some u /\ stored_as w u;
  r_inj : forall k j u v, slots st k = Some u -> slots st j = Some v -> u_id u = u_id v -> k = j;
  r_nodup : NoDup (ids q)
}.

(** *** Counting *)
Lemma occ_upd_none st k l : NoDup l -> slots st k <> None -> In k l ->
  length (filter (fun j => match fupd (slots st) k None j with Some _ => true | None => false end) l) = length (occ st l) - 1.
Proof.
  induction l as [|a l IH]; intros ND HS I; [destruct I|]. inversion ND as [|? ? NI ND']; subst.
  cbn [filter occ]. unfold fupd at 1. destruct (Nat.eqb_spec a k) as [->|N].
  - destruct (slots st k) eqn:E; [|congruence]. cbn [length].
    replace (S (length (filter (fun k0 => match slots st k0 with Some _ => true | None => false end) l)) - 1)
      with (length (filter (fun k0 => match slots st k0 with Some _ => true | None => false end) l)) by lia.
    f_equal. apply filter_ext_in. intros j J. rewrite fupd_ne; [reflexivity|]. intros ->. contradiction.
  - destruct I as [->|I]; [congruence|]. specialize (IH ND' HS I). unfold occ in *.
    destruct (slots st a); cbn [length]; rewrite IH; [|reflexivity].
    assert (0 < length (filter (fun k0 => match slots st k0 with Some _ => true | None => false end) l)).
    { assert (In k (filter (fun k0 => match slots st k0 with Some _ => true | None => false end) l)) as F
        by (apply filter_In; split; [exact I|]; destruct (slots st k); congruence).
      revert F. generalize (filter (fun k0 => match slots st k0 with Some _ => true | None => false end) l).
      intros [|x l0] F; [destruct F|]. apply Nat.lt_0_succ. }
    lia.
Qed.
Lemma occ_upd_some st k u l : NoDup l -> slots st k = None -> In k l ->
  length (filter (fun j => match fupd (slots st) k (Some u) j with Some _ => true | None => false end) l) = length (occ st l) + 1.
Proof.
  induction l as [|a l IH]; intros ND HS I; [destruct I|]. inversion ND as [|? ? NI ND']; subst.
  cbn [filter occ]. unfold fupd at 1. destruct (Nat.eqb_spec a k) as [->|N].
  - rewrite HS. cbn [length]. rewrite Nat.add_1_r. f_equal. unfold occ. f_equal.
    apply filter_ext_in. intros j J. rewrite fupd_ne; [reflexivity|]. intros ->. contradiction.
  - destruct I as [->|I]; [congruence|]. specialize (IH ND' HS I). unfold occ in *.
    destruct (slots st a); cbn [length]; rewrite IH; lia.
Qed.
Lemma filter_len_le {A} (f : A -> bool) l : length (filter f l) <= length l.
Proof. induction l as [|a l IH]; cbn; [lia|]. destruct (f a); cbn; lia. Qed.
Lemma filter_full {A} (f : A -> bool) l : length (filter f l) = length l -> forall x, In x l -> f x = true.
Proof.
  induction l as [|a l IH]; intros E x I; [destruct I|]. cbn in E. destruct (f a) eqn:F.
  - cbn in E. destruct I as [->|I]; [exact F|]. apply IH; [lia|exact I].
  - pose proof (filter_len_le f l). lia.
Qed.

(** *** Dropping one slot *)
Lemma drop_slots st k j : slots (drop_slot st k) j = if j =? k then None else slots st j.
Proof.
  unfold drop_slot. destruct (slots st k) eqn:E.
  - cbn [slots]. unfold fupd. reflexivity.
  - destruct (Nat.eqb_spec j k) as [->|]; auto.
Qed.
Lemma drop_wf c st k : wf c st -> wf c (drop_slot st k).
Proof.
  intros [B C M1 M2 P]. constructor.
  - intros j u. rewrite drop_slots. destruct (j =? k); [discriminate|apply B].
  - unfold drop_slot. destruct (slots st k) eqn:E; [|exact C]. cbn [count]. rewrite C. symmetry. unfold occ. cbn [slots].
    apply occ_upd_none; [apply seq_NoDup|congruence|]. apply in_seq. pose proof (B _ _ E). lia.
  - intros j u. rewrite drop_slots. destruct (Nat.eqb_spec j k) as [->|N]; [discriminate|]. intros S E1 E2.
    unfold drop_slot. destruct (slots st k) as [v|] eqn:E; [|exact (M1 _ _ S E1 E2)]. cbn [wm1 clear_dep].
    destruct (u_s1en v && (u_s1 v <? PRF_NUM)); [|exact (M1 _ _ S E1 E2)]. unfold mupd.
    destruct (Nat.eqb_spec j k); [congruence|]. rewrite andb_false_r. exact (M1 _ _ S E1 E2).
  - intros j u. rewrite drop_slots. destruct (Nat.eqb_spec j k) as [->|N]; [discriminate|]. intros S E1 E2.
    unfold drop_slot. destruct (slots st k) as [v|] eqn:E; [|exact (M2 _ _ S E1 E2)]. cbn [wm2 clear_dep].
    destruct (u_s2en v && (u_s2 v <? PRF_NUM)); [|exact (M2 _ _ S E1 E2)]. unfold mupd.
    destruct (Nat.eqb_spec j k); [congruence|]. rewrite andb_false_r. exact (M2 _ _ S E1 E2).
  - intros j u. rewrite drop_slots. destruct (j =? k); [discriminate|apply P].
Qed.
(** Narrowing the storage narrows the list. *)
Lemma sub_rel c st st' q (f : waiting -> bool) : rel c st q -> wf c st' ->
  (forall k, slots st' k = slots st k \/ slots st' k = None) ->
  (forall k u w, In w q -> slots st k = Some u -> stored_as w u -> (slots st' k = Some u <-> f w = true)) ->
  rel c st' (filter f q).
Proof.
  intros [W T O I N] W' S F. constructor; [exact W'| | | |].
  - intros k u E. assert (E0 : slots st k = Some u). { destruct (S k) as [X|X]; congruence. }
    destruct (T _ _ E0) as (w & Iw & Sw). exists w. split; [|exact Sw]. apply filter_In. split; [exact Iw|].
    apply (F k u w Iw E0 Sw). exact E.
  - intros w Iw. apply filter_In in Iw. destruct Iw as [Iw Fw]. destruct (O w Iw) as (k & u & E & Sw).
    exists k, u. split; [|exact Sw]. apply (F k u w Iw E Sw). exact Fw.
  - intros k j u v E1 E2. apply I; [destruct (S k) as [X|X]|destruct (S j) as [X|X]]; congruence.
  - unfold ids in *. revert N. clear. induction q as [|w q IH]; cbn; intros N; [constructor|].
    inversion N as [|? ? NI N']; subst. destruct (f w); [|exact (IH N')]. cbn. constructor; [|exact (IH N')].
    intros X. apply NI. apply in_map_iff in X. destruct X as (y & Ey & Y). apply filter_In in Y.
    apply in_map_iff. exists y. tauto.
Qed.

Lemma drops_slots l : forall st j, slots (fold_left drop_slot l st) j = if existsb (Nat.eqb j) l then None else slots st j.
Proof.
  induction l as [|a l IH]; intros st j; cbn [fold_left existsb]; [reflexivity|].
  rewrite IH, drop_slots. destruct (existsb (Nat.eqb j) l); [now rewrite orb_true_r|]. rewrite orb_false_r. reflexivity.
Qed.
Lemma drops_wf c l : forall st, wf c st -> wf c (fold_left drop_slot l st).
Proof. induction l as [|a l IH]; intros st W; cbn; [exact W|]. apply IH, drop_wf, W. Qed.

(** *** Scheduling *)
Definition rdy (st : iq) (k : nat) : bool := match slots st k with Some u => is_ready u | None => false end.
Lemma gather_eq st ks : forall seen, count st = seen + length (occ st ks) -> gather st ks seen = filter (rdy st) ks.
Proof.
  induction ks as [|k ks IH]; intros seen C; [reflexivity|]. cbn [gather filter]. unfold rdy at 1. cbn [occ filter] in C.
  destruct (slots st k) as [u|] eqn:E.
  - cbn [length] in C. destruct (Nat.leb_spec (count st) (S seen)) as [L|L].
    + assert (Z : filter (rdy st) ks = []).
      { assert (length (occ st ks) = 0) by (unfold occ; lia). clear -H. induction ks as [|a ks IH]; [reflexivity|].
        cbn [occ filter] in *. unfold rdy at 1. destruct (slots st a); [cbn in H; lia|]. apply IH, H. }
      rewrite Z. destruct (is_ready u); reflexivity.
    + rewrite (IH (S seen)) by (unfold occ; lia). destruct (is_ready u); reflexivity.
  - apply IH. unfold occ. lia.
Qed.
Lemma gather_all c st : wf c st -> gather st (seq 0 (c_size c)) 0 = filter (rdy st) (seq 0 (c_size c)).
Proof. intros W. apply gather_eq. apply (wf_count _ _ W). Qed.

Definition can (st : iq) (cap : nat -> bool) (k : nat) : bool :=
  match slots st k with Some u => cap (u_op u) | None => false end.
Lemma existsb_eqb_In k l : existsb (Nat.eqb k) l = true <-> In k l.
Proof. rewrite existsb_exists. split; [intros (x & I & E); apply Nat.eqb_eq in E; now subst|]. intros I. exists k. now rewrite Nat.eqb_refl. Qed.
Lemma pick_some st cap ready issued k : pick st cap ready issued = Some k ->
  In k ready /\ ~ In k issued /\ can st cap k = true.
Proof.
  intros H. apply find_some in H. destruct H as [I H]. apply andb_true_iff in H. destruct H as [H1 H2].
  split; [exact I|]. split; [|exact H2]. intros X. apply existsb_eqb_In in X. rewrite X in H1. discriminate.
Qed.
Lemma pick_none st cap ready issued : pick st cap ready issued = None ->
  forall k, In k ready -> can st cap k = true -> In k issued.
Proof.
  intros H k I C. pose proof (find_none _ _ H k I) as X. cbn in X. fold (can st cap k) in X. rewrite C, andb_true_r in X.
  apply existsb_eqb_In. destruct (existsb (Nat.eqb k) issued); [reflexivity|discriminate].
Qed.
Lemma sched_in st ready ports : forall issued k p, In (k, p) (sched st ports ready issued) ->
  In k ready /\ ~ In k issued /\ exists cap, In (p, cap) ports /\ can st cap k = true.
Proof.
  induction ports as [|[p0 cap0] ports IH]; intros issued k p H; [destruct H|]. cbn [sched] in H.
  destruct (pick st cap0 ready issued) as [k0|] eqn:E.
  - destruct H as [H|H].
    + injection H as <- <-. apply pick_some in E. destruct E as (A & B & C). split; [exact A|]. split; [exact B|].
      exists cap0. split; [now left|exact C].
    + apply IH in H. destruct H as (A & B & cap & C & D). split; [exact A|]. split; [intros X; apply B; now right|].
      exists cap. split; [now right|exact D].
  - apply IH in H. destruct H as (A & B & cap & C & D). split; [exact A|]. split; [exact B|]. exists cap. split; [now right|exact D].
Qed.
Lemma sched_nodup_k st ready ports : forall issued, NoDup (map fst (sched st ports ready issued)).
Proof.
  induction ports as [|[p0 cap0] ports IH]; intros issued; [constructor|]. cbn [sched].
  destruct (pick st cap0 ready issued) as [k0|] eqn:E; [|apply IH]. cbn [map fst]. constructor; [|apply IH].
  intros X. apply in_map_iff in X. destruct X as ([k p] & Ek & X). cbn in Ek. subst k.
  apply sched_in in X. destruct X as (_ & X & _). apply X. now left.
Qed.
Lemma sched_nodup_p st ready ports : NoDup (map fst ports) -> forall issued, NoDup (map snd (sched st ports ready issued)).
Proof.
  induction ports as [|[p0 cap0] ports IH]; intros ND issued; [constructor|]. cbn [sched map fst] in *.
  inversion ND as [|? ? NI ND']; subst.
  destruct (pick st cap0 ready issued) as [k0|] eqn:E; [|apply IH, ND']. cbn [map snd]. constructor; [|apply IH, ND'].
  intros X. apply in_map_iff in X. destruct X as ([k p] & Ek & X). cbn in Ek. subst p.
  apply sched_in in X. destruct X as (_ & _ & cap & C & _). apply NI. apply in_map_iff. exists (p0, cap). auto.
Qed.
(** A port left unassigned saw every capable ready entry taken by another. *)
Lemma sched_idle st ready p cap ports : forall issued k, In (p, cap) ports -> In k ready -> can st cap k = true ->
  In p (map snd (sched st ports ready issued)) \/ In k issued \/ In k (map fst (sched st ports ready issued)).
Proof.
  induction ports as [|[p0 cap0] ports IH]; intros issued k I R C; [destruct I|]. cbn [sched]. destruct I as [I|I].
  - injection I as -> ->. destruct (pick st cap ready issued) as [k0|] eqn:E.
    + left. now left.
    + right. left. now apply (pick_none _ _ _ _ E).
  - destruct (pick st cap0 ready issued) as [k0|] eqn:E; [|now apply IH].
    destruct (IH (k0 :: issued) k I R C) as [X|[X|X]].
    + left. now right.
    + destruct X as [->|X]; [right; right; now left|right; now left].
    + right; right. now right.
Qed.

Lemma schedule_in c st k p : wf c st -> In (k, p) (schedule c st) ->
  exists u cap, slots st k = Some u /\ is_ready u = true /\ In (p, cap) (c_ports c) /\ cap (u_op u) = true.
Proof.
  intros W H. unfold schedule in H. apply sched_in in H. destruct H as (R & _ & cap & P & C).
  rewrite gather_all in R by exact W. apply filter_In in R. destruct R as [_ R]. unfold rdy in R. unfold can in C.
  destruct (slots st k) as [u|] eqn:E; [|discriminate]. exists u, cap. auto.
Qed.
Lemma granted_in c st i k p : wf c st -> In (k, p) (granted c st i) ->
  exists u cap, slots st k = Some u /\ is_ready u = true /\ In (p, cap) (c_ports c) /\ cap (u_op u) = true /\
    i_fu_ready i p (u_op u) = true /\ i_block i = false.
Proof.
  intros W H. unfold granted in H. apply filter_In in H. destruct H as [H G]. cbn [fst snd] in G.
  apply schedule_in in H; [|exact W]. destruct H as (u & cap & E & R & P & C). rewrite E in G.
  apply andb_true_iff in G. destruct G as [G1 G2]. exists u, cap. repeat split; auto. destruct (i_block i); [discriminate|reflexivity].
Qed.
Lemma NoDup_map_filter {A B} (g : A -> B) f l : NoDup (map g l) -> NoDup (map g (filter f l)).
Proof.
  induction l as [|a l IH]; cbn; intros N; [constructor|]. inversion N as [|? ? NI N']; subst.
  destruct (f a); [|exact (IH N')]. cbn. constructor; [|exact (IH N')]. intros X. apply NI.
  apply in_map_iff in X. destruct X as (y & E & Y). apply filter_In in Y. apply in_map_iff. exists y. tauto.
Qed.
Lemma granted_nodup_k c st i : NoDup (map fst (granted c st i)).
Proof. apply NoDup_map_filter, sched_nodup_k. Qed.
Lemma granted_nodup_p c st i : NoDup (map fst (c_ports c)) -> NoDup (map snd (granted c st i)).
Proof. intros N. apply NoDup_map_filter, sched_nodup_p, N. Qed.

Lemma grants_iff c st i p u : In (p, u) (grants c st i) <-> exists k, In (k, p) (granted c st i) /\ slots st k = Some u.
Proof.
  unfold grants. rewrite in_flat_map. split.
  - intros ([k p'] & I & H). cbn [fst snd] in H. destruct (slots st k) as [v|] eqn:E; [|destruct H].
    destruct H as [H|[]]. injection H as -> ->. exists k. auto.
  - intros (k & I & E). exists (k, p). split; [exact I|]. cbn [fst snd]. rewrite E. now left.
Qed.
Lemma grants_map {B} (f : nat * uop -> B) c st i : wf c st ->
  map f (grants c st i) = map (fun kp => match slots st (fst kp) with Some u => f (snd kp, u) | None => f (0, Uop 0 false false 0 false false 0 0 0 0) end) (granted c st i).
Proof.
  intros W. unfold grants. assert (H : forall kp, In kp (granted c st i) -> slots st (fst kp) <> None).
  { intros [k p] H. apply granted_in in H; [|exact W]. destruct H as (u & cap & E & _). cbn. congruence. }
  induction (granted c st i) as [|kp l IH]; [reflexivity|]. cbn [flat_map map]. rewrite map_app.
  destruct (slots st (fst kp)) as [u|] eqn:E.
  - cbn. f_equal. apply IH. intros x X. apply H. now right.
  - exfalso. apply (H kp); [now left|exact E].
Qed.

(** Issue removes exactly the granted ones. *)
Definition out_ids (c : cfg) (st : iq) (i : iq_in) : list nat := map (fun pu => u_id (snd pu)) (grants c st i).
Lemma out_ids_in c st i x : In x (out_ids c st i) <-> exists k p u, In (k, p) (granted c st i) /\ slots st k = Some u /\ u_id u = x.
Proof.
  unfold out_ids. rewrite in_map_iff. split.
  - intros ([p u] & E & I). apply grants_iff in I. destruct I as (k & I & S). exists k, p, u. auto.
  - intros (k & p & u & I & S & E). exists (p, u). split; [exact E|]. apply grants_iff. eauto.
Qed.
Lemma NoDup_map_inj_in {A B C} (f : A -> B) (g : A -> C) l :
  (forall x y, In x l -> In y l -> g x = g y -> f x = f y) -> NoDup (map f l) -> NoDup (map g l).
Proof.
  induction l as [|a l IH]; cbn; intros H N; [constructor|]. inversion N as [|? ? NI N']; subst. constructor.
  - intros X. apply NI. apply in_map_iff in X. destruct X as (y & E & Y). rewrite <- (H y a); auto. now apply in_map.
  - apply IH; [|exact N']. intros x y X Y. apply H; auto.
Qed.
Lemma out_ids_nodup c st q i : rel c st q -> NoDup (out_ids c st i).
Proof.
  intros R. unfold out_ids. rewrite grants_map by apply R.
  apply (NoDup_map_inj_in (@fst nat nat)); [|apply granted_nodup_k].
  intros [k p] [k' p'] I1 I2. cbn [fst snd]. apply granted_in in I1, I2; try apply R.
  destruct I1 as (u & _ & E1 & _). destruct I2 as (v & _ & E2 & _). rewrite E1, E2. cbn. apply (r_inj _ _ _ R); assumption.
Qed.
Lemma issue_rel c st q i : rel c st q ->
  rel c (after_issue c st i) (filter (fun w => negb (gone (out_ids c st i) w)) q).
Proof.
  intros R. apply (sub_rel c st); [exact R|apply drops_wf, R| |].
  - intros k. unfold after_issue. rewrite drops_slots. destruct existsb; auto.
  - intros k u w Iw E S. unfold after_issue. rewrite drops_slots. unfold gone.
    assert (X : existsb (Nat.eqb k) (map fst (granted c st i)) = existsb (Nat.eqb (wid w)) (out_ids c st i)).
    { apply eq_true_iff_eq. rewrite !existsb_eqb_In, out_ids_in. split.
      - intros H. apply in_map_iff in H. destruct H as ([k' p] & Ek & H). cbn in Ek. subst k'. exists k, p, u.
        repeat split; auto. apply S.
      - intros (k' & p & v & H & E' & Ev). assert (k' = k).
        { apply (r_inj _ _ _ R k' k v u E' E). rewrite Ev. symmetry. apply S. }
        subst k'. apply in_map_iff. exists (k, p). auto. }
    rewrite X, E. destruct (existsb (Nat.eqb (wid w)) (out_ids c st i)); cbn [negb]; split; intros HH; (reflexivity || discriminate HH).
Qed.

(** *** Wakeup *)
Lemma wake_slot st p k : p < 64 -> slots (wake_one st p) k =
  match slots st k with
  | None => None
  | Some u =>
      let b1 := wm1 st p k && u_s1en u && u_s1busy u && (u_s1 u =? p) in
      let b2 := wm2 st p k && u_s2en u && u_s2busy u && (u_s2 u =? p) in
      Some (Uop (u_id u) (u_s1en u) (u_s1busy u && negb b1) (u_s1 u) (u_s2en u) (u_s2busy u && negb b2) (u_s2 u) (u_op u) (u_mask u) (u_pay u))
  end.
Proof.
  intros L. unfold wake_one. replace (p <? PRF_NUM) with true by (symmetry; now apply Nat.ltb_lt). cbn [slots].
  destruct (slots st k) as [u|]; [|reflexivity]. f_equal. cbv zeta.
  destruct u as [id e1 b1 s1 e2 b2 s2 op m pay].
  cbn [u_id u_s1en u_s1busy u_s1 u_s2en u_s2busy u_s2 u_op u_mask u_pay].
  destruct (wm1 st p k), e1, b1, (s1 =? p); unfold set_busy1, set_busy2; cbn [andb negb u_id u_s1en u_s1busy u_s1 u_s2en u_s2busy u_s2 u_op u_mask u_pay];
  destruct (wm2 st p k), e2, b2, (s2 =? p); reflexivity.
Qed.
Definition hear (p : nat) (w : waiting) : waiting := Waiting (w_uop w) (w_ann w ++ [p]) (w_res w).
Lemma hear_ann p w x : announced (hear p w) x = announced w x || (x =? p).
Proof. unfold announced, hear. cbn [w_ann]. rewrite existsb_app. cbn. now rewrite orb_false_r. Qed.
Lemma occ_ext st st' l : (forall k, slots st' k = None <-> slots st k = None) -> occ st' l = occ st l.
Proof. intros H. apply filter_ext. intros k. specialize (H k). destruct (slots st' k), (slots st k); try reflexivity; destruct H as [H1 H2]; [discriminate H2|discriminate H1]; reflexivity. Qed.
Lemma rel_map c st st' q (g : waiting -> waiting) : rel c st q -> wf c st' ->
  (forall w, wid (g w) = wid w) ->
  (forall k, slots st k = None -> slots st' k = None) ->
  (forall k u, slots st k = Some u -> exists u', slots st' k = Some u' /\ u_id u' = u_id u /\
     forall w, stored_as w u -> stored_as (g w) u') ->
  rel c st' (map g q).
Proof.
  intros [W T O I N] W' Hg H0 H1. constructor; [exact W'| | | |].
  - intros k u' E. destruct (slots st k) as [u|] eqn:E0; [|rewrite (H0 k E0) in E; discriminate].
    destruct (H1 k u E0) as (u2 & E2 & _ & S2). assert (u2 = u') by congruence. subst u2.
    destruct (T k u E0) as (w & Iw & Sw). exists (g w). split; [now apply in_map|auto].
  - intros w' Iw. apply in_map_iff in Iw. destruct Iw as (w & <- & Iw). destruct (O w Iw) as (k & u & E & S).
    destruct (H1 k u E) as (u2 & E2 & _ & S2). exists k, u2. auto.
  - intros k j u v E1 E2. destruct (slots st k) as [u0|] eqn:F1; [|rewrite (H0 k F1) in E1; discriminate].
    destruct (slots st j) as [v0|] eqn:F2; [|rewrite (H0 j F2) in E2; discriminate].
    destruct (H1 k u0 F1) as (u2 & G2 & D2 & _). destruct (H1 j v0 F2) as (v2 & K2 & L2 & _).
    intros Eq. apply (I k j u0 v0 F1 F2). congruence.
  - unfold ids. rewrite map_map. rewrite (map_ext _ wid Hg). exact N.
Qed.
Lemma wake_wf c st p : wf c st -> wf c (wake_one st p).
Proof.
  intros W. destruct (Nat.lt_ge_cases p 64) as [L|L].
  2:{ unfold wake_one. replace (p <? PRF_NUM) with false; [exact W|]. symmetry. apply Nat.ltb_ge. exact L. }
  destruct W as [B C M1 M2 P].
  assert (WM1 : wm1 (wake_one st p) = fun x y => if x =? p then false else wm1 st x y).
  { unfold wake_one. replace (p <? PRF_NUM) with true by (symmetry; now apply Nat.ltb_lt). reflexivity. }
  assert (WM2 : wm2 (wake_one st p) = fun x y => if x =? p then false else wm2 st x y).
  { unfold wake_one. replace (p <? PRF_NUM) with true by (symmetry; now apply Nat.ltb_lt). reflexivity. }
  assert (CN : count (wake_one st p) = count st). { unfold wake_one. destruct (p <? PRF_NUM); reflexivity. }
  constructor.
  - intros k u. rewrite wake_slot by exact L. destruct (slots st k) eqn:E; [|discriminate]. intros _. exact (B _ _ E).
  - rewrite CN, C. f_equal. symmetry. apply occ_ext. intros k. rewrite wake_slot by exact L. destruct (slots st k); split; congruence.
  - intros k u. rewrite wake_slot by exact L. destruct (slots st k) as [v|] eqn:E; [|discriminate]. cbv zeta. intros H. injection H as <-.
    cbn [u_s1en u_s1busy u_s1]. intros E1 E2. apply andb_true_iff in E2. destruct E2 as [E2 E3]. rewrite WM1.
    pose proof (M1 _ _ E E1 E2) as X. destruct (Nat.eqb_spec (u_s1 v) p) as [Y|Y]; [|exact X].
    rewrite <- Y, X, E1, E2 in E3. discriminate.
  - intros k u. rewrite wake_slot by exact L. destruct (slots st k) as [v|] eqn:E; [|discriminate]. cbv zeta. intros H. injection H as <-.
    cbn [u_s2en u_s2busy u_s2]. intros E1 E2. apply andb_true_iff in E2. destruct E2 as [E2 E3]. rewrite WM2.
    pose proof (M2 _ _ E E1 E2) as X. destruct (Nat.eqb_spec (u_s2 v) p) as [Y|Y]; [|exact X].
    rewrite <- Y, X, E1, E2 in E3. discriminate.
  - intros k u. rewrite wake_slot by exact L. destruct (slots st k) as [v|] eqn:E; [|discriminate]. intros H. injection H as <-. exact (P _ _ E).
Qed.
Lemma wake_rel c st q p : rel c st q -> rel c (wake_one st p) (map (hear p) q).
Proof.
  intros R. pose proof R as [W _ _ _ _]. apply (rel_map c st _ _ _ R); [now apply wake_wf|reflexivity| |].
  - intros k E. unfold wake_one. destruct (p <? PRF_NUM); [|exact E]. cbn. now rewrite E.
  - intros k u E. destruct (wf_pregs _ _ W _ _ E) as [P1 P2].
    destruct (Nat.lt_ge_cases p 64) as [L|L].
    + rewrite wake_slot by exact L. rewrite E. cbv zeta. eexists. split; [reflexivity|]. split; [reflexivity|].
      intros w (S1 & S2 & S3 & S4 & S5 & S6 & S7 & S8 & S9 & S10).
      assert (N1 : u_s1 u =? p = true -> u_s1en u = true -> u_s1busy u = true -> wm1 st p k = true).
      { intros X Y Z. apply Nat.eqb_eq in X. subst p. exact (wf_m1 _ _ W _ _ E Y Z). }
      assert (N2 : u_s2 u =? p = true -> u_s2en u = true -> u_s2busy u = true -> wm2 st p k = true).
      { intros X Y Z. apply Nat.eqb_eq in X. subst p. exact (wf_m2 _ _ W _ _ E Y Z). }
      unfold stored_as. cbn [u_id u_s1en u_s1busy u_s1 u_s2en u_s2busy u_s2 u_op u_mask u_pay].
      repeat split; auto.
      * unfold s1_avail in *. rewrite hear_ann. cbn [hear w_uop] in *. rewrite <- S5, <- S4 in *.
        destruct (u_s1en u); [|reflexivity]. cbn [andb negb orb] in *.
        destruct (u_s1 u =? p); [|rewrite !andb_false_r, andb_true_r, orb_false_r; exact S8].
        rewrite !orb_true_r. destruct (u_s1busy u); [|reflexivity]. rewrite N1 by auto. reflexivity.
      * unfold s2_avail in *. rewrite hear_ann. cbn [hear w_uop] in *. rewrite <- S7, <- S6 in *.
        destruct (u_s2en u); [|reflexivity]. cbn [andb negb orb] in *.
        destruct (u_s2 u =? p); [|rewrite !andb_false_r, andb_true_r, orb_false_r; exact S9].
        rewrite !orb_true_r. destruct (u_s2busy u); [|reflexivity]. rewrite N2 by auto. reflexivity.
    + exists u. split; [|split; [reflexivity|]].
      * unfold wake_one. replace (p <? PRF_NUM) with false; [exact E|]. symmetry. now apply Nat.ltb_ge.
      * intros w (S1 & S2 & S3 & S4 & S5 & S6 & S7 & S8 & S9 & S10). unfold stored_as. repeat split; auto.
        -- unfold s1_avail in *. rewrite hear_ann. cbn [hear w_uop] in *.
           replace (u_s1 (w_uop w) =? p) with false; [now rewrite orb_false_r|]. symmetry. apply Nat.eqb_neq. lia.
        -- unfold s2_avail in *. rewrite hear_ann. cbn [hear w_uop] in *.
           replace (u_s2 (w_uop w) =? p) with false; [now rewrite orb_false_r|]. symmetry. apply Nat.eqb_neq. lia.
Qed.
Lemma wakes_rel c ws : forall st q, rel c st q ->
  rel c (fold_left wake_one ws st) (map (fun w => Waiting (w_uop w) (w_ann w ++ ws) (w_res w)) q).
Proof.
  induction ws as [|p ws IH]; intros st q R; cbn [fold_left].
  - replace (map _ q) with q; [exact R|]. rewrite <- (map_id q) at 1. apply map_ext. intros [a b d]. cbn. now rewrite app_nil_r.
  - specialize (IH _ _ (wake_rel c st q p R)). rewrite map_map in IH.
    erewrite map_ext; [exact IH|]. intros w. cbn. now rewrite <- app_assoc.
Qed.

(** *** Enqueue *)
Lemma apply_wakes_fields ws : forall u, let v := apply_wakes ws u in
  u_id v = u_id u /\ u_op v = u_op u /\ u_pay v = u_pay u /\ u_s1en v = u_s1en u /\ u_s1 v = u_s1 u /\
  u_s2en v = u_s2en u /\ u_s2 v = u_s2 u /\ u_mask v = u_mask u /\
  u_s1en v && u_s1busy v = u_s1en u && u_s1busy u && negb (existsb (Nat.eqb (u_s1 u)) ws) /\
  u_s2en v && u_s2busy v = u_s2en u && u_s2busy u && negb (existsb (Nat.eqb (u_s2 u)) ws).
Proof.
  induction ws as [|p ws IH]; intros u; cbv zeta.
  - cbn [apply_wakes fold_left existsb]. rewrite !andb_true_r. repeat split.
  - cbn [apply_wakes fold_left].
    match goal with |- context [fold_left ?f ws ?u0] => set (u1 := u0); change (fold_left f ws u1) with (apply_wakes ws u1) end.
    destruct (IH u1) as (I1 & I2 & I3 & I4 & I5 & I6 & I7 & I8 & I9 & I10). clear IH.
    assert (X : u_id u1 = u_id u /\ u_op u1 = u_op u /\ u_pay u1 = u_pay u /\ u_s1en u1 = u_s1en u /\ u_s1 u1 = u_s1 u /\
      u_s2en u1 = u_s2en u /\ u_s2 u1 = u_s2 u /\ u_mask u1 = u_mask u /\
      u_s1en u1 && u_s1busy u1 = u_s1en u && u_s1busy u && negb (u_s1 u =? p) /\
      u_s2en u1 && u_s2busy u1 = u_s2en u && u_s2busy u && negb (u_s2 u =? p)).
    { subst u1. destruct u as [id e1 b1 s1 e2 b2 s2 op m pay].
      cbn [u_id u_s1en u_s1busy u_s1 u_s2en u_s2busy u_s2 u_op u_mask u_pay].
      destruct e1, b1, (s1 =? p); unfold set_busy1, set_busy2; cbn [andb negb u_id u_s1en u_s1busy u_s1 u_s2en u_s2busy u_s2 u_op u_mask u_pay];
      destruct e2, b2, (s2 =? p); repeat split. }
    destruct X as (X1 & X2 & X3 & X4 & X5 & X6 & X7 & X8 & X9 & X10).
    rewrite I9, I10, I1, I2, I3, I4, I5, I6, I7, I8, X1, X2, X3, X5, X7, X8, X9, X10, ?X4, ?X6. cbn [existsb].
    rewrite !negb_orb, !andb_assoc. repeat split.
Qed.
Lemma apply_stored ws u : stored_as (Waiting u ws []) (apply_wakes ws u).
Proof.
  destruct (apply_wakes_fields ws u) as (I1 & I2 & I3 & I4 & I5 & I6 & I7 & I8 & I9 & I10).
  unfold stored_as, s1_avail, s2_avail, announced, w_mask. cbn [w_uop w_ann w_res fold_left].
  rewrite I9, I10. repeat split; auto; rewrite !negb_orb, !negb_involutive; reflexivity.
Qed.
Lemma enqueue_rel c st q u w : rel c st q -> count st < c_size c -> stored_as w u -> ~ In (wid w) (ids q) ->
  u_s1 u < 64 -> u_s2 u < 64 ->
  rel c (enqueue c st u) (q ++ [w]) /\ count (enqueue c st u) = count st + 1.
Proof.
  intros R L S F P1 P2. pose proof R as [W T O I N]. destruct W as [B C M1 M2 P].
  unfold enqueue. destruct (Nat.leb_spec (c_size c) (count st)) as [X|_]; [lia|].
  destruct (find _ (seq 0 (c_size c))) as [k|] eqn:Fd.
  2:{ exfalso. assert (length (occ st (seq 0 (c_size c))) = c_size c).
      { unfold occ. rewrite <- (seq_length (c_size c) 0) at 2. f_equal.
        rewrite <- (filter_ext_in (fun _ => true)); [clear; induction (seq 0 (c_size c)); cbn; congruence|].
        intros k Ik. pose proof (find_none _ _ Fd k Ik) as X. cbn in X. destruct (slots st k); [reflexivity|discriminate]. }
      lia. }
  apply find_some in Fd. destruct Fd as [Ik Ek]. apply in_seq in Ik.
  assert (E : slots st k = None) by (destruct (slots st k); [discriminate|reflexivity]). clear Ek.
  split; [|reflexivity]. constructor; [constructor| | | |].
  - intros j v. cbn [slots]. unfold fupd. destruct (Nat.eqb_spec j k) as [->|]; [lia|apply B].
  - cbn [count]. rewrite C. symmetry. unfold occ at 1. cbn [slots]. apply occ_upd_some; [apply seq_NoDup|exact E|]. apply in_seq. lia.
  - intros j v. cbn [slots wm1 set_dep]. unfold fupd. destruct (Nat.eqb_spec j k) as [->|Nj].
    + intros H; injection H as <-. intros E1 E2. rewrite E1, E2. replace (u_s1 u <? PRF_NUM) with true by (symmetry; now apply Nat.ltb_lt).
      cbn [andb]. unfold mupd. rewrite !Nat.eqb_refl. reflexivity.
    + intros H E1 E2. pose proof (M1 _ _ H E1 E2) as X. destruct (_ && _ && _); [|exact X]. unfold mupd. destruct (_ && _); [reflexivity|exact X].
  - intros j v. cbn [slots wm2 set_dep]. unfold fupd. destruct (Nat.eqb_spec j k) as [->|Nj].
    + intros H; injection H as <-. intros E1 E2. rewrite E1, E2. replace (u_s2 u <? PRF_NUM) with true by (symmetry; now apply Nat.ltb_lt).
      cbn [andb]. unfold mupd. rewrite !Nat.eqb_refl. reflexivity.
    + intros H E1 E2. pose proof (M2 _ _ H E1 E2) as X. destruct (_ && _ && _); [|exact X]. unfold mupd. destruct (_ && _); [reflexivity|exact X].
  - intros j v. cbn [slots]. unfold fupd. destruct (Nat.eqb_spec j k) as [->|]; [intros H; injection H as <-; auto|apply P].
  - intros j v. cbn [slots]. unfold fupd. destruct (Nat.eqb_spec j k) as [->|].
    + intros H; injection H as <-. exists w. split; [apply in_or_app; right; now left|exact S].
    + intros H. destruct (T _ _ H) as (w' & A & A'). exists w'. split; [apply in_or_app; now left|exact A'].
  - intros w' Iw. apply in_app_or in Iw. cbn [slots]. destruct Iw as [Iw|[<-|[]]].
    + destruct (O w' Iw) as (j & v & A & A'). exists j, v. split; [|exact A']. unfold fupd. destruct (Nat.eqb_spec j k) as [->|]; congruence.
    + exists k, u. unfold fupd. rewrite Nat.eqb_refl. auto.
  - assert (D : forall j v, slots st j = Some v -> u_id v <> u_id u).
    { intros j v H X. destruct (T _ _ H) as (w' & A & A'). apply F. apply in_map_iff. exists w'. split; [|exact A].
      unfold wid. destruct A' as (A' & _). destruct S as (S & _). congruence. }
    intros j j' v v'. cbn [slots]. unfold fupd. destruct (Nat.eqb_spec j k) as [->|], (Nat.eqb_spec j' k) as [->|]; auto.
    + intros H1 H2 Eq. injection H1 as <-. exfalso. symmetry in Eq. exact (D _ _ H2 Eq).
    + intros H1 H2 Eq. injection H2 as <-. exfalso. exact (D _ _ H1 Eq).
    + intros H1 H2 Eq. exact (I _ _ _ _ H1 H2 Eq).
  - unfold ids. rewrite map_app. cbn. apply NoDup_Add with (a := wid w) (l := ids q).
    + rewrite <- (app_nil_r (ids q)) at 1. apply Add_app.
    + split; [exact N|exact F].
Qed.
Lemma enqueues_rel c ws us : forall st q, rel c st q -> count st + length us <= c_size c ->
  NoDup (map u_id us) -> (forall x, In x (map u_id us) -> ~ In x (ids q)) ->
  Forall (fun u => u_s1 u < 64 /\ u_s2 u < 64) us ->
  rel c (fold_left (enqueue c) (map (apply_wakes ws) us) st) (q ++ map (fun u => Waiting u ws []) us).
Proof.
  induction us as [|u us IH]; intros st q R L ND F P; cbn [fold_left map].
  - now rewrite app_nil_r.
  - cbn [length map] in *. inversion ND as [|? ? NI ND']; subst. inversion P as [|? ? [P1 P2] P']; subst.
    destruct (apply_wakes_fields ws u) as (I1 & I2 & I3 & I4 & I5 & I6 & I7 & _).
    destruct (enqueue_rel c st q (apply_wakes ws u) (Waiting u ws []) R) as [R' C']; try lia.
    + apply apply_stored.
    + apply F. now left.
    + specialize (IH _ _ R'). rewrite <- app_assoc in IH. cbn [app] in IH. apply IH; auto; [lia|].
      intros x X. unfold ids. rewrite map_app. intros Y. apply in_app_or in Y. destruct Y as [Y|[Y|[]]].
      * apply (F x); [now right|exact Y].
      * cbn in Y. subst x. contradiction.
Qed.

(** *** Flush *)
Lemma flush_br_spec c m l : forall st, wf c st -> let st' := fold_left (fun st k => match slots st k with
                         | Some u => if nz (Z.land (u_mask u) m) then drop_slot st k else st
                         | None => st end) l st in
  wf c st' /\ forall k, slots st' k = match slots st k with
     | Some u => if existsb (Nat.eqb k) l && nz (Z.land (u_mask u) m) then None else Some u | None => None end.
Proof.
  induction l as [|a l IH]; intros st W; cbn [fold_left]; cbv zeta.
  - split; [exact W|]. intros k. cbn. destruct (slots st k); reflexivity.
  - set (st1 := match slots st a with Some u => if nz (Z.land (u_mask u) m) then drop_slot st a else st | None => st end).
    assert (W1 : wf c st1). { subst st1. destruct (slots st a); [|exact W]. destruct nz; [now apply drop_wf|exact W]. }
    destruct (IH st1 W1) as [A B]. split; [exact A|]. intros k. rewrite B. cbn [existsb].
    assert (X : slots st1 k = match slots st k with Some u => if (k =? a) && nz (Z.land (u_mask u) m) then None else Some u | None => None end).
    { subst st1. destruct (slots st a) as [v|] eqn:E.
      - destruct (nz (Z.land (u_mask v) m)) eqn:Z.
        + rewrite drop_slots. destruct (Nat.eqb_spec k a) as [->|]; [rewrite E, Z; reflexivity|destruct (slots st k); reflexivity].
        + destruct (Nat.eqb_spec k a) as [->|]; [rewrite E, Z; reflexivity|destruct (slots st k); reflexivity].
      - destruct (Nat.eqb_spec k a) as [->|]; [rewrite E; reflexivity|destruct (slots st k); reflexivity]. }
    rewrite X. destruct (slots st k) as [u|]; [|reflexivity]. destruct (nz (Z.land (u_mask u) m)) eqn:Z.
    + destruct (k =? a); cbn; [reflexivity|]. rewrite Z. reflexivity.
    + rewrite !andb_false_r, Z, andb_false_r. reflexivity.
Qed.
Lemma flush_br_slots c m st k : wf c st -> slots (flush_br c m st) k =
  match slots st k with Some u => if nz (Z.land (u_mask u) m) then None else Some u | None => None end.
Proof.
  intros W. destruct (flush_br_spec c m (seq 0 (c_size c)) st W) as [_ B]. unfold flush_br. rewrite B.
  destruct (slots st k) as [u|] eqn:E; [|reflexivity]. replace (existsb (Nat.eqb k) (seq 0 (c_size c))) with true; [reflexivity|].
  symmetry. apply existsb_eqb_In. apply in_seq. pose proof (wf_bound _ _ W _ _ E). lia.
Qed.
Lemma init_rel c : rel c iq_init [].
Proof.
  constructor; [constructor| | | |]; cbn; try discriminate; try contradiction; try constructor.
  unfold occ. cbn. induction (seq 0 (c_size c)); cbn; auto.
Qed.
Definition resolve (m : Z) (w : waiting) : waiting := Waiting (w_uop w) (w_ann w) (w_res w ++ [m]).
Lemma clear_slots c m st k : wf c st -> slots (clear_br c m st) k =
  match slots st k with Some u => Some (set_mask u (Z.ldiff (u_mask u) m)) | None => None end.
Proof.
  intros W. cbn [clear_br slots]. destruct (Nat.ltb_spec k (c_size c)); [reflexivity|].
  destruct (slots st k) as [u|] eqn:E; [|reflexivity]. pose proof (wf_bound _ _ W _ _ E). lia.
Qed.
Lemma clear_rel c m st q : rel c st q -> rel c (if nz m then clear_br c m st else st) (map (resolve m) q).
Proof.
  intros R. pose proof R as [W _ _ _ _]. destruct (nz m) eqn:Z.
  - apply (rel_map c st _ _ _ R); [|reflexivity| |].
    + pose proof W as [B C M1 M2 P]. constructor.
      * intros k u. rewrite clear_slots by exact W. destruct (slots st k) eqn:E; [|discriminate]. intros _. exact (B _ _ E).
      * cbn [count clear_br]. rewrite C. f_equal. symmetry. apply occ_ext. intros k. rewrite clear_slots by exact W. destruct (slots st k); split; congruence.
      * intros k u. rewrite clear_slots by exact W. destruct (slots st k) eqn:E; [|discriminate]. intros H; injection H as <-. apply (M1 _ _ E).
      * intros k u. rewrite clear_slots by exact W. destruct (slots st k) eqn:E; [|discriminate]. intros H; injection H as <-. apply (M2 _ _ E).
      * intros k u. rewrite clear_slots by exact W. destruct (slots st k) eqn:E; [|discriminate]. intros H; injection H as <-. apply (P _ _ E).
    + intros k E. rewrite clear_slots by exact W. now rewrite E.
    + intros k u E. rewrite clear_slots by exact W. rewrite E. eexists. split; [reflexivity|]. split; [reflexivity|].
      intros w (S1 & S2 & S3 & S4 & S5 & S6 & S7 & S8 & S9 & S10). unfold stored_as, resolve, w_mask. cbn. repeat split; auto.
      rewrite fold_left_app. cbn. f_equal. exact S10.
  - apply (rel_map c st _ _ _ R); [exact W|reflexivity|auto|].
    intros k u E. exists u. split; [exact E|]. split; [reflexivity|].
    intros w (S1 & S2 & S3 & S4 & S5 & S6 & S7 & S8 & S9 & S10). unfold stored_as, resolve, w_mask. cbn. repeat split; auto.
    rewrite fold_left_app. cbn. unfold nz in Z. apply negb_false_iff, Z.eqb_eq in Z. subst m. rewrite Z.ldiff_0_r. exact S10.
Qed.
Lemma flush_rel c i st q : rel c st q -> rel c (comb_flush c i st) (map (resolve (i_clear i)) (filter (fun w => negb (killed i w)) q)).
Proof.
  intros R. unfold comb_flush. apply clear_rel. unfold killed. destruct (i_flush_all i).
  - cbn [orb negb]. replace (filter (fun _ => false) q) with (@nil waiting); [apply init_rel|]. clear; induction q; cbn; auto.
  - cbn [orb]. destruct (i_flush_br i).
    + cbn [andb]. apply (sub_rel c st); [exact R| | |].
      * apply flush_br_spec. apply R.
      * intros k. rewrite flush_br_slots by apply R. destruct (slots st k); [destruct nz; auto|auto].
      * intros k u w Iw E S. rewrite flush_br_slots by apply R. rewrite E. destruct S as (_ & _ & _ & _ & _ & _ & _ & _ & _ & S).
        rewrite S. unfold nz. destruct (_ =? 0)%Z; cbn; split; congruence.
    + cbn [andb negb]. replace (filter (fun _ => true) q) with q; [exact R|]. clear; induction q as [|a q IH]; cbn; congruence.
Qed.

(** *** Histories *)
Lemma after_issue_count c st i : count (after_issue c st i) <= count st.
Proof.
  unfold after_issue. generalize (map fst (granted c st i)). intros l. revert st. induction l as [|a l IH]; intros st; cbn; [lia|].
  specialize (IH (drop_slot st a)). assert (count (drop_slot st a) <= count st); [|lia]. unfold drop_slot. destruct (slots st a); cbn; lia.
Qed.
Lemma wakes_count ws : forall st, count (fold_left wake_one ws st) = count st.
Proof. induction ws as [|p ws IH]; intros st; cbn; [reflexivity|]. rewrite IH. unfold wake_one. destruct (p <? PRF_NUM); reflexivity. Qed.

Record inv (c : cfg) (st : iq) (h : hist) : Prop := Inv {
  v_rel : rel c st (queue h);
  v_perm : Permutation (ever h) (issued h ++ squashed h ++ ids (queue h));
  v_nodup : NoDup (ever h);
  v_room : count st <= c_size c
}.
Lemma filter_split_perm {A} (f : A -> bool) l : Permutation l (filter f l ++ filter (fun x => negb (f x)) l).
Proof.
  induction l as [|a l IH]; [constructor|]. cbn. destruct (f a); cbn; [now constructor|].
  apply Permutation_cons_app. exact IH.
Qed.
Lemma ids_map_same (f : waiting -> waiting) q : (forall w, wid (f w) = wid w) -> ids (map f q) = ids q.
Proof. intros H. unfold ids. rewrite map_map. now apply map_ext. Qed.
Lemma ids_app a b : ids (a ++ b) = ids a ++ ids b.
Proof. apply map_app. Qed.
Lemma filter_gone_perm out q : NoDup out -> NoDup (ids q) -> (forall x, In x out -> In x (ids q)) ->
  Permutation (ids (filter (gone out) q)) out.
Proof.
  intros N1 N2 H. apply NoDup_Permutation; [now apply NoDup_map_filter|exact N1|]. intros x. split.
  - intros X. apply in_map_iff in X. destruct X as (w & <- & W). apply filter_In in W. destruct W as [_ W]. unfold gone in W. now apply existsb_eqb_In.
  - intros X. pose proof (H x X) as Y. apply in_map_iff in Y. destruct Y as (w & <- & W). apply in_map. apply filter_In. split; [exact W|].
    unfold gone. now apply existsb_eqb_In.
Qed.
Lemma count_len c st q : rel c st q -> count st = length q.
Proof.
  intros R. rewrite (wf_count _ _ (r_wf _ _ _ R)). unfold ids in *.
  set (f := fun k => match slots st k with Some u => u_id u | None => 0 end).
  assert (P : Permutation (map f (occ st (seq 0 (c_size c)))) (ids q)).
  { apply NoDup_Permutation; [|apply R|].
    - apply (NoDup_map_inj_in (fun x => x)); [|rewrite map_id; apply NoDup_filter, seq_NoDup].
      intros x y Hx Hy. apply filter_In in Hx, Hy. destruct Hx as [_ Hx], Hy as [_ Hy]. subst f. cbn.
      destruct (slots st x) as [u|] eqn:E1; [|discriminate]. destruct (slots st y) as [v|] eqn:E2; [|discriminate].
      apply (r_inj _ _ _ R); assumption.
    - intros x. rewrite in_map_iff. split.
      + intros (k & E & K). apply filter_In in K. destruct K as [_ K]. subst f. cbn in E. destruct (slots st k) as [u|] eqn:S; [|discriminate].
        destruct (r_to _ _ _ R _ _ S) as (w & Iw & Sw). apply in_map_iff. exists w. split; [|exact Iw]. unfold wid. destruct Sw as (Sw & _). congruence.
      + intros X. apply in_map_iff in X. destruct X as (w & <- & Iw). destruct (r_of _ _ _ R w Iw) as (k & u & E & S).
        exists k. split; [subst f; cbn; rewrite E; apply S|]. apply filter_In. rewrite E. split; [|reflexivity].
        apply in_seq. pose proof (wf_bound _ _ (r_wf _ _ _ R) _ _ E). lia. }
  apply Permutation_length in P. rewrite !map_length in P. unfold ids in P. rewrite map_length in P. exact P.
Qed.
Lemma wf_room c st : wf c st -> count st <= c_size c.
Proof. intros W. rewrite (wf_count _ _ W). unfold occ. etransitivity; [apply filter_len_le|]. now rewrite seq_length. Qed.

Lemma before_flush_rel c st h i : inv c st h -> env_ok c st h i -> exists q, rel c (before_flush c st i) q.
Proof.
  intros [R P N L] [E1 [E2 E2'] E3]. unfold free_slots in E1.
  pose proof (issue_rel c st (queue h) i R) as R1.
  pose proof (wakes_rel c (i_wake i) _ _ R1) as R2.
  eexists. unfold before_flush. apply enqueues_rel; [exact R2| |exact E2| |exact E3].
  - rewrite wakes_count. pose proof (after_issue_count c st i). lia.
  - intros x X. rewrite ids_map_same by reflexivity. intros Y. apply (E2' x X).
    apply in_map_iff in Y. destruct Y as (w & <- & W). apply filter_In in W.
    apply (Permutation_in _ (Permutation_sym P)). apply in_or_app. right. apply in_or_app. right. apply in_map. tauto.
Qed.
Definition keep_mask (m : Z) (u : uop) : bool := (Z.land (u_mask u) m =? 0)%Z.
Definition drop_bits (m : Z) (u : uop) : uop := set_mask u (Z.ldiff (u_mask u) m).
Lemma set_mask_id u : set_mask u (u_mask u) = u.
Proof. destruct u; reflexivity. Qed.
Lemma held_flush c i st q : rel c st q -> i_flush_all i = false ->
  held c (comb_flush c i st) = map (drop_bits (i_clear i)) (if i_flush_br i then filter (keep_mask (i_br_mask i)) (held c st) else held c st).
Proof.
  intros R FA. unfold comb_flush. rewrite FA. set (st1 := if i_flush_br i then flush_br c (i_br_mask i) st else st).
  assert (H1 : held c st1 = if i_flush_br i then filter (keep_mask (i_br_mask i)) (held c st) else held c st).
  { subst st1. destruct (i_flush_br i); [|reflexivity]. unfold held. induction (seq 0 (c_size c)) as [|k l IH]; [reflexivity|].
    cbn [flat_map]. rewrite filter_app, <- IH. f_equal. rewrite flush_br_slots by apply R.
    destruct (slots st k) as [u|]; [|reflexivity]. cbn [filter]. unfold keep_mask, nz. destruct (_ =? 0)%Z; reflexivity. }
  rewrite <- H1. clear H1. assert (W1 : wf c st1). { subst st1. destruct (i_flush_br i); [apply flush_br_spec|]; apply R. }
  clearbody st1. unfold held. destruct (nz (i_clear i)) eqn:Z.
  - induction (seq 0 (c_size c)) as [|k l IH]; [reflexivity|]. cbn [flat_map]. rewrite map_app, <- IH. f_equal.
    rewrite clear_slots by exact W1. destruct (slots st1 k); reflexivity.
  - unfold nz in Z. apply negb_false_iff, Z.eqb_eq in Z. rewrite Z.
    rewrite (map_ext (drop_bits 0) (fun u => u)); [now rewrite map_id|]. intros u. unfold drop_bits. now rewrite Z.ldiff_0_r, set_mask_id.
Qed.
Lemma held_in c st u : wf c st -> (In u (held c st) <-> exists k, slots st k = Some u).
Proof.
  intros W. unfold held. rewrite in_flat_map. split.
  - intros (k & _ & H). exists k. destruct (slots st k); [|destruct H]. destruct H as [->|[]]. reflexivity.
  - intros (k & E). exists k. rewrite E. split; [|now left]. apply in_seq. pose proof (wf_bound _ _ W _ _ E). lia.
Qed.
Lemma held_map {B} (f : uop -> B) d c st : map f (held c st) =
  map (fun k => match slots st k with Some u => f u | None => d end) (occ st (seq 0 (c_size c))).
Proof.
  unfold held, occ. induction (seq 0 (c_size c)) as [|k l IH]; [reflexivity|]. cbn [flat_map filter]. rewrite map_app, IH.
  destruct (slots st k) eqn:E; [|reflexivity]. cbn [map app]. now rewrite E.
Qed.
Lemma held_ids_nodup c st q : rel c st q -> NoDup (map u_id (held c st)).
Proof.
  intros R. rewrite (held_map u_id 0). apply (NoDup_map_inj_in (fun x => x)); [|rewrite map_id; apply NoDup_filter, seq_NoDup].
  intros x y Hx Hy. apply filter_In in Hx, Hy. destruct Hx as [_ Hx], Hy as [_ Hy].
  destruct (slots st x) as [u|] eqn:E1; [|discriminate]. destruct (slots st y) as [v|] eqn:E2; [|discriminate].
  apply (r_inj _ _ _ R); assumption.
Qed.
Lemma stored_ready w u : stored_as w u -> is_ready u = s1_avail w && s2_avail w.
Proof.
  intros (_ & _ & _ & _ & _ & _ & _ & S1 & S2 & _). unfold is_ready.
  rewrite <- (negb_andb (u_s1en u)), <- (negb_andb (u_s2en u)), S1, S2, !negb_involutive. reflexivity.
Qed.
Lemma stored_grant c st q i p u : rel c st q -> In (p, u) (grants c st i) ->
  exists w cap, In w q /\ stored_as w u /\ s1_avail w = true /\ s2_avail w = true /\
    In (p, cap) (c_ports c) /\ cap (u_op u) = true /\ i_fu_ready i p (u_op u) = true /\ i_block i = false.
Proof.
  intros R H. apply grants_iff in H. destruct H as (k & H & E). apply granted_in in H; [|apply R].
  destruct H as (v & cap & E' & Rd & P & C & F & B). assert (v = u) by congruence. subst v.
  destruct (r_to _ _ _ R _ _ E) as (w & Iw & Sw). rewrite (stored_ready _ _ Sw) in Rd. apply andb_true_iff in Rd. exists w, cap. tauto.
Qed.
Lemma grant_ports_nodup c st i : wf c st -> NoDup (map fst (c_ports c)) -> NoDup (map fst (grants c st i)).
Proof.
  intros W N. rewrite grants_map by exact W.
  erewrite map_ext_in; [apply (granted_nodup_p c st i N)|]. intros [k p] H. apply granted_in in H; [|exact W].
  destruct H as (u & _ & E & _). cbn. now rewrite E.
Qed.
Lemma grant_progress c st q i w p cap : rel c st q -> In w q -> s1_avail w = true -> s2_avail w = true ->
  In (p, cap) (c_ports c) -> cap (u_op (w_uop w)) = true -> i_block i = false ->
  (forall p' cap' op, In (p', cap') (c_ports c) -> cap' op = true -> i_fu_ready i p' op = true) ->
  In p (map fst (grants c st i)) \/ In (wid w) (out_ids c st i).
Proof.
  intros R Iw A1 A2 P C B F. destruct (r_of _ _ _ R w Iw) as (k & u & E & S).
  assert (Rk : In k (gather st (seq 0 (c_size c)) 0)).
  { rewrite gather_all by apply R. apply filter_In. split; [apply in_seq; pose proof (wf_bound _ _ (r_wf _ _ _ R) _ _ E); lia|].
    unfold rdy. rewrite E, (stored_ready _ _ S), A1, A2. reflexivity. }
  assert (Ck : can st cap k = true). { unfold can. rewrite E. destruct S as (_ & S & _). now rewrite S. }
  assert (G : forall kp, In kp (schedule c st) -> In kp (granted c st i)).
  { intros [k' p'] H. apply filter_In. split; [exact H|]. cbn [fst snd]. apply schedule_in in H; [|apply R].
    destruct H as (v & cap' & E' & _ & P' & C'). rewrite E', B, (F p' cap' _ P' C'). reflexivity. }
  destruct (sched_idle st _ p cap _ [] k P Rk Ck) as [X|[[]|X]].
  - left. apply in_map_iff in X. destruct X as ([k' p'] & Ep & X). cbn in Ep. subst p'. apply G in X.
    pose proof X as X'. apply granted_in in X'; [|apply R]. destruct X' as (v & _ & Ev & _).
    apply in_map_iff. exists (p, v). split; [reflexivity|]. apply grants_iff. eauto.
  - right. apply in_map_iff in X. destruct X as ([k' p'] & Ep & X). cbn in Ep. subst k'. apply G in X.
    apply out_ids_in. exists k, p', u. repeat split; auto. apply S.
Qed.

Theorem inv_step c st h i : inv c st h -> env_ok c st h i -> inv c (iq_step c st i) (h_step h i (out_ids c st i)).
Proof.
  intros [R P N L] [E1 [E2 E2'] E3]. unfold free_slots in E1.
  set (out := out_ids c st i). set (q1 := filter (fun w => negb (gone out w)) (queue h)).
  set (q2 := map (fun w => Waiting (w_uop w) (w_ann w ++ i_wake i) (w_res w)) q1).
  assert (I1 : ids q2 = ids q1) by (apply ids_map_same; reflexivity).
  assert (Sub : forall x, In x (ids q1) -> In x (ids (queue h))).
  { intros x X. apply in_map_iff in X. destruct X as (w & <- & W). apply filter_In in W. now apply in_map. }
  assert (Ev : forall x, In x (ids (queue h)) -> In x (ever h)).
  { intros x X. apply (Permutation_in x (Permutation_sym P)). apply in_or_app. right. apply in_or_app. now right. }
  pose proof (issue_rel c st (queue h) i R) as R1. fold out in R1. fold q1 in R1.
  pose proof (wakes_rel c (i_wake i) _ _ R1) as R2. fold q2 in R2.
  assert (R3 : rel c (fold_left (enqueue c) (map (apply_wakes (i_wake i)) (i_enq i)) (fold_left wake_one (i_wake i) (after_issue c st i)))
                 (q2 ++ map (fun u => Waiting u (i_wake i) []) (i_enq i))).
  { apply enqueues_rel; auto.
    - rewrite wakes_count. pose proof (after_issue_count c st i). lia.
    - intros x X. rewrite I1. intros Y. apply (E2' x X). auto. }
  pose proof (flush_rel c i _ _ R3) as R4.
  assert (R5 : rel c (iq_step c st i) (queue (h_step h i out))) by exact R4.
  constructor; [exact R5| | |].
  - unfold h_step. cbn [ever issued squashed queue]. fold q1. fold q2.
    set (q3 := q2 ++ map (fun u => Waiting u (i_wake i) []) (i_enq i)).
    assert (X3 : ids q3 = ids q1 ++ map u_id (i_enq i)).
    { subst q3. rewrite ids_app, I1. f_equal. unfold ids. rewrite map_map. reflexivity. }
    rewrite ids_map_same by reflexivity.
    assert (Y : Permutation (ids q3) (ids (filter (killed i) q3) ++ ids (filter (fun w => negb (killed i w)) q3))).
    { rewrite <- ids_app. apply Permutation_map. apply filter_split_perm. }
    assert (Z : Permutation (ids (queue h)) (out ++ ids q1)).
    { transitivity (ids (filter (gone out) (queue h)) ++ ids q1).
      - rewrite <- ids_app. apply Permutation_map. apply filter_split_perm.
      - apply Permutation_app_tail. apply filter_gone_perm; [apply (out_ids_nodup c st _ i R)|apply R|].
        intros x X. subst out. apply out_ids_in in X. destruct X as (k & p & u & _ & E & <-).
        destruct (r_to _ _ _ R _ _ E) as (w & Iw & Sw). apply in_map_iff. exists w. split; [|exact Iw]. unfold wid. destruct Sw as (Sw & _). congruence. }
    transitivity (issued h ++ squashed h ++ (out ++ ids q1) ++ map u_id (i_enq i)).
    + rewrite P, <- !app_assoc. apply Permutation_app_head, Permutation_app_head. rewrite app_assoc. apply Permutation_app_tail. exact Z.
    + rewrite <- !app_assoc. apply Permutation_app_head.
      transitivity (out ++ squashed h ++ ids q1 ++ map u_id (i_enq i)).
      * rewrite !app_assoc. apply Permutation_app_tail, Permutation_app_tail. apply Permutation_app_comm.
      * apply Permutation_app_head, Permutation_app_head. rewrite <- X3. exact Y.
  - cbn [ever h_step]. clear -N E2 E2'. induction (ever h) as [|a l IH]; cbn; [exact E2|].
    inversion N as [|? ? NI N']; subst. constructor.
    + intros X. apply in_app_or in X. destruct X as [X|X]; [contradiction|]. apply (E2' a X). now left.
    + apply IH; [exact N'|]. intros x X Y. apply (E2' x X). now right.
  - apply wf_room. apply R5.
Qed.
Theorem reach_inv c st h : reach c st h -> inv c st h.
Proof.
  induction 1 as [|st h i R IH E].
  - constructor; cbn; [apply init_rel|constructor|constructor|lia].
  - apply inv_step; assumption.
Qed.
