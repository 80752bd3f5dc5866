(** C11, C44 and the functional-unit part of C10. *)
From Verif Require Import Base BaseLemmas ExuModel ExuSpec ExuProofs.
From Coq Require Import Permutation Sorting.Sorted.
Local Open Scope nat_scope.

Lemma list_nth_ext {A} : forall (a b : list A), (forall k, nth_error a k = nth_error b k) -> a = b.
Proof.
  induction a as [|x a IH]; intros [|y b] H; [reflexivity|specialize (H 0); discriminate|specialize (H 0); discriminate|].
  pose proof (H 0) as H0. cbn in H0. injection H0 as ->. f_equal. apply IH. intros k. exact (H (S k)).
Qed.
(** C44: an issued operation is delivered once, or squashed once, or still in
    flight; nothing is delivered that was not issued. *)
Theorem c44_exactly_once fs0 now fs h : at_reset fs0 -> well_formed fs0 -> reach fs0 now fs h ->
  Permutation (accepted h) (delivered h ++ squashed h ++ xids (concat (live h))) /\
  NoDup (delivered h ++ squashed h ++ xids (concat (live h))).
Proof.
  intros R W H. pose proof (reach_inv _ _ _ _ R W H) as V. split; [apply V|]. eapply Permutation_NoDup; apply V.
Qed.

(** C44: the units hold the operations in flight, oldest first, with the
    resolved branches removed from their masks. *)
Theorem c44_contents fs0 now fs h : at_reset fs0 -> well_formed fs0 -> reach fs0 now fs h ->
  map held fs = map (map now_inst) (live h).
Proof.
  intros R W H. pose proof (reach_inv _ _ _ _ R W H) as V. apply list_nth_ext. intros k. rewrite !nth_error_map. pose proof (v_len _ _ _ V) as L.
    destruct (nth_error fs k) as [f|] eqn:F1; destruct (nth_error (live h) k) as [l|] eqn:F2; cbn; [|apply nth_error_None in F2|apply nth_error_None in F1|reflexivity].
    + f_equal. pose proof (v_units _ _ _ V k f l F1 F2) as I. unfold inv1 in I. unfold held.
      destruct (f_kind f), (f_unit f) as [|p|o]; try contradiction.
      * destruct I as [(-> & ->)|(x & -> & -> & _)]; reflexivity.
      * destruct I as (st & pend & -> & -> & _ & _ & [(-> & ->)|(x & -> & -> & _)]); rewrite map_app, map_map; reflexivity.
      * destruct I as [(-> & -> & ->)|(x & -> & -> & [(-> & _)|(-> & _)])]; reflexivity.
    + assert (k < length fs) by (apply nth_error_Some; congruence). lia.
    + assert (k < length (live h)) by (apply nth_error_Some; congruence). lia.
Qed.

(** C44: a unit's result is on the bypass network from the cycle its latency
    elapses until the operation is delivered, and no other result is. *)
Theorem c44_bypass_exact fs0 now fs h c k f l u : at_reset fs0 -> well_formed fs0 -> reach fs0 now fs h ->
  c_now c = now -> (0 <= c_brmask c)%Z -> no_zombie c fs h -> nth_error fs k = Some f -> nth_error (live h) k = Some l ->
  nth_error (bypass c fs) k = Some (Some u) <-> exists x, In x (survive c l) /\ due_at (f_kind f) x <= now /\ u = now_inst x.
Proof.
  intros R W H Hc BM NZ F1 F2. pose proof (reach_inv _ _ _ _ R W H) as V.
  destruct (step_units now fs h c V Hc BM NZ) as (_ & _ & _ & _ & D). specialize (D k f l F1 F2).
  unfold bypass. rewrite nth_error_map, F1. cbn [option_map]. fold (fu_cm c f). rewrite Hc in D.
  destruct D as [[-> D]|(x & tl & -> & -> & D1 & D2)].
  - split; [discriminate|]. intros (x & X & Y & _). specialize (D x X). unfold due in D. apply Nat.leb_gt in D. lia.
  - split.
    + intros E. injection E as <-. exists x. split; [now left|]. split; [|reflexivity]. now apply Nat.leb_le.
    + intros (y & [<-|Y] & D & ->); [reflexivity|]. specialize (D2 y Y). unfold due in D2. apply Nat.leb_gt in D2. lia.
Qed.

(** C44: the port delivers the due operation of the first unit that has one;
    it delivers nothing only if nothing is due. *)
Theorem c44_delivers fs0 now fs h c : at_reset fs0 -> well_formed fs0 -> reach fs0 now fs h ->
  c_now c = now -> (0 <= c_brmask c)%Z -> no_zombie c fs h ->
  match winner c fs with
  | Some u => exists k f l x, nth_error fs k = Some f /\ nth_error (live h) k = Some l /\ In x (survive c l) /\ u = now_inst x /\
                due_at (f_kind f) x <= now /\
                forall j g m y, j < k -> nth_error fs j = Some g -> nth_error (live h) j = Some m -> In y (survive c m) -> now < due_at (f_kind g) y
  | None => forall k f l x, nth_error fs k = Some f -> nth_error (live h) k = Some l -> In x (survive c l) -> now < due_at (f_kind f) x
  end.
Proof.
  intros R W H Hc BM NZ. pose proof (reach_inv _ _ _ _ R W H) as V.
  destruct (step_units now fs h c V Hc BM NZ) as (A & B & _). cbv zeta in A, B.
  destruct (winner c fs) as [u|] eqn:O.
  - destruct A as [A|(k & f & l & x & tl & F1 & F2 & F3 & F4 & F5 & F6)]; [discriminate|]. exists k, f, l, x. rewrite F3. injection F4 as ->.
    split; [exact F1|]. split; [exact F2|]. split; [now left|]. split; [reflexivity|]. split; [rewrite <- Hc; now apply Nat.leb_le|].
    intros j g m y J G M Y. rewrite <- Hc. pose proof (F6 j g m J G M y Y) as X. now apply Nat.leb_gt.
  - intros k f l x F1 F2 X. rewrite <- Hc. apply Nat.leb_gt. exact (B eq_refl k f l F1 F2 x X).
Qed.

(** C44: a multiplication is never delivered late, whatever else the port does. *)
Theorem c44_pipelined_on_time fs0 now fs h k f l L x : at_reset fs0 -> well_formed fs0 -> reach fs0 now fs h ->
  nth_error fs k = Some f -> f_kind f = KFixed L -> nth_error (live h) k = Some l -> In x l -> now <= x_t x + L.
Proof.
  intros R W H F1 K F2 X. pose proof (reach_inv _ _ _ _ R W H) as V. pose proof (v_units _ _ _ V k f l F1 F2) as I. unfold inv1 in I. rewrite K in I.
  destruct (f_unit f) as [|p|o]; try contradiction. destruct I as (st & pend & -> & _ & _ & Fo & P). apply in_app_or in X. destruct X as [X|X].
  - rewrite Forall_forall in Fo. now apply Fo.
  - destruct P as [(_ & ->)|(y & _ & -> & Sy)]; [destruct X|]. destruct X as [->|[]]. destruct (proj2 (v_wf _ _ _ V) k f L F1 K). lia.
Qed.

(** C44: the ready mask offers an operation exactly when its unit can take it
    at the end of the cycle: the unit is pipelined, or holds nothing by then. *)
Theorem c44_ready_exact fs0 now fs h c op : at_reset fs0 -> well_formed fs0 -> reach fs0 now fs h ->
  c_now c = now -> (0 <= c_brmask c)%Z -> no_zombie c fs h ->
  fu_ready c (fst (exec c fs)) op = true <->
  c_flush c = false /\ exists k f l, nth_error fs k = Some f /\ nth_error (live h) k = Some l /\ f_ops f op = true /\
    match f_kind f with KFixed _ => True | _ => filter (not_id (option_map e_id (winner c fs))) (survive c l) = [] end.
Proof.
  intros R W H Hc BM NZ. pose proof (reach_inv _ _ _ _ R W H) as V.
  destruct (step_units now fs h c V Hc BM NZ) as (_ & _ & C & D & _). cbv zeta in C, D. unfold fu_ready. rewrite andb_true_iff, negb_true_iff.
  assert (X : existsb (fun fr => f_ops (fst fr) op && (negb (is_some (f_slot (fst fr))) || snd fr)) (fst (exec c fs)) = true <->
    exists k f l, nth_error fs k = Some f /\ nth_error (live h) k = Some l /\ f_ops f op = true /\
      match f_kind f with KFixed _ => True | _ => filter (not_id (option_map e_id (winner c fs))) (survive c l) = [] end); [|tauto].
  rewrite existsb_exists. split.
  - intros (fr & I & Y). apply In_nth_error in I. destruct I as (k & I). assert (K : k < length (fst (exec c fs))) by (apply nth_error_Some; congruence).
    rewrite C in K. pose proof (v_len _ _ _ V) as L.
    destruct (nth_error fs k) as [f|] eqn:F1; [|apply nth_error_None in F1; lia].
    destruct (nth_error (live h) k) as [l|] eqn:F2; [|apply nth_error_None in F2; lia].
    destruct (D k f l F1 F2) as (fr' & G & X). assert (fr' = fr) by congruence. subst fr'. destruct X as (X1 & X2 & X3 & X4 & X5 & X6).
    apply andb_true_iff in Y. destruct Y as [Y1 Y2]. exists k, f, l. split; [exact F1|]. split; [exact F2|]. split; [now rewrite <- X3|]. apply X6.
    apply orb_true_iff in Y2. destruct Y2 as [Y2|Y2]; [|auto]. destruct (f_slot (fst fr)); [discriminate|reflexivity].
  - intros (k & f & l & F1 & F2 & O & Y). destruct (D k f l F1 F2) as (fr & G & X1 & X2 & X3 & X4 & X5 & X6). exists fr.
    split; [eapply nth_error_In; exact G|]. rewrite X3, O. apply X6 in Y. now rewrite Y.
Qed.

(** C10 (functional units): a mispredict removes from each unit exactly the
    operations that depend on the branch; the others keep their place, lose
    the resolved bits, and stay unless delivered. *)
Theorem c10_units_mispredict_exact fs0 now fs h c k f l : at_reset fs0 -> well_formed fs0 -> reach fs0 now fs h ->
  c_now c = now -> (0 <= c_brmask c)%Z -> c_flush c = false -> c_mispred c = true ->
  nth_error fs k = Some f -> nth_error (live h) k = Some l ->
  exists f', nth_error (port_step c None fs) k = Some f' /\
    held f' = map now_inst (filter (not_id (option_map e_id (winner c fs)))
      (map (resolve (c_clear c)) (filter (fun x => (Z.land (x_mask x) (c_brmask c) =? 0)%Z) l))) /\
    held f = map now_inst l.
Proof.
  intros R W H Hc BM Fl Mp F1 F2.
  assert (NZ : no_zombie c fs h) by (intros X; congruence).
  assert (EN : env_ok c None fs h) by (split; [exact BM|discriminate|intros X; congruence|discriminate]).
  pose proof (reach_step _ _ _ _ c None H Hc EN NZ) as H'.
  pose proof (c44_contents _ _ _ _ R W H) as C0. pose proof (c44_contents _ _ _ _ R W H') as C1.
  apply (f_equal (fun q => nth_error q k)) in C0. apply (f_equal (fun q => nth_error q k)) in C1. rewrite !nth_error_map in C0, C1.
  rewrite F1, F2 in C0. cbn [option_map] in C0. injection C0 as C0.
  cbn [h_step live] in C1. rewrite nth_error_map, (nth_error_combine fs (live h) k f l F1 F2) in C1. cbn [option_map fst snd enter] in C1.
  destruct (nth_error (port_step c None fs) k) as [f'|]; [|discriminate]. cbn [option_map] in C1. injection C1 as C1. exists f'. split; [reflexivity|]. split; [|exact C0].
  rewrite C1. unfold survive. do 3 f_equal. apply filter_ext. intros x. unfold squash. rewrite Fl, Mp. cbn. apply negb_involutive.
Qed.

(** C11: a flush empties every unit, provided none of the multi-cycle units is
    running an operation whose branch mask is empty. *)
Theorem c11_flush_empties_partial fs0 now fs h c f : at_reset fs0 -> well_formed fs0 -> reach fs0 now fs h ->
  c_now c = now -> (0 <= c_brmask c)%Z -> no_zombie c fs h -> c_flush c = true ->
  In f (port_step c None fs) -> held f = [].
Proof.
  intros R W H Hc BM NZ Fl I.
  assert (EN : env_ok c None fs h) by (split; [exact BM|discriminate|intros X; congruence|discriminate]).
  pose proof (reach_step _ _ _ _ c None H Hc EN NZ) as H'. pose proof (c44_contents _ _ _ _ R W H') as C1.
  apply (in_map held) in I. rewrite C1 in I. cbn [h_step live] in I. rewrite map_map in I. apply in_map_iff in I. destruct I as (fl & E & _).
  cbn [enter] in E. rewrite (survive_flush c _ Fl) in E. now rewrite <- E.
Qed.
(** C11: in any state a flush empties every input slot and leaves nothing in a
    single-cycle unit. *)
Theorem c11_flush_slots c fs iss f : c_flush c = true -> In f (port_step c iss fs) -> f_slot f = None.
Proof.
  intros Fl I. unfold port_step, pipeline in I. rewrite Fl in I. cbn [orb] in I.
  assert (I' : In f (map fst (map (fu_c c) (fst (exec c fs))))) by (destruct iss; exact I). rewrite map_map in I'.
  apply in_map_iff in I'. destruct I' as (fr & <- & _). cbn. now rewrite Fl.
Qed.

(** The concrete ports meet the hypotheses. *)
Definition ctl0 (now : nat) : ctl := Ctl now false false 0 0.
Definition ctl_flush (now : nat) : ctl := Ctl now true false 0 0.
Definition ctl_mis (now : nat) (m : Z) : ctl := Ctl now false true m m.
Definition op (id o : nat) (m fn : Z) : einst := Einst id o m fn 0.
Fixpoint runs (fs : list fu) (h : hist) (l : list (ctl * option einst)) : list fu * hist :=
  match l with
  | [] => (fs, h)
  | (c, i) :: l' => runs (port_step c i fs) (h_step c i (option_map e_id (winner c fs)) fs h) l'
  end.
Definition h0 (fs : list fu) : hist := Hist (map (fun _ => []) fs) [] [] [].
Definition env_b (c : ctl) (i : option einst) (fs : list fu) (h : hist) : bool :=
  (0 <=? c_brmask c)%Z && match i with
  | Some u => fu_ready c (fst (exec c fs)) (e_op u) && negb (c_flush c) && negb (c_mispred c) && negb (existsb (Nat.eqb (e_id u)) (accepted h))
  | None => true end.
Fixpoint env_all (now : nat) (fs : list fu) (h : hist) (l : list (ctl * option einst)) : bool :=
  match l with
  | [] => true
  | (c, i) :: l' => (c_now c =? now) && env_b c i fs h && env_all (S now) (port_step c i fs) (h_step c i (option_map e_id (winner c fs)) fs h) l'
  end.
Lemma env_b_ok c i fs h : env_b c i fs h = true -> env_ok c i fs h.
Proof.
  unfold env_b. rewrite andb_true_iff. intros [B H]. apply Z.leb_le in B. destruct i as [u|].
  - rewrite !andb_true_iff, !negb_true_iff in H. destruct H as [[[H1 H2] H3] H4]. split; auto.
    + intros v E. injection E as <-. exact H1.
    + intros v E. injection E as <-. intros X. assert (Y : existsb (Nat.eqb (e_id u)) (accepted h) = true); [|congruence].
      apply existsb_exists. exists (e_id u). split; [exact X|apply Nat.eqb_refl].
  - split; auto; try discriminate. congruence.
Qed.
Lemma runs_any fs0 l : forall now fs h, reach_any fs0 now fs h -> env_all now fs h l = true ->
  reach_any fs0 (length l + now) (fst (runs fs h l)) (snd (runs fs h l)).
Proof.
  induction l as [|[c i] l IH]; intros now fs h R H; [exact R|]. cbn [env_all runs length] in *. rewrite !andb_true_iff in H. destruct H as [[H1 H2] H3].
  replace (S (length l) + now) with (length l + S now) by lia. apply IH; [|exact H3]. apply any_step; [exact R|now apply Nat.eqb_eq|now apply env_b_ok].
Qed.
Lemma runs_reach fs0 l : forall now fs h, reach fs0 now fs h -> env_all now fs h l = true -> forallb (fun ci => negb (c_flush (fst ci))) l = true ->
  reach fs0 (length l + now) (fst (runs fs h l)) (snd (runs fs h l)).
Proof.
  induction l as [|[c i] l IH]; intros now fs h R H Q; [exact R|]. cbn [env_all runs length forallb fst] in *. rewrite !andb_true_iff in H. destruct H as [[H1 H2] H3].
  apply andb_true_iff in Q. destruct Q as [Q1 Q2]. apply negb_true_iff in Q1.
  replace (S (length l) + now) with (length l + S now) by lia. apply IH; [|exact H3|exact Q2]. apply reach_step; [exact R|now apply Nat.eqb_eq|now apply env_b_ok|].
  intros X. congruence.
Qed.
Lemma wf_units3 a b c d e g : (forall k L, k = b \/ k = d -> k <> KFixed L) -> (forall L, a = KFixed L -> 1 <= L) ->
  c <> e -> c <> g -> e <> g ->
  well_formed [fu_init a (Nat.eqb c); fu_init b (Nat.eqb e); fu_init d (Nat.eqb g)].
Proof.
  intros HK HL D1 D2 D3. split.
  - intros i j f f' o N1 N2 O1 O2. destruct i as [|[|[|i]]], j as [|[|[|j]]]; try reflexivity; cbn in N1, N2; try (destruct i; discriminate); try (destruct j; discriminate);
    injection N1 as <-; injection N2 as <-; cbn in O1, O2; apply Nat.eqb_eq in O1, O2; congruence.
  - intros i f L N K. destruct i as [|[|[|i]]]; cbn in N; try (destruct i; discriminate); injection N as <-; cbn in K.
    + auto.
    + exfalso. exact (HK b L (or_introl eq_refl) K).
    + exfalso. exact (HK d L (or_intror eq_refl) K).
Qed.
Example port0_ok : well_formed port0 /\ at_reset port0.
Proof. split; [apply wf_units3; first [discriminate | intros k L [->| ->]; discriminate | intros L E; first [discriminate E | injection E as <-; lia]]|repeat constructor]. Qed.
Example port1_ok : well_formed port1 /\ at_reset port1.
Proof. split; [apply wf_units3; first [discriminate | intros k L [->| ->]; discriminate | intros L E; first [discriminate E | injection E as <-; lia]]|repeat constructor]. Qed.
Example port_single_ok o : well_formed (port_single o) /\ at_reset (port_single o).
Proof.
  split; [split|repeat constructor].
  - intros [|i] [|j] f g p N1 N2 _ _; try reflexivity; cbn in *; [destruct j|destruct i|destruct i]; discriminate.
  - intros [|i] f L N K; cbn in N; [injection N as <-; discriminate|destruct i; discriminate].
Qed.
(** Port 0: a multiplication issued in cycle 1 and an ALU operation issued in
    cycle 2 collide in cycle 3; the multiplication goes first. *)
Example c44_example : let s := runs port0 (h0 port0) [(ctl0 1, Some (op 7 1 0 0)); (ctl0 2, Some (op 8 0 4 0))] in
  reach port0 3 (fst s) (snd s) /\ option_map e_id (winner (ctl0 3) (fst s)) = Some 7 /\
  map (option_map e_id) (bypass (ctl0 3) (fst s)) = [Some 7; Some 8; None] /\
  delivered (snd (runs (fst s) (snd s) [(ctl0 3, None); (ctl0 4, None)])) = [7; 8] /\
  squashed (snd (runs (fst s) (snd s) [(ctl_mis 3 4, None); (ctl0 4, None)])) = [8].
Proof.
  split; [|vm_compute; auto].
  apply (runs_reach port0 [(ctl0 1, Some (op 7 1 0 0)); (ctl0 2, Some (op 8 0 4 0))] 1 port0 (h0 port0)); [constructor|reflexivity|reflexivity].
Qed.

(** C11 refuted: a division with an empty branch mask survives the flush and
    nineteen cycles after its issue is written back and reported complete. *)
Definition idle (from n : nat) : list (ctl * option einst) := map (fun k => (ctl0 k, None)) (seq from n).
Theorem c11_flush_empties_refuted : exists fs0 now fs h c f,
  at_reset fs0 /\ well_formed fs0 /\ reach fs0 now fs h /\ c_now c = now /\ c_flush c = true /\
  In f (port_step c None fs) /\ held f <> [] /\
  exists l, forallb (fun ci => negb (is_some (snd ci))) l = true /\
    let s := fst (runs (port_step c None fs) h l) in
    exists c', c_flush c' = false /\ to_rob c' s <> None /\ to_prf c' s <> None /\ c_now c' = length l + S now.
Proof.
  set (l0 := (ctl0 1, Some (op 5 2 0 0)) :: idle 2 3).
  exists port1, 5, (fst (runs port1 (h0 port1) l0)), (snd (runs port1 (h0 port1) l0)), (ctl_flush 5), (nth 0 (port_step (ctl_flush 5) None (fst (runs port1 (h0 port1) l0))) (fu_init KSingle (Nat.eqb 0))).
  split; [apply port1_ok|]. split; [apply port1_ok|]. split; [apply (runs_reach port1 l0 1); [constructor|reflexivity|reflexivity]|].
  split; [reflexivity|]. split; [reflexivity|]. split; [apply nth_In; vm_compute; lia|]. split; [vm_compute; discriminate|].
  exists (idle 6 14). split; [reflexivity|]. exists (ctl0 20). repeat split; vm_compute; discriminate.
Qed.

(** C44 refuted without the restriction: the port accepts a second division
    after the flush and drops it, neither delivered nor squashed. *)
Theorem c44_exactly_once_refuted : exists fs0 now fs h n,
  at_reset fs0 /\ well_formed fs0 /\ reach_any fs0 now fs h /\ In n (accepted h) /\
  ~ In n (delivered h) /\ ~ In n (squashed h) /\ forall f, In f fs -> held f = [].
Proof.
  set (l := [(ctl0 1, Some (op 5 2 0 0))] ++ idle 2 3 ++ [(ctl_flush 5, None); (ctl0 6, Some (op 9 2 0 0))] ++ idle 7 14).
  exists port1, 21, (fst (runs port1 (h0 port1) l)), (snd (runs port1 (h0 port1) l)), 9.
  split; [apply port1_ok|]. split; [apply port1_ok|]. split; [apply (runs_any port1 l 1); [constructor|vm_compute; reflexivity]|].
  split; [vm_compute; auto|]. split; [vm_compute; intuition discriminate|]. split; [vm_compute; intuition discriminate|].
  vm_compute. intros f [<-|[<-|[<-|[]]]]; reflexivity.
Qed.

Print Assumptions c44_exactly_once.
Print Assumptions c44_contents.
Print Assumptions c44_bypass_exact.
Print Assumptions c44_delivers.
Print Assumptions c44_pipelined_on_time.
Print Assumptions c44_ready_exact.
Print Assumptions c10_units_mispredict_exact.
Print Assumptions c11_flush_empties_partial.
Print Assumptions c11_flush_slots.
Print Assumptions c11_flush_empties_refuted.
Print Assumptions c44_exactly_once_refuted.
