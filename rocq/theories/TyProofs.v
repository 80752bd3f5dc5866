(** Proofs for C65. *)
From Verif Require Import Base BaseLemmas BpModel TyModel TySpec.
From Coq Require Import Lia.
Local Open Scope Z_scope.
Ltac Zify.zify_post_hook ::= Z.div_mod_to_equations.

(** * Keys *)
Lemma ty_word_eq pc : ty_word pc = (pc / 4) / 4.
Proof. unfold ty_word. rewrite !Z.shiftr_div_pow2 by lia. reflexivity. Qed.
Lemma ty_set_eq pc : ty_set pc = ((pc / 4) / 4) mod 32.
Proof. unfold ty_set. change 31 with (Z.ones 5). rewrite Z.land_ones, ty_word_eq by lia. reflexivity. Qed.
Lemma ty_tag_eq pc : ty_tag pc = ((pc / 4) / 128) mod 4096.
Proof.
  unfold ty_tag. change 4095 with (Z.ones 12). rewrite Z.land_ones, ty_word_eq, Z.shiftr_div_pow2 by lia.
  change (2 ^ 5) with 32. change (2 ^ 12) with 4096. rewrite Z.div_div by lia. reflexivity.
Qed.
Lemma ty_bank_eq pc : ty_bank pc = Z.to_nat ((pc / 4) mod 4).
Proof. unfold ty_bank. rewrite Z.shiftr_div_pow2 by lia. reflexivity. Qed.
Lemma same_set_iff a b : same_set a b <-> ty_bank a = ty_bank b /\ ty_set a = ty_set b.
Proof.
  unfold same_set. rewrite !ty_bank_eq, !ty_set_eq. change (2 ^ 7) with 128.
  generalize (a / 4) (b / 4). intros x y. split; [intros; split|intros [H H0]]; lia.
Qed.
Lemma same_key_iff a b : same_key a b <-> (ty_bank a = ty_bank b /\ ty_set a = ty_set b) /\ ty_tag a = ty_tag b.
Proof.
  rewrite <- same_set_iff. unfold same_set, same_key. rewrite !ty_tag_eq. change (2 ^ 7) with 128. change (2 ^ 19) with 524288.
  generalize (a / 4) (b / 4). intros x y. split; [intros; split|intros [H H0]]; lia.
Qed.
Lemma same_key_set a b : same_key a b -> same_set a b.
Proof. intros H. apply same_set_iff. now apply same_key_iff in H. Qed.

(** * One set *)
Definition wset (e : nat -> tent) (w : nat) (v : tent) : nat -> tent := fun w' => if (w' =? w)%nat then v else e w'.
Definition swrite (E e : nat -> tent) (u : Z * Z) : nat -> tent :=
  match ty_update E (fst u) (snd u) with None => e | Some (w, v) => wset e w v end.
Definition scycle (E : nat -> tent) (l : list (Z * Z)) : nat -> tent := fold_left (swrite E) l E.
Definition of_set (b : nat) (x : Z) (us : list (Z * Z)) : list (Z * Z) :=
  map (fun u => (ty_tag (fst u), snd u))
      (filter (fun u => (ty_bank (fst u) =? b)%nat && (ty_set (fst u) =? x)) us).

Lemma cycle_set t us b x w : ty_cycle t us b x w = scycle (t b x) (of_set b x us) w.
Proof.
  unfold ty_cycle, scycle.
  assert (G: forall us t' e, (forall w, t' b x w = e w) -> forall w,
    fold_left (ty_write t) us t' b x w = fold_left (swrite (t b x)) (of_set b x us) e w).
  { clear us w. induction us as [|[pc ty] us IH]; intros t' e H w; [apply H|]. cbn [fold_left of_set filter map fst snd].
    destruct ((ty_bank pc =? b)%nat && (ty_set pc =? x)) eqn:M.
    - apply andb_true_iff in M. destruct M as [M1 M2]. apply Nat.eqb_eq in M1. apply Z.eqb_eq in M2.
      cbn [map fold_left fst snd]. apply IH. intros w'. unfold ty_write, swrite. cbn [fst snd]. rewrite M1, M2.
      destruct (ty_update _ _ _) as [[k v]|]; [|apply H]. unfold tset, wset. rewrite Nat.eqb_refl, Z.eqb_refl. cbn [andb].
      destruct (w' =? k)%nat; [reflexivity|apply H].
    - apply IH. intros w'. unfold ty_write. destruct (ty_update _ _ _) as [[k v]|]; [|apply H]. unfold tset.
      destruct (Nat.eqb_spec b (ty_bank pc)) as [->|]; [|apply H].
      destruct (Z.eqb_spec x (ty_set pc)) as [->|]; [|apply H].
      rewrite Nat.eqb_refl, Z.eqb_refl in M. discriminate. }
  now apply G.
Qed.

Definition mt (e : nat -> tent) (w : nat) (k : Z) : Prop := ty_matches (e w) k = true.
Definition uniq (e : nat -> tent) : Prop :=
  (forall w w' k, (w < 2)%nat -> (w' < 2)%nat -> mt e w k -> mt e w' k -> w = w') /\
  (forall w, (w < 2)%nat -> te_valid (e w) = true -> te_type (e w) <> BR_NONCTL).
Definition way_for (E : nat -> tent) (k : Z) : nat := match ty_hit E k with Some w => w | None => ty_victim E end.

Lemma hit_some e k w : ty_hit e k = Some w -> (w < 2)%nat /\ mt e w k.
Proof. intros H. apply find_some in H. destruct H as [I M]. apply in_seq in I. split; [unfold TYW in I; lia|exact M]. Qed.
Lemma hit_none e k w : ty_hit e k = None -> (w < 2)%nat -> ~ mt e w k.
Proof. intros H L M. pose proof (find_none _ _ H w) as N. unfold mt in M. cbn beta in N. rewrite N in M; [discriminate|apply in_seq; unfold TYW; lia]. Qed.
Lemma hit_is e k w : uniq e -> (w < 2)%nat -> mt e w k -> ty_hit e k = Some w.
Proof.
  intros U L M. destruct (ty_hit e k) as [w'|] eqn:H.
  - destruct (hit_some _ _ _ H) as [L' M']. f_equal. exact (proj1 U w' w k L' L M' M).
  - destruct (hit_none _ _ w H L M).
Qed.
Lemma victim_lt e : (ty_victim e < 2)%nat.
Proof.
  unfold ty_victim. destruct (find _ _) as [w|] eqn:F.
  - apply find_some in F. destruct F as [I _]. apply in_seq in I. unfold TYW in I. lia.
  - unfold TYW. cbn [seq fold_left Nat.sub]. destruct (_ <? _); cbn [fst]; lia.
Qed.
Lemma victim_empty e w : (w < 2)%nat -> te_valid (e w) = false -> te_valid (e (ty_victim e)) = false.
Proof.
  intros L V. unfold ty_victim. destruct (find _ _) as [w'|] eqn:F.
  - apply find_some in F. destruct F as [_ F]. now apply negb_true_iff in F.
  - pose proof (find_none _ _ F w) as N. cbn beta in N. rewrite V in N. discriminate N. apply in_seq. unfold TYW. lia.
Qed.
Lemma way_lt E k : (way_for E k < 2)%nat.
Proof. unfold way_for. destruct (ty_hit E k) eqn:H; [exact (proj1 (hit_some _ _ _ H))|apply victim_lt]. Qed.

(** The write done for an update *)
Lemma update_cases E k ty :
  (ty = BR_NONCTL /\ ty_hit E k = None /\ ty_update E k ty = None) \/
  (ty = BR_NONCTL /\ ty_hit E k <> None /\ ty_update E k ty = Some (way_for E k, tent0)) \/
  (ty <> BR_NONCTL /\ exists c a, ty_update E k ty = Some (way_for E k, TEnt true k ty c a) /\
     (c = 1 \/ exists w, ty_hit E k = Some w /\ te_type (E w) = ty /\ c = ty_inc (te_conf (E w)))).
Proof.
  unfold ty_update, way_for. destruct (Z.eqb_spec ty BR_NONCTL) as [->|N].
  - destruct (ty_hit E k); [right; left|left]; repeat split; discriminate.
  - right; right. split; [exact N|]. destruct (ty_hit E k) as [w|] eqn:H.
    + destruct (Z.eqb_spec (te_type (E w)) ty) as [T|T]; do 2 eexists; split; try reflexivity.
      * now rewrite T.
      * right. now exists w.
      * now left.
    + do 2 eexists. split; [reflexivity|]. now left.
Qed.

(** Where an entry found after a cycle comes from *)
Lemma scycle_origin E l w k : uniq E -> (w < 2)%nat -> mt (scycle E l) w k ->
  (scycle E l w = E w /\ forall y, ~ In (k, y) l) \/
  (w = way_for E k /\ exists l1 ty l2, l = l1 ++ (k, ty) :: l2 /\ ty <> BR_NONCTL /\ te_type (scycle E l w) = ty /\
     (forall y, In (k, y) l2 -> y = BR_NONCTL) /\
     (te_conf (scycle E l w) = 1 \/ exists w0, ty_hit E k = Some w0 /\ te_type (E w0) = ty /\ te_conf (scycle E l w) = ty_inc (te_conf (E w0)))).
Proof.
  intros U L. induction l as [|[k0 ty0] l IH] using rev_ind; [intros _; left; split; [reflexivity|intros y []]|].
  assert (SE: scycle E (l ++ [(k0, ty0)]) = swrite E (scycle E l) (k0, ty0)) by (unfold scycle; now rewrite fold_left_app).
  rewrite SE. unfold swrite. cbn [fst snd].
  destruct (update_cases E k0 ty0) as [(T & H & ->)|[(T & H & ->)|(T & c & a & -> & HC)]]; cbn beta iota.
  - intros M. destruct (IH M) as [[A B]|(A & l1 & ty & l2 & B & C & D & F & G)].
    + destruct (Z.eq_dec k0 k) as [->|N].
      * unfold mt in M. rewrite A in M. destruct (hit_none _ _ w H L M).
      * left. split; [exact A|]. intros y I. apply in_app_or in I. destruct I as [I|[I|[]]]; [exact (B y I)|congruence].
    + right. split; [exact A|]. exists l1, ty, (l2 ++ [(k0, ty0)]). split; [rewrite B, <- app_assoc; reflexivity|].
      split; [exact C|]. split; [exact D|]. split; [|exact G].
      intros y I. apply in_app_or in I. destruct I as [I|[I|[]]]; [exact (F y I)|congruence].
  - intros M. unfold mt, wset in M. unfold wset. destruct (Nat.eqb_spec w (way_for E k0)) as [E0|N0]; [discriminate|].
    fold (mt (scycle E l) w k) in M. destruct (IH M) as [[A B]|(A & l1 & ty & l2 & B & C & D & F & G)].
    + left. split; [exact A|]. intros y I. apply in_app_or in I. destruct I as [I|[I|[]]]; [exact (B y I)|].
      injection I as -> _. unfold mt in M. rewrite A in M. apply N0. unfold way_for. now rewrite (hit_is E k w U L M).
    + right. split; [exact A|]. exists l1, ty, (l2 ++ [(k0, ty0)]). split; [rewrite B, <- app_assoc; reflexivity|].
      split; [exact C|]. split; [exact D|]. split; [|exact G].
      intros y I. apply in_app_or in I. destruct I as [I|[I|[]]]; [exact (F y I)|congruence].
  - intros M. unfold mt, wset in M. unfold wset. destruct (Nat.eqb_spec w (way_for E k0)) as [E0|N0].
    + unfold ty_matches in M. cbn [te_valid te_tag andb] in M. apply Z.eqb_eq in M. subst k0.
      right. split; [exact E0|]. exists l, ty0, []. split; [reflexivity|]. split; [exact T|]. split; [reflexivity|].
      split; [intros y []|]. exact HC.
    + fold (mt (scycle E l) w k) in M. destruct (IH M) as [[A B]|(A & l1 & ty & l2 & B & C & D & F & G)].
      * left. split; [exact A|]. intros y I. apply in_app_or in I. destruct I as [I|[I|[]]]; [exact (B y I)|].
        injection I as -> _. unfold mt in M. rewrite A in M. apply N0. unfold way_for. now rewrite (hit_is E k w U L M).
      * right. split; [exact A|]. exists l1, ty, (l2 ++ [(k0, ty0)]). split; [rewrite B, <- app_assoc; reflexivity|].
        split; [exact C|]. split; [exact D|]. split; [|exact G].
        intros y I. apply in_app_or in I. destruct I as [I|[I|[]]]; [exact (F y I)|congruence].
Qed.
Lemma scycle_uniq E l : uniq E -> uniq (scycle E l).
Proof.
  intros U. split.
  - intros w w' k L L' M M'.
    destruct (scycle_origin E l w k U L M) as [[A B]|(A & l1 & ty & l2 & B & _)];
    destruct (scycle_origin E l w' k U L' M') as [[A' B']|(A' & l1' & ty' & l2' & B' & _)].
    + apply (proj1 U w w' k L L'); unfold mt in *; congruence.
    + destruct (B ty'). rewrite B'. apply in_or_app. right. now left.
    + destruct (B' ty). rewrite B. apply in_or_app. right. now left.
    + congruence.
  - intros w L V. destruct (scycle_origin E l w (te_tag (scycle E l w)) U L) as [[A B]|(_ & l1 & ty & l2 & _ & N & T & _)].
    + unfold mt, ty_matches. rewrite V, Z.eqb_refl. reflexivity.
    + rewrite A in V |- *. exact (proj2 U w L V).
    + rewrite T. exact N.
Qed.
Lemma uniq_ext e e' : (forall w, e w = e' w) -> uniq e -> uniq e'.
Proof. intros H [A B]. split; [intros w w' k L L' M M'; apply (A w w' k L L'); unfold mt in *; now rewrite H|intros w L V; rewrite <- H in *; now apply B]. Qed.
Lemma hit_ext e e' k : (forall w, e w = e' w) -> ty_hit e k = ty_hit e' k.
Proof. intros H. unfold ty_hit, TYW. cbn [seq find]. now rewrite !H. Qed.
Lemma select_ext e e' k : (forall w, e w = e' w) -> ty_select e k = ty_select e' k.
Proof. intros H. unfold ty_select. rewrite (hit_ext e e' k H). destruct (ty_hit e' k); [now rewrite H|reflexivity]. Qed.
Lemma predict_cycle t us pc :
  ty_predict (ty_cycle t us) pc = ty_select (scycle (t (ty_bank pc) (ty_set pc)) (of_set (ty_bank pc) (ty_set pc) us)) (ty_tag pc).
Proof. unfold ty_predict. apply select_ext. intros w. apply cycle_set. Qed.
Lemma reach_uniq h t : yreach h t -> forall b x, uniq (t b x).
Proof.
  induction 1 as [|h t us R IH]; intros b x; [split; [intros w w' k _ _ M; discriminate M|intros w _ V; discriminate V]|].
  apply uniq_ext with (e := scycle (t b x) (of_set b x us)); [intros w; symmetry; apply cycle_set|apply scycle_uniq, IH].
Qed.

Lemma in_of_set us pc y : In (ty_tag pc, y) (of_set (ty_bank pc) (ty_set pc) us) <-> exists q, In (q, y) us /\ same_key q pc.
Proof.
  unfold of_set. rewrite in_map_iff. split.
  - intros ([q y'] & E & I). cbn [fst snd] in E. injection E as ET ->. apply filter_In in I. destruct I as [I M]. cbn [fst] in M.
    apply andb_true_iff in M. destruct M as [M1 M2]. apply Nat.eqb_eq in M1. apply Z.eqb_eq in M2.
    exists q. split; [exact I|]. now apply same_key_iff.
  - intros (q & I & K). apply same_key_iff in K. destruct K as [[K1 K2] K3]. exists (q, y). cbn [fst snd].
    split; [now rewrite K3|]. apply filter_In. split; [exact I|]. cbn [fst]. now rewrite K1, K2, Nat.eqb_refl, Z.eqb_refl.
Qed.
Lemma split_of_set us pc l1 ty l2 : of_set (ty_bank pc) (ty_set pc) us = l1 ++ (ty_tag pc, ty) :: l2 ->
  (forall y, In (ty_tag pc, y) l2 -> y = BR_NONCTL) -> settles us pc ty.
Proof.
  revert l1. induction us as [|[q y] us IH]; intros l1 E N; [destruct l1; discriminate|].
  unfold of_set in E. cbn [filter fst] in E. destruct ((ty_bank q =? ty_bank pc)%nat && (ty_set q =? ty_set pc)) eqn:M.
  - cbn [map fst snd] in E. fold (of_set (ty_bank pc) (ty_set pc) us) in E.
    destruct l1 as [|z l1].
    + cbn [app] in E. injection E as E1 E2 E3. exists [], q, us. split; [now rewrite E2|]. split.
      * apply andb_true_iff in M. destruct M as [M1 M2]. apply Nat.eqb_eq in M1. apply Z.eqb_eq in M2. now apply same_key_iff.
      * intros q' y' I K. apply N. rewrite <- E3. apply in_of_set. now exists q'.
    + cbn [app] in E. injection E as _ E. destruct (IH l1 E N) as (a & p & b & A & B & C).
      exists ((q, y) :: a), p, b. split; [now rewrite A|]. split; assumption.
  - destruct (IH l1 E N) as (a & p & b & A & B & C).
    exists ((q, y) :: a), p, b. split; [now rewrite A|]. split; assumption.
Qed.
