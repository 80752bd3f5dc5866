(** Running a netlist on partly unknown inputs.  A bit is 0, 1, an input bit
    (possibly negated) or unknown; one such run covers every input that agrees
    with its known bits. *)
From Verif Require Import Base NetModel.
From Coq Require Import PArith Lia.
Local Open Scope Z_scope.

(** *** Two interpretations related gate by gate *)
Section Rel.
  Context {V W : Type} (R : V -> W -> Prop) (vF : V) (vneg : V -> V) (vand : V -> V -> V)
          (wF : W) (wneg : W -> W) (wand : W -> W -> W).
  Hypothesis HF : R vF wF.
  Hypothesis Hneg : forall v w, R v w -> R (vneg v) (wneg w).
  Hypothesis Hand : forall v w v' w', R v w -> R v' w' -> R (vand v v') (wand w w').
  Inductive trel : tr V -> tr W -> Prop :=
  | tr_lf : trel Lf Lf
  | tr_nd l l' o o' r r' : trel l l' -> match o, o' with Some v, Some w => R v w | None, None => True | _, _ => False end ->
      trel r r' -> trel (Nd l o r) (Nd l' o' r').
  Lemma trel_l t t' : trel t t' -> trel (lft t) (lft t').
  Proof. intros []; cbn; [constructor | assumption]. Qed.
  Lemma trel_r t t' : trel t t' -> trel (rgt t) (rgt t').
  Proof. intros []; cbn; [constructor | assumption]. Qed.
  Lemma trel_top t t' : trel t t' -> match top t, top t' with Some v, Some w => R v w | None, None => True | _, _ => False end.
  Proof. intros []; cbn; [exact I | assumption]. Qed.
  Lemma trel_put p v w : R v w -> forall t t', trel t t' -> trel (put p v t) (put p w t').
  Proof.
    intros Hv. induction p as [q IH|q IH|]; intros t t' Ht; cbn [put];
      (constructor; [| | ]); try (apply trel_l); try (apply trel_r); try (apply trel_top); try assumption.
    - apply IH, trel_r, Ht.
    - apply IH, trel_l, Ht.
  Qed.
  Lemma trel_get p : forall t t', trel t t' -> match get p t, get p t' with Some v, Some w => R v w | None, None => True | _, _ => False end.
  Proof.
    induction p as [q IH|q IH|]; intros t t' Ht; cbn [get].
    - apply IH, trel_r, Ht.
    - apply IH, trel_l, Ht.
    - apply trel_top, Ht.
  Qed.
  Lemma node_rel m m' n : trel m m' -> R (node vF m n) (node wF m' n).
  Proof.
    intros H. unfold node. assert (G := trel_get n _ _ H).
    destruct (get n m), (get n m'); try contradiction; [exact G | exact HF].
  Qed.
  Lemma lit_rel m m' c : trel m m' -> R (lit vF vneg m c) (lit wF wneg m' c).
  Proof. intros H. destruct c; cbn [lit]; [apply Hneg | | exact HF]; apply node_rel, H. Qed.
  Lemma load_rel vs ws : Forall2 R vs ws -> forall n m m', trel m m' -> trel (load vs n m) (load ws n m').
  Proof. induction 1 as [|v w vs ws Hv _ IH]; intros n m m' H; cbn [load]; [exact H|]. apply IH, trel_put; assumption. Qed.
  Lemma gates_rel gs : forall n m m', trel m m' -> trel (gates vF vneg vand gs n m) (gates wF wneg wand gs n m').
  Proof.
    induction gs as [|[a b] gs IH]; intros n m m' H; cbn [gates]; [exact H|].
    apply IH, trel_put; [|exact H]. apply Hand; apply lit_rel, H.
  Qed.
  Lemma run_rel net vs ws : Forall2 R vs ws -> Forall2 R (run vF vneg vand net vs) (run wF wneg wand net ws).
  Proof.
    intros H. unfold run.
    assert (T : trel (gates vF vneg vand (fst net) 69 (load vs 2 Lf)) (gates wF wneg wand (fst net) 69 (load ws 2 Lf))).
    { apply gates_rel, load_rel; [exact H | constructor]. }
    induction (snd net) as [|c l IH]; cbn [map]; constructor; [apply lit_rel, T | exact IH].
  Qed.
End Rel.

(** *** Bits known, equal to an input, or unknown *)
Inductive av := K (b : bool) | In_ (neg : bool) (k : positive) | X.
Definition aneg (v : av) : av := match v with K b => K (negb b) | In_ s k => In_ (negb s) k | X => X end.
Definition aand (v w : av) : av :=
  match v, w with
  | K false, _ => K false | K true, _ => w
  | _, K false => K false | _, K true => v
  | In_ s k, In_ t l => if (k =? l)%positive then if Bool.eqb s t then v else K false else X
  | _, _ => X
  end.
(** [rho] gives the input bits. *)
Definition den (rho : positive -> bool) (v : av) (b : bool) : Prop :=
  match v with K c => b = c | In_ s k => b = xorb s (rho k) | X => True end.
Lemma aneg_ok rho v b : den rho v b -> den rho (aneg v) (negb b).
Proof. destruct v; cbn; intros; subst; try exact I; [reflexivity|]. destruct neg, (rho k); reflexivity. Qed.
Lemma aand_ok rho v b w c : den rho v b -> den rho w c -> den rho (aand v w) (b && c).
Proof.
  destruct v as [x|s k|], w as [y|t l|]; cbn [den aand]; intros Hb Hc; subst; try exact I;
    try (destruct x; cbn; auto; fail); try (destruct y; cbn; rewrite ?andb_true_r, ?andb_false_r; auto; fail).
  destruct (Pos.eqb_spec k l) as [->|]; [|exact I].
  destruct s, t; cbn [Bool.eqb den xorb]; destruct (rho l); reflexivity.
Qed.
Definition arun (net : netlist) (pi : list av) : list av := run (K false) aneg aand net pi.
Theorem arun_sound rho net pi bs : Forall2 (den rho) pi bs -> Forall2 (den rho) (arun net pi) (run false negb andb net bs).
Proof. apply run_rel; [reflexivity | apply aneg_ok | apply aand_ok]. Qed.

(** *** Two runs at once: equal bits, or both known *)
Inductive pv := B2 (x y : bool) | Same | XX.
Definition pneg (v : pv) : pv := match v with B2 x y => B2 (negb x) (negb y) | _ => v end.
Definition pand (v w : pv) : pv :=
  match v, w with
  | B2 x y, B2 x' y' => B2 (x && x') (y && y')
  | B2 false false, _ | _, B2 false false => B2 false false
  | B2 true true, _ => w | _, B2 true true => v
  | Same, Same => Same
  | _, _ => XX
  end.
Definition pden (v : pv) (b : bool * bool) : Prop :=
  match v with B2 x y => b = (x, y) | Same => fst b = snd b | XX => True end.
Definition neg2 (b : bool * bool) := (negb (fst b), negb (snd b)).
Definition and2 (b c : bool * bool) := (fst b && fst c, snd b && snd c).
Lemma pneg_ok v b : pden v b -> pden (pneg v) (neg2 b).
Proof. destruct v, b as [p q]; cbn; intros H; try exact I; [injection H as -> -> | subst]; reflexivity. Qed.
Lemma pand_ok v b w c : pden v b -> pden w c -> pden (pand v w) (and2 b c).
Proof.
  destruct b as [p q], c as [p' q']. unfold and2. cbn [fst snd].
  destruct v as [x y| |], w as [x' y'| |]; cbn [pden fst snd]; intros Hb Hc;
    try (injection Hb as -> ->); try (injection Hc as -> ->); try subst;
    try (destruct x, y); try (destruct x', y'); cbn; rewrite ?andb_true_r, ?andb_false_r; try exact I; reflexivity.
Qed.
Definition prun (net : netlist) (pi : list pv) : list pv := run (B2 false false) pneg pand net pi.

Lemma run_length {V} (vF : V) vneg vand net pi : length (run vF vneg vand net pi) = length (snd net).
Proof. unfold run. apply map_length. Qed.

Lemma f2_fst (l : list (bool * bool)) : Forall2 (fun b x => fst b = x) l (map fst l).
Proof. induction l; cbn; constructor; auto. Qed.
Lemma f2_snd (l : list (bool * bool)) : Forall2 (fun b x => snd b = x) l (map snd l).
Proof. induction l; cbn; constructor; auto. Qed.
Lemma f2_map_fst l l' : Forall2 (fun (b : bool * bool) x => fst b = x) l l' -> l' = map fst l.
Proof. induction 1; cbn; congruence. Qed.
Lemma f2_map_snd l l' : Forall2 (fun (b : bool * bool) x => snd b = x) l l' -> l' = map snd l.
Proof. induction 1; cbn; congruence. Qed.
Definition same_out (v : pv) : Prop := match v with Same => True | B2 x y => x = y | XX => False end.
Lemma same_eq vs bs : Forall2 pden vs bs -> Forall same_out vs -> map fst bs = map snd bs.
Proof.
  induction 1 as [|v b vs bs Hb _ IH]; intros E; [reflexivity|].
  inversion E as [|? ? Ev Es]; subst. cbn [map]. f_equal; [|apply IH, Es].
  destruct v as [x y| |]; cbn in Hb, Ev; [subst; reflexivity | exact Hb | contradiction].
Qed.
(** Where the first n output pairs are "same", the two runs agree. *)
Theorem prun_same net pi bs n : Forall2 pden pi bs -> Forall same_out (firstn n (prun net pi)) ->
  firstn n (run false negb andb net (map fst bs)) = firstn n (run false negb andb net (map snd bs)).
Proof.
  intros H E.
  assert (R := run_rel pden (B2 false false) pneg pand (false, false) neg2 and2 eq_refl pneg_ok pand_ok net pi bs H).
  assert (R1 : Forall2 (fun b x => fst b = x) (run (false, false) neg2 and2 net bs) (run false negb andb net (map fst bs))).
  { apply run_rel; [reflexivity | intros; subst; reflexivity | intros; subst; reflexivity | apply f2_fst]. }
  assert (R2 : Forall2 (fun b x => snd b = x) (run (false, false) neg2 and2 net bs) (run false negb andb net (map snd bs))).
  { apply run_rel; [reflexivity | intros; subst; reflexivity | intros; subst; reflexivity | apply f2_snd]. }
  apply f2_map_fst in R1. apply f2_map_snd in R2. rewrite R1, R2.
  fold (prun net pi) in R. revert E R. generalize (prun net pi) (run (false, false) neg2 and2 net bs). clear. intros vs os E R.
  rewrite !firstn_map. apply (same_eq (firstn n vs)); [|exact E].
  revert n E. induction R as [|v b vs os Hb _ IH]; intros [|n] E; cbn [firstn] in *; constructor; auto.
  inversion E; subst. apply IH; assumption.
Qed.

(** *** Patterns for 32-bit words *)
(** [Some b]: the bit is b; [None]: free, the input bit itself. *)
Definition pat := list (option bool).
Fixpoint cube (p : pat) (k : positive) : list av :=
  match p with [] => [] | o :: p' => (match o with Some b => K b | None => In_ false k end) :: cube p' (Pos.succ k) end.
Definition fits (o : option bool) (b : bool) : Prop := match o with Some c => b = c | None => True end.
(** Bit k of the inputs, counted from 1. *)
Definition rho_of (bs : list bool) (k : positive) : bool := nth (pred (Pos.to_nat k)) bs false.
Lemma cube_den pre p bs rho_bs : Forall2 fits p bs -> rho_bs = pre ++ bs ->
  Forall2 (den (rho_of rho_bs)) (cube p (Pos.of_succ_nat (length pre))) bs.
Proof.
  intros H. revert pre rho_bs. induction H as [|o b p bs Hb H IH]; intros pre rb E; cbn [cube]; constructor.
  - destruct o as [c|]; cbn in *; [exact Hb|].
    unfold rho_of. rewrite SuccNat2Pos.id_succ. cbn [pred]. subst rb. rewrite app_nth2, Nat.sub_diag by lia. cbn [nth]. destruct b; reflexivity.
  - specialize (IH (pre ++ [b]) rb). rewrite app_length in IH. cbn [length] in IH.
    replace (length pre + 1)%nat with (S (length pre)) in IH by lia. rewrite SuccNat2Pos.inj_succ in IH || idtac.
    change (Pos.of_succ_nat (S (length pre))) with (Pos.succ (Pos.of_succ_nat (length pre))) in IH.
    apply IH. subst rb. rewrite <- app_assoc. reflexivity.
Qed.
Theorem cube_sound net p bs : Forall2 fits p bs ->
  Forall2 (den (rho_of bs)) (arun net (cube p 1)) (run false negb andb net bs).
Proof. intros H. apply arun_sound. exact (cube_den [] p bs bs H eq_refl). Qed.

(** What is expected of an output bit; [X] expects nothing. *)
Definition meets (e v : av) : bool :=
  match e, v with
  | X, _ => true
  | K a, K b => Bool.eqb a b
  | In_ s k, In_ t l => Bool.eqb s t && (k =? l)%positive
  | _, _ => false end.
Fixpoint all2 {A B} (f : A -> B -> bool) (l : list A) (m : list B) : bool :=
  match l, m with [], [] => true | x :: l', y :: m' => f x y && all2 f l' m' | _, _ => false end.
Definition holds (net : netlist) (p : pat) (e : list av) : bool := all2 meets e (arun net (cube p 1)).
Lemma meets_den rho e v b : meets e v = true -> den rho v b -> den rho e b.
Proof.
  destruct e as [a|s k|], v as [c|t l|]; cbn; intros H D; try discriminate; try exact I.
  - apply Bool.eqb_prop in H. congruence.
  - apply andb_true_iff in H as [H1 H2]. apply Bool.eqb_prop in H1. apply Pos.eqb_eq in H2. congruence.
Qed.
Theorem holds_sound net p e bs : holds net p e = true -> Forall2 fits p bs ->
  Forall2 (den (rho_of bs)) e (run false negb andb net bs).
Proof.
  unfold holds. intros H F. assert (S := cube_sound net p bs F). revert H.
  generalize e. induction S as [|v b vs bs' Hb _ IH]; intros [|x l] H; cbn in H; try discriminate; constructor.
  - apply andb_true_iff in H as [H _]. exact (meets_den _ _ _ _ H Hb).
  - apply andb_true_iff in H as [_ H]. apply IH, H.
Qed.
