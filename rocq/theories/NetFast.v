(** Many runs of one netlist at once.  A value is a decision tree over the runs,
    a subtree on which all runs agree being one leaf, so that a gate costs as many
    steps as its value has different parts.  This only makes the checks of
    NetAddChk.v and NetMulChk.v cheap enough for an evaluator without compilation. *)
From Verif Require Import Base NetModel NetAbs NetProofs.
From Coq Require Import PArith Lia.
Local Open Scope Z_scope.

Section Trees.
  Context {V : Type} (vF : V) (vneg : V -> V) (vand : V -> V -> V) (same : V -> V -> bool) (zero one : V -> bool).
  Hypothesis same_ok : forall v w, same v w = true -> v = w.
  Hypothesis zero_l : forall v w, zero v = true -> vand v w = v.
  Hypothesis zero_r : forall v w, zero v = true -> vand w v = v.
  Hypothesis one_l : forall v w, one v = true -> vand v w = w.
  Hypothesis one_r : forall v w, one v = true -> vand w v = w.
  Inductive dt := L (v : V) | D (a b : dt).
  Definition mk (a b : dt) : dt := match a, b with L v, L w => if same v w then a else D a b | _, _ => D a b end.
  Fixpoint dneg (x : dt) : dt := match x with L v => L (vneg v) | D a b => D (dneg a) (dneg b) end.
  Fixpoint dandl (v : V) (y : dt) : dt := match y with L w => L (vand v w) | D a b => mk (dandl v a) (dandl v b) end.
  Fixpoint dandr (v : V) (y : dt) : dt := match y with L w => L (vand w v) | D a b => mk (dandr v a) (dandr v b) end.
  Fixpoint dand (x y : dt) : dt :=
    match x with
    | L v => if zero v then x else if one v then y else dandl v y
    | D a b => match y with
               | L w => if zero w then y else if one w then x else dandr w x
               | D c d => mk (dand a c) (dand b d) end
    end.
  (** The value in the run found by the turns [f]. *)
  Fixpoint walk (f : nat -> bool) (x : dt) : V :=
    match x with L v => v | D a b => if f O then walk (fun n => f (S n)) b else walk (fun n => f (S n)) a end.
  Lemma walk_mk f a b : walk f (mk a b) = if f O then walk (fun n => f (S n)) b else walk (fun n => f (S n)) a.
  Proof using same_ok. unfold mk. destruct a as [v|], b as [w|]; try reflexivity. destruct (same v w) eqn:E; [|reflexivity]. apply same_ok in E. subst w. cbn. destruct (f O); reflexivity. Qed.
  Lemma walk_neg x : forall f, walk f (dneg x) = vneg (walk f x).
  Proof. induction x as [v|a IHa b IHb]; intros f; cbn; [reflexivity|]. destruct (f O); auto. Qed.
  Lemma walk_andl v x : forall f, walk f (dandl v x) = vand v (walk f x).
  Proof using same_ok. induction x as [w|a IHa b IHb]; intros f; cbn [dandl walk]; [reflexivity|]. rewrite walk_mk. destruct (f O); auto. Qed.
  Lemma walk_andr v x : forall f, walk f (dandr v x) = vand (walk f x) v.
  Proof using same_ok. induction x as [w|a IHa b IHb]; intros f; cbn [dandr walk]; [reflexivity|]. rewrite walk_mk. destruct (f O); auto. Qed.
  Lemma walk_and x : forall y f, walk f (dand x y) = vand (walk f x) (walk f y).
  Proof using same_ok zero_l zero_r one_l one_r.
    induction x as [v|a IHa b IHb]; intros y f; cbn [dand].
    - destruct (zero v) eqn:Z0; [cbn; now rewrite zero_l|]. destruct (one v) eqn:O1; [cbn; now rewrite one_l|]. apply walk_andl.
    - destruct y as [w|c d]; [|rewrite walk_mk; cbn [walk]; destruct (f O); auto].
      destruct (zero w) eqn:Z0; [cbn [walk]; now rewrite zero_r|]. destruct (one w) eqn:O1; [cbn [walk]; now rewrite one_r|]. apply (walk_andr w (D a b)).
  Qed.
  (** [e] is what is asked of the outputs of a run. *)
  Context {E : Type} (ask : E -> list V -> bool) (junk : V).
  Hypothesis ask_junk : forall e vs ws, Forall2 (fun v w => v = w \/ v = junk) vs ws -> ask e vs = true -> ask e ws = true.
  Inductive lanes := LL (i : list V) (e : E) | LN (a b : lanes).
  Fixpoint zipmk (l m : list dt) : list dt := match l, m with a :: l', b :: m' => mk a b :: zipmk l' m' | _, _ => [] end.
  Fixpoint ins_of (t : lanes) : list dt := match t with LL i _ => map L i | LN a b => zipmk (ins_of a) (ins_of b) end.
  Definition tip (x : dt) : V := match x with L v => v | D _ _ => junk end.
  Definition lo (x : dt) : dt := match x with L _ => x | D a _ => a end.
  Definition hi (x : dt) : dt := match x with L _ => x | D _ b => b end.
  Fixpoint check (t : lanes) (o : list dt) : bool :=
    match t with
    | LL _ e => ask e (map tip o)
    | LN a b => if check a (map lo o) then check b (map hi o) else false end.
  Definition batch (net : netlist) (t : lanes) : bool := check t (NetModel.run (L vF) dneg dand net (ins_of t)).
  Fixpoint leaves (t : lanes) : list (list V * E) := match t with LL i e => [(i, e)] | LN a b => leaves a ++ leaves b end.
  Fixpoint wide (n : nat) (t : lanes) : Prop := match t with LL i _ => length i = n | LN a b => wide n a /\ wide n b end.

  (** The turns that lead to a leaf. *)
  Fixpoint leads (f : nat -> bool) (t : lanes) (i : list V) (e : E) : Prop :=
    match t with LL i' e' => i = i' /\ e = e' | LN a b => if f O then leads (fun n => f (S n)) b i e else leads (fun n => f (S n)) a i e end.
  Lemma leads_leaf : forall t i e, In (i, e) (leaves t) -> exists f, leads f t i e.
  Proof.
    induction t as [i' e'|a IHa b IHb]; intros i e I.
    - cbn in I. destruct I as [I|[]]. injection I as -> ->. exists (fun _ => false). cbn. auto.
    - cbn in I. apply in_app_or in I. destruct I as [I|I].
      + destruct (IHa _ _ I) as [f F]. exists (fun n => match n with O => false | S m => f m end). exact F.
      + destruct (IHb _ _ I) as [f F]. exists (fun n => match n with O => true | S m => f m end). exact F.
  Qed.
  Lemma zipmk_walk f : forall l m, length l = length m -> map (walk f) (zipmk l m) = if f O then map (walk (fun n => f (S n))) m else map (walk (fun n => f (S n))) l.
  Proof using same_ok.
    induction l as [|a l IH]; intros [|b m] H; try discriminate; [destruct (f O); reflexivity|]. injection H as H. cbn [zipmk map]. rewrite (IH m H). rewrite walk_mk. destruct (f O); reflexivity.
  Qed.
  Lemma zipmk_length : forall l m, length l = length m -> length (zipmk l m) = length l.
  Proof. induction l as [|a l IH]; intros [|b m] H; try discriminate; [reflexivity|]. injection H as H. cbn [zipmk length]. rewrite (IH m H). reflexivity. Qed.
  Lemma ins_length n : forall t, wide n t -> length (ins_of t) = n.
  Proof. induction t as [i e|a IHa b IHb]; cbn; [rewrite map_length; auto|]. intros [A B]. rewrite zipmk_length; [auto|]. rewrite IHa, IHb; auto. Qed.
  Lemma ins_walk n : forall t f i e, wide n t -> leads f t i e -> map (walk f) (ins_of t) = i.
  Proof using same_ok.
    induction t as [i' e'|a IHa b IHb]; intros f i e W H; cbn [ins_of leads wide] in *.
    - destruct H as [-> _]. rewrite map_map. apply map_id.
    - destruct W as [A B]. rewrite zipmk_walk by (rewrite (ins_length n a A), (ins_length n b B); reflexivity). destruct (f O); eauto.
  Qed.
  Lemma check_leads : forall t f i e o, leads f t i e -> check t o = true -> ask e (map (walk f) o) = true.
  Proof using ask_junk.
    induction t as [i' e'|a IHa b IHb]; intros f i e o H C; cbn [leads check] in *.
    - destruct H as [_ ->]. eapply ask_junk; [|exact C]. clear C. induction o as [|x o IH]; cbn; constructor; auto. destruct x; cbn; auto.
    - destruct (check a (map lo o)) eqn:Ca; [|discriminate]. destruct (f O) eqn:F0.
      + pose proof (IHb _ _ _ _ H C) as Q. rewrite map_map in Q. erewrite map_ext; [exact Q|]. intros x. destruct x; cbn [hi walk]; [reflexivity|]. now rewrite F0.
      + pose proof (IHa _ _ _ _ H Ca) as Q. rewrite map_map in Q. erewrite map_ext; [exact Q|]. intros x. destruct x; cbn [lo walk]; [reflexivity|]. now rewrite F0.
  Qed.
  Lemma f2_walk f l m : Forall2 (fun t v => walk f t = v) l m -> map (walk f) l = m.
  Proof. induction 1; cbn; congruence. Qed.
  Theorem batch_ok n net t : wide n t -> batch net t = true -> forall i e, In (i, e) (leaves t) -> ask e (NetModel.run vF vneg vand net i) = true.
  Proof using same_ok zero_l zero_r one_l one_r ask_junk.
    intros W B i e I. destruct (leads_leaf _ _ _ I) as [f F]. unfold batch in B. pose proof (check_leads _ _ _ _ _ F B) as Q.
    rewrite (f2_walk f _ (NetModel.run vF vneg vand net i)) in Q; [exact Q|]. apply run_rel.
    - reflexivity.
    - intros v w <-. apply walk_neg.
    - intros v w v' w' <- <-. apply walk_and.
    - rewrite <- (ins_walk n t f i e W F). clear. induction (ins_of t); cbn; constructor; auto.
  Qed.
End Trees.
Arguments LL {V E}. Arguments LN {V E}.

(** *** Known, input and unknown bits *)
Definition sameav (v w : av) : bool :=
  match v, w with K a, K b => Bool.eqb a b | In_ s k, In_ t l => if Bool.eqb s t then (k =? l)%positive else false | X, X => true | _, _ => false end.
Definition zeroav (v : av) : bool := match v with K false => true | _ => false end.
Definition oneav (v : av) : bool := match v with K true => true | _ => false end.
Definition askav (e v : list av) : bool := all2 meets e v.
Definition abatch (net : netlist) (t : lanes) : bool := batch (K false) aneg aand sameav zeroav oneav askav X net t.
Lemma sameav_ok v w : sameav v w = true -> v = w.
Proof.
  destruct v as [a|s k|], w as [b|t l|]; cbn; try discriminate; intros H; try reflexivity.
  - apply Bool.eqb_prop in H. now subst.
  - destruct (Bool.eqb s t) eqn:E; [|discriminate]. apply Bool.eqb_prop in E. apply Pos.eqb_eq in H. now subst.
Qed.
Lemma askav_junk : forall e vs ws, Forall2 (fun v w => v = w \/ v = X) vs ws -> askav e vs = true -> askav e ws = true.
Proof.
  unfold askav. induction e as [|x e IH]; intros vs ws F; inversion F as [|v w vs' ws' H F' E1 E2]; subst; cbn [all2]; try discriminate; [auto|].
  intros A. apply andb_true_iff in A. destruct A as [A B]. apply andb_true_iff. split; [|eapply IH; eauto]. destruct H as [<-|H]; [exact A|]. subst v. destruct x; cbn in A; try discriminate. reflexivity.
Qed.
Theorem abatch_ok n net t : wide n t -> abatch net t = true -> forall i e, In (i, e) (leaves t) -> all2 meets e (arun net i) = true.
Proof.
  apply batch_ok.
  - exact sameav_ok.
  - intros [[]| |] w; cbn; try discriminate. reflexivity.
  - intros [[]| |] [[]| |]; cbn; try discriminate; reflexivity.
  - intros [[]| |] w; cbn; try discriminate. reflexivity.
  - intros [[]| |] [[]| |]; cbn; try discriminate; reflexivity.
  - exact askav_junk.
Qed.

(** *** Case splits known in advance *)
(** [CN]: excluded; [CO]: one run settles it; [CS]: split on the next variable. *)
Inductive cert := CN | CO | CS (a b : cert).
Fixpoint find_cert (net : netlist) (ins exp : list av) (never : list (list (positive * bool))) (vars : list positive) (p : pat) : option cert :=
  if existsb (inside p) never then Some CN
  else if all2 meets (map (inst p) exp) (arun net (map (inst p) ins)) then Some CO
  else match vars with
       | [] => None
       | v :: vars' =>
           match find_cert net ins exp never vars' (upd (pred (Pos.to_nat v)) (Some false) p) with
           | Some a => match find_cert net ins exp never vars' (upd (pred (Pos.to_nat v)) (Some true) p) with Some b => Some (CS a b) | None => None end
           | None => None end
       end.
Record goal := Goal { q_ins : list av; q_exp : list av; q_never : list (list (positive * bool)); q_vars : list positive; q_pat : pat }.
Definition proved (net : netlist) (g : goal) : bool := prove net (q_ins g) (q_exp g) (q_never g) (q_vars g) (q_pat g).
Definition cert_of (net : netlist) (g : goal) : option cert := find_cert net (q_ins g) (q_exp g) (q_never g) (q_vars g) (q_pat g).
Definition join {V E} (a b : option (@lanes V E)) : option (@lanes V E) :=
  match a, b with None, _ => b | _, None => a | Some x, Some y => Some (LN x y) end.
(** The runs a certificate asks for; the boolean: it is well formed. *)
Fixpoint plan (g : goal) (vars : list positive) (p : pat) (c : cert) {struct c} : bool * option (@lanes av (list av)) :=
  match c with
  | CN => (existsb (inside p) (q_never g), None)
  | CO => (Nat.eqb (length (q_ins g)) 67, Some (LL (map (inst p) (q_ins g)) (map (inst p) (q_exp g))))
  | CS a b => match vars with
              | [] => (false, None)
              | v :: vars' =>
                let (f, x) := plan g vars' (upd (pred (Pos.to_nat v)) (Some false) p) a in
                let (h, y) := plan g vars' (upd (pred (Pos.to_nat v)) (Some true) p) b in (f && h, join x y) end
  end.
Fixpoint plan_all (l : list (goal * option cert)) : bool * option (@lanes av (list av)) :=
  match l with
  | [] => (true, None)
  | (g, Some c) :: l' => let (f, x) := plan g (q_vars g) (q_pat g) c in let (h, y) := plan_all l' in (f && h, join x y)
  | (g, None) :: _ => (false, None)
  end.
(** Halving the list keeps the trees shallow. *)
Fixpoint plan_bal (n : nat) (l : list (goal * option cert)) : bool * option (@lanes av (list av)) :=
  match n with
  | O => plan_all l
  | S n' => let h := Nat.div2 (length l) in
    let (f, x) := plan_bal n' (firstn h l) in let (h, y) := plan_bal n' (skipn h l) in (f && h, join x y)
  end.
Definition all_proved (net : netlist) (l : list (goal * option cert)) : bool :=
  let (f, x) := plan_bal 8 l in if f then match x with Some t => abatch net t | None => true end else false.

Definition runs_ok (net : netlist) (x : option (@lanes av (list av))) : Prop :=
  match x with Some t => forall i e, In (i, e) (leaves t) -> all2 meets e (arun net i) = true | None => True end.
Definition wide67 (x : option (@lanes av (list av))) : Prop := match x with Some t => wide 67 t | None => True end.
Lemma join_ok net x y : runs_ok net (join x y) <-> runs_ok net x /\ runs_ok net y.
Proof.
  destruct x as [x|], y as [y|]; cbn; try tauto. split.
  - intros H. split; intros i e I; apply H; apply in_or_app; auto.
  - intros [A B] i e I. apply in_app_or in I. destruct I; auto.
Qed.
Lemma join_wide x y : wide67 x -> wide67 y -> wide67 (join x y).
Proof. destruct x, y; cbn; tauto. Qed.
Lemma plan_wide g : forall c vars p, fst (plan g vars p c) = true -> wide67 (snd (plan g vars p c)).
Proof.
  induction c as [| |a IHa b IHb]; intros vars p H; cbn [plan] in *; [exact I| |].
  - cbn in *. rewrite map_length. now apply Nat.eqb_eq.
  - destruct vars as [|v vars]; [discriminate|]. specialize (IHa vars (upd (pred (Pos.to_nat v)) (Some false) p)). specialize (IHb vars (upd (pred (Pos.to_nat v)) (Some true) p)).
    destruct (plan g vars (upd (pred (Pos.to_nat v)) (Some false) p) a) as [f x]. destruct (plan g vars (upd (pred (Pos.to_nat v)) (Some true) p) b) as [h y]. cbn [fst snd] in *.
    apply andb_true_iff in H. destruct H. apply join_wide; auto.
Qed.
Lemma plan_prove net g : forall c vars p, fst (plan g vars p c) = true -> runs_ok net (snd (plan g vars p c)) ->
  prove net (q_ins g) (q_exp g) (q_never g) vars p = true.
Proof.
  induction c as [| |a IHa b IHb]; intros vars p H R; cbn [plan] in *.
  - cbn [fst] in H. destruct vars; cbn [prove]; rewrite H; reflexivity.
  - assert (M : all2 meets (map (inst p) (q_exp g)) (arun net (map (inst p) (q_ins g))) = true) by (apply R; now left).
    destruct vars; cbn [prove]; rewrite M; destruct (existsb (inside p) (q_never g)); reflexivity.
  - destruct vars as [|v vars]; [discriminate|]. specialize (IHa vars (upd (pred (Pos.to_nat v)) (Some false) p)). specialize (IHb vars (upd (pred (Pos.to_nat v)) (Some true) p)).
    destruct (plan g vars (upd (pred (Pos.to_nat v)) (Some false) p) a) as [f x]. destruct (plan g vars (upd (pred (Pos.to_nat v)) (Some true) p) b) as [h y]. cbn [fst snd] in *.
    apply andb_true_iff in H. destruct H as [Hf Hh]. apply join_ok in R. destruct R as [Rx Ry]. cbn [prove]. rewrite (IHa Hf Rx), (IHb Hh Ry).
    destruct (existsb (inside p) (q_never g)); [reflexivity|]. destruct (all2 meets _ _); reflexivity.
Qed.
Definition serves (net : netlist) (l : list (goal * option cert)) (r : bool * option (@lanes av (list av))) : Prop :=
  fst r = true -> wide67 (snd r) /\ (runs_ok net (snd r) -> forall g c, In (g, c) l -> proved net g = true).
Lemma serves_app net l m f x h y : serves net l (f, x) -> serves net m (h, y) -> serves net (l ++ m) (f && h, join x y).
Proof.
  unfold serves. cbn [fst snd]. intros A B F. apply andb_true_iff in F. destruct F as [Ff Fh]. destruct (A Ff) as [Wx Px]. destruct (B Fh) as [Wy Py].
  split; [apply join_wide; assumption|]. intros R. apply join_ok in R. destruct R as [Rx Ry]. intros g c I. apply in_app_or in I. destruct I; eauto.
Qed.
Lemma plan_all_serves net : forall l, serves net l (plan_all l).
Proof.
  induction l as [|[g [c|]] l IH]; cbn [plan_all].
  - intros _. split; [exact I|]. intros _ g c [].
  - destruct (plan g (q_vars g) (q_pat g) c) as [f x] eqn:E. destruct (plan_all l) as [h y]. apply (serves_app net [(g, Some c)] l); [|exact IH].
    pose proof (plan_wide g c (q_vars g) (q_pat g)) as W. pose proof (plan_prove net g c (q_vars g) (q_pat g)) as P. rewrite E in W, P. intros F. split; [exact (W F)|].
    intros R g' c' [J|[]]. injection J as <- _. exact (P F R).
  - intros F. discriminate.
Qed.
Lemma plan_bal_serves net : forall n l, serves net l (plan_bal n l).
Proof.
  induction n as [|n IH]; intros l; cbn [plan_bal]; [apply plan_all_serves|]. pose proof (IH (firstn (Nat.div2 (length l)) l)) as A. pose proof (IH (skipn (Nat.div2 (length l)) l)) as B.
  rewrite <- (firstn_skipn (Nat.div2 (length l)) l) at 1. destruct (plan_bal n (firstn _ l)) as [f x]. destruct (plan_bal n (skipn _ l)) as [h y]. apply serves_app; assumption.
Qed.
Theorem all_proved_ok net l : all_proved net l = true -> forall g c, In (g, c) l ->
  prove net (q_ins g) (q_exp g) (q_never g) (q_vars g) (q_pat g) = true.
Proof.
  unfold all_proved. intros H. pose proof (plan_bal_serves net 8 l) as S. destruct (plan_bal 8 l) as [f x]. destruct f; [|discriminate]. destruct (S eq_refl) as [W P]. cbn [snd] in *.
  apply P. destruct x as [t|]; [|exact I]. cbn. eapply abatch_ok; [exact W|exact H].
Qed.

(** *** Two runs at once *)
Definition samepv (v w : pv) : bool :=
  match v, w with B2 a b, B2 c d => if Bool.eqb a c then Bool.eqb b d else false | Same, Same => true | XX, XX => true | _, _ => false end.
Definition zeropv (v : pv) : bool := match v with B2 false false => true | _ => false end.
Definition onepv (v : pv) : bool := match v with B2 true true => true | _ => false end.
Definition askpv (n : nat) (v : list pv) : bool := forallb same_outb (firstn n v).
Definition pbatch (net : netlist) (t : lanes) : bool := batch (B2 false false) pneg pand samepv zeropv onepv askpv XX net t.
Lemma samepv_ok v w : samepv v w = true -> v = w.
Proof.
  destruct v as [a b| |], w as [c d| |]; cbn; try discriminate; intros H; try reflexivity.
  destruct (Bool.eqb a c) eqn:E; [|discriminate]. apply Bool.eqb_prop in E. apply Bool.eqb_prop in H. now subst.
Qed.
Lemma askpv_junk : forall n vs ws, Forall2 (fun v w => v = w \/ v = XX) vs ws -> askpv n vs = true -> askpv n ws = true.
Proof.
  unfold askpv. induction n as [|n IH]; intros vs ws F; [auto|]. inversion F as [|v w vs' ws' H F' E1 E2]; subst; cbn [firstn forallb]; [auto|].
  intros A. apply andb_true_iff in A. destruct A as [A B]. apply andb_true_iff. split; [|eapply IH; eauto]. destruct H as [<-|H]; [exact A|]. subst v. discriminate.
Qed.
Fixpoint plist (l : list (list pv * nat)) : option (@lanes pv nat) := match l with [] => None | (i, e) :: l' => join (Some (LL i e)) (plist l') end.
Definition all_same (net : netlist) (l : list (list pv * nat)) : bool :=
  if forallb (fun x => Nat.eqb (length (fst x)) 67) l then match plist l with Some t => pbatch net t | None => true end else false.
Lemma plist_some : forall l i e, In (i, e) l -> exists t, plist l = Some t /\ In (i, e) (leaves t).
Proof.
  induction l as [|[i' e'] l IH]; intros i e I; [destruct I|]. cbn [plist]. destruct I as [I|I].
  - injection I as -> ->. destruct (plist l) as [t|]; cbn; eexists; split; try reflexivity; cbn; auto.
  - destruct (IH i e I) as (t & -> & J). cbn. eexists. split; [reflexivity|]. cbn. auto.
Qed.
Theorem all_same_ok net l : all_same net l = true -> forall i n, In (i, n) l -> forallb same_outb (firstn n (prun net i)) = true.
Proof.
  unfold all_same. intros H i n I. destruct (forallb _ l) eqn:F; [|discriminate].
  assert (W : match plist l with Some t => wide 67 t | None => True end).
  { clear H I. induction l as [|[i' e'] l IH]; [exact Logic.I|]. cbn [forallb fst] in F. apply andb_true_iff in F. destruct F as [F1 F2]. apply Nat.eqb_eq in F1. specialize (IH F2). cbn [plist]. destruct (plist l); cbn; auto. }
  destruct (plist_some _ _ _ I) as (t & E & J). rewrite E in *.
  refine (batch_ok (B2 false false) pneg pand samepv zeropv onepv _ _ _ _ _ askpv XX _ 67 net t W H i n J).
  - exact samepv_ok.
  - intros [[] []| |] w; cbn; try discriminate. destruct w as [[] []| |]; reflexivity.
  - intros [[] []| |] [[] []| |]; cbn; try discriminate; reflexivity.
  - intros [[] []| |] [[] []| |]; cbn; try discriminate; reflexivity.
  - intros [[] []| |] [[] []| |]; cbn; try discriminate; reflexivity.
  - exact askpv_junk.
Qed.
