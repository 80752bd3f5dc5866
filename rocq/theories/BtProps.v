(** C78: the back-end's evaluation order.  The specification is what the
    functions of a cycle may do with the connections: any behaviour that depends
    only on the listed reads and changes only the listed writes. *)
From Verif Require Import Base BtModel.
Local Open Scope string_scope.
Local Open Scope list_scope.
Local Open Scope bool_scope.

(** *** Specification *)
Section Any.
Variable V : Type.
Definition env := string -> V.
(** [g] is a possible behaviour of a function with the reads and writes of [f]. *)
Definition behaves (f : fn) (g : env -> env) : Prop :=
  (forall e w, ~ In w (f_wr f) -> g e w = e w) /\
  (forall e e', (forall w, In w (f_rd f) -> e w = e' w) -> forall w, In w (f_wr f) -> g e w = g e' w).
Variable sem : fn -> env -> env.
Definition run (l : list fn) (e : env) : env := fold_left (fun e f => sem f e) l e.
(** One clock cycle: the inputs arrive, every function runs. *)
Definition cycle (i e : env) : env :=
  run back_fns (fun w => if existsb (String.eqb w) inputs then i w else e w).
Fixpoint cycles (is : list env) (e : env) : env :=
  match is with [] => e | i :: is' => cycles is' (cycle i e) end.
End Any.
Arguments run {V}. Arguments behaves {V}. Arguments cycle {V}. Arguments cycles {V}.
(** Connections of other modules that a function reads and someone drives later in the cycle. *)
Definition later_driven (l : list fn) (w : string) : bool := existsb (fun f => existsb (String.eqb w) (f_wr f)) l.
(** Module state is read in place; the question concerns connections. *)
Definition is_state (w : string) : bool := existsb (fun m => prefix (String.append m ".") w) mods.
Fixpoint drivers (w : string) (l : list fn) : list string :=
  match l with [] => [] | f :: t => if existsb (String.eqb w) (f_wr f) then f_mod f :: drivers w t else drivers w t end.

(** *** Proofs *)
Lemma eqb_in w l : existsb (String.eqb w) l = true <-> In w l.
Proof. rewrite existsb_exists. split; [intros (x & I & E); apply String.eqb_eq in E; now subst|intros I; exists w; split; [exact I|apply String.eqb_refl]]. Qed.
Lemma eqb_out w l : existsb (String.eqb w) l = false <-> ~ In w l.
Proof. rewrite <- eqb_in. destruct (existsb _ l); split; intros H; congruence. Qed.

(** Everything read is known: driven before, or in [d]. *)
Fixpoint defined (d : list string) (l : list fn) : bool :=
  match l with
  | [] => true
  | f :: t => forallb (fun w => existsb (String.eqb w) d) (f_rd f) && defined (f_wr f ++ d) t
  end.
Fixpoint all_wr (l : list fn) : list string := match l with [] => [] | f :: t => f_wr f ++ all_wr t end.
Lemma run_agree {V} sem : forall l d (e e' : env V), (forall f, In f l -> behaves f (sem f)) -> defined d l = true ->
  (forall w, In w d -> e w = e' w) -> forall w, In w (all_wr l ++ d) -> run sem l e w = run sem l e' w.
Proof.
  induction l as [|f l IH]; intros d e e' B D A w W; [now apply A|]. cbn [defined] in D. apply andb_true_iff in D. destruct D as [D1 D2].
  cbn [run fold_left]. change (run sem l (sem f e) w = run sem l (sem f e') w). apply (IH (f_wr f ++ d)).
  - intros g G. apply B. now right.
  - exact D2.
  - assert (R : forall x, In x (f_rd f) -> e x = e' x) by (intros x X; apply A; rewrite forallb_forall in D1; apply eqb_in; now apply D1).
    destruct (B f (or_introl eq_refl)) as [K S]. intros x X. destruct (existsb (String.eqb x) (f_wr f)) eqn:Q.
    + apply S; [exact R|now apply eqb_in].
    + apply eqb_out in Q. rewrite !K by exact Q. apply A. apply in_app_or in X. destruct X; [contradiction|assumption].
  - cbn in W. rewrite <- app_assoc in W. apply in_app_or in W. apply in_or_app. destruct W as [W|W]; [right; apply in_or_app; now left|].
    apply in_app_or in W. destruct W as [W|W]; [now left|right; apply in_or_app; now right].
Qed.
Lemma run_keep {V} sem : forall l (e : env V) w, (forall f, In f l -> behaves f (sem f)) -> later_driven l w = false -> run sem l e w = e w.
Proof.
  induction l as [|f l IH]; intros e w B D; [reflexivity|]. cbn in D. apply orb_false_iff in D. destruct D as [D1 D2].
  change (run sem l (sem f e) w = e w). rewrite IH by (try intros g G; try apply B; try right; assumption). apply (B f (or_introl eq_refl)). now apply eqb_out.
Qed.

(** What the machine carries from one cycle to the next. *)
Definition kept : list string := registers ++ carried.
Lemma table_defined : defined (inputs ++ kept) back_fns = true.
Proof. vm_compute. reflexivity. Qed.
Lemma kept_driven : forallb (fun w => existsb (String.eqb w) (all_wr back_fns)) (kept ++ outputs) = true.
Proof. vm_compute. reflexivity. Qed.

(** C78: one cycle is a function of the inputs, the registers and the three
    carried connections; nothing else left from the cycle before matters. *)
Theorem c78_one_cycle V (sem : fn -> env V -> env V) i i' e e' : (forall f, In f back_fns -> behaves f (sem f)) ->
  (forall w, In w inputs -> i w = i' w) -> (forall w, In w kept -> e w = e' w) ->
  forall w, In w (registers ++ carried ++ outputs) -> cycle sem i e w = cycle sem i' e' w.
Proof.
  intros B I K w W. unfold cycle. apply (run_agree sem back_fns (inputs ++ kept)); [exact B|exact table_defined| |].
  - intros x X. destruct (existsb (String.eqb x) inputs) eqn:Q; [apply I; now apply eqb_in|].
    apply eqb_out in Q. apply in_app_or in X. destruct X as [X|X]; [contradiction|now apply K].
  - apply in_or_app. left. pose proof kept_driven as D. rewrite forallb_forall in D. apply eqb_in. apply D. unfold kept. now rewrite <- app_assoc.
Qed.
(** Whole executions: from the same state and inputs the back-end shows the
    same, whatever the connections held (uninitialised memory, leftovers). *)
Theorem c78_deterministic V (sem : fn -> env V -> env V) is e e' : (forall f, In f back_fns -> behaves f (sem f)) ->
  (forall w, In w kept -> e w = e' w) -> is <> [] ->
  forall w, In w (registers ++ carried ++ outputs) -> cycles sem is e w = cycles sem is e' w.
Proof.
  intros B. revert e e'. induction is as [|i is IH]; intros e e' K N w W; [contradiction|].
  cbn [cycles]. destruct is as [|j is].
  - cbn. apply c78_one_cycle; auto.
  - apply IH; [|discriminate|exact W]. intros x X. apply c78_one_cycle; auto. rewrite app_assoc. apply in_or_app. now left.
Qed.
(** Clearing every other connection at the beginning of a cycle, which is what
    CONFIG_BE_IO_CLEAR_AT_COMB_BEGIN does, changes nothing - except for the two
    broadcasts, which it clears too. *)
Theorem c78_clear_harmless V (sem : fn -> env V -> env V) i e (zero : V) : (forall f, In f back_fns -> behaves f (sem f)) ->
  forall w, In w (registers ++ carried ++ outputs) ->
  cycle sem i (fun x => if existsb (String.eqb x) kept then e x else zero) w = cycle sem i e w.
Proof.
  intros B w W. apply c78_one_cycle; auto. intros x X. apply eqb_in in X. now rewrite X.
Qed.

(** *** No connection is read before its last driver, except two *)
Fixpoint early (l : list fn) : list (string * string * string) :=
  match l with
  | [] => []
  | f :: t => map (fun w => (f_mod f, f_name f, w))
                (filter (fun w => negb (is_state w) && later_driven t w && negb (existsb (String.eqb (f_mod f)) (drivers w t))) (f_rd f)) ++ early t
  end.
Lemma early_table : early comb_fns = [("pre", "comb_accept_front", "rob_bcast"); ("prf", "comb_awake", "dec_bcast")].
Proof. vm_compute. reflexivity. Qed.
Lemma early_in f t w : forall l1, In w (f_rd f) -> is_state w = false -> later_driven t w = true -> ~ In (f_mod f) (drivers w t) ->
  In (f_mod f, f_name f, w) (early (l1 ++ f :: t)).
Proof.
  induction l1 as [|g l1 IH]; intros I S L D.
  - cbn [early app]. apply in_or_app. left. apply in_map_iff. exists w. split; [reflexivity|]. apply filter_In. split; [exact I|].
    rewrite S, L. cbn [andb negb]. apply negb_true_iff. now apply eqb_out.
  - cbn [early app]. apply in_or_app. right. now apply IH.
Qed.
(** C78: a function that reads another module's connection reads the value the
    connection has at the end of the cycle.  The exceptions are the flush as the
    fetch queue sees it and the branch broadcast as the load wake-up sees it. *)
Theorem c78_settled V (sem : fn -> env V -> env V) l1 f l2 w e : (forall g, In g comb_fns -> behaves g (sem g)) ->
  comb_fns = l1 ++ f :: l2 -> In w (f_rd f) -> is_state w = false -> ~ In (f_mod f) (drivers w (f :: l2)) ->
  (f_mod f, f_name f, w) <> ("pre", "comb_accept_front", "rob_bcast") -> (f_mod f, f_name f, w) <> ("prf", "comb_awake", "dec_bcast") ->
  run sem l1 e w = run sem comb_fns e w.
Proof.
  intros B E I S D N1 N2.
  assert (Df : ~ In w (f_wr f)) by (intros X; apply D; cbn [drivers]; apply eqb_in in X; rewrite X; now left).
  assert (Dt : ~ In (f_mod f) (drivers w l2)) by (cbn [drivers] in D; apply eqb_out in Df; rewrite Df in D; exact D).
  assert (L : later_driven l2 w = false).
  { destruct (later_driven l2 w) eqn:L; [|reflexivity]. exfalso. pose proof (early_in f l2 w l1 I S L Dt) as X. rewrite <- E, early_table in X.
    destruct X as [X|[X|[]]]; [apply N1|apply N2]; now symmetry. }
  assert (R : run sem comb_fns e = run sem (f :: l2) (run sem l1 e)) by (unfold run; rewrite E at 1; now rewrite fold_left_app).
  rewrite R. symmetry. apply (run_keep sem (f :: l2) (run sem l1 e) w).
  - intros g G. apply B. rewrite E. apply in_or_app. now right.
  - cbn [later_driven existsb]. apply orb_false_iff. split; [now apply eqb_out|exact L].
Qed.

(** Each connection has one driving module; only BackTop itself corrects the
    next-PC of the commit entries, for the difftest. *)
Definition one_driver (l : list fn) (w : string) : bool :=
  match drivers w l with [] => true | m :: t => forallb (String.eqb m) t end.
Lemma in_drivers w f l : In f l -> In w (f_wr f) -> In (f_mod f) (drivers w l).
Proof.
  induction l as [|h l IH]; intros I W; [destruct I|]. cbn. destruct I as [->|I].
  - apply eqb_in in W. rewrite W. now left.
  - destruct (existsb _ (f_wr h)); [right|]; now apply IH.
Qed.
Lemma in_all_wr w f l : In f l -> In w (f_wr f) -> In w (all_wr l).
Proof. induction l as [|h l IH]; intros I W; [destruct I|]. cbn. apply in_or_app. destruct I as [->|I]; [now left|right; now apply IH]. Qed.
Lemma one_driver_all l x : forallb (fun w => String.eqb w x || one_driver l w) (all_wr l) = true ->
  forall w f g, In f l -> In g l -> In w (f_wr f) -> In w (f_wr g) -> w <> x -> f_mod f = f_mod g.
Proof.
  intros T w f g F G Wf Wg N. rewrite forallb_forall in T. specialize (T w (in_all_wr w f l F Wf)). apply orb_true_iff in T.
  destruct T as [T|T]; [apply String.eqb_eq in T; contradiction|]. unfold one_driver in T.
  pose proof (in_drivers w f l F Wf) as If. pose proof (in_drivers w g l G Wg) as Ig.
  destruct (drivers w l) as [|m t]; [destruct If|]. rewrite forallb_forall in T.
  assert (X : forall y, In y (m :: t) -> y = m) by (intros y [<-|Y]; [reflexivity|specialize (T y Y); apply String.eqb_eq in T; now symmetry]).
  rewrite (X _ If), (X _ Ig). reflexivity.
Qed.
Lemma one_driver_table : forallb (fun w => String.eqb w "rob_commit.diag" || one_driver comb_fns w) (all_wr comb_fns) = true.
Proof. vm_compute. reflexivity. Qed.
Theorem c78_one_driver w f g : In f comb_fns -> In g comb_fns -> In w (f_wr f) -> In w (f_wr g) -> w <> "rob_commit.diag" -> f_mod f = f_mod g.
Proof. exact (one_driver_all comb_fns "rob_commit.diag" one_driver_table w f g). Qed.

(** *** The three carried connections are needed *)
(** A behaviour that only looks: a function marks what it drives if it read a mark. *)
Definition mark (f : fn) (e : env bool) : env bool := fun w => if existsb (String.eqb w) (f_wr f) then existsb e (f_rd f) else e w.
Lemma mark_behaves f : behaves f (mark f).
Proof.
  split.
  - intros e w N. unfold mark. apply eqb_out in N. now rewrite N.
  - intros e e' A w W. unfold mark. apply eqb_in in W. rewrite W. clear W. induction (f_rd f) as [|x l IH]; [reflexivity|].
    cbn. rewrite (A x (or_introl eq_refl)), IH; [reflexivity|]. intros; apply A; now right.
Qed.
Theorem c78_carried_needed w : In w carried ->
  exists (sem : fn -> env bool -> env bool) i e e', (forall f, In f back_fns -> behaves f (sem f)) /\
    (forall x, x <> w -> e x = e' x) /\ exists r, In r registers /\ cycle sem i e r <> cycle sem i e' r.
Proof.
  intros W. exists mark, (fun _ => false), (fun x => String.eqb x w), (fun _ => false). split; [intros; apply mark_behaves|]. split.
  - intros x N. now apply String.eqb_neq.
  - cbn in W. destruct W as [<-|[<-|[<-|[]]]].
    + exists "pre.reg". split; [cbn; auto|]. vm_compute. discriminate.
    + exists "isu.reg". split; [cbn; tauto|]. vm_compute. discriminate.
    + exists "isu.reg". split; [cbn; tauto|]. vm_compute. discriminate.
Qed.

(** Behaviours of the table exist ([mark]); with it a flush decided by the
    reorder buffer reaches every module's next state in the same cycle. *)
Example c78_flush_reaches : let e := cycle mark (fun _ => false) (fun w => String.eqb w "rob.reg") in
  forallb e ["pre.reg"; "ren.reg"; "dis.reg"; "idu.reg"; "isu.reg"; "exu.reg"; "prf.reg"; "rob.reg"; "csr.reg"; "lsu.reg"; "dtlb.reg"; "out.redirect"] = true.
Proof. vm_compute. reflexivity. Qed.
(** A resolved branch is known to all modules in the cycle after it executed,
    and its target goes to fetch in that cycle. *)
Example c78_branch_reaches : let e := cycle mark (fun _ => false) (fun w => String.eqb w "idu.reg") in
  forallb e ["pre.reg"; "ren.reg"; "dis.reg"; "isu.reg"; "exu.reg"; "prf.reg"; "rob.reg"; "lsu.reg"; "out.redirect"] = true.
Proof. vm_compute. reflexivity. Qed.

Print Assumptions c78_one_cycle.
Print Assumptions c78_deterministic.
Print Assumptions c78_clear_harmless.
Print Assumptions c78_settled.
Print Assumptions c78_one_driver.
Print Assumptions c78_carried_needed.
