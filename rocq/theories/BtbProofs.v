(** Proofs for C66: a set-associative memory. *)
From Verif Require Import Base BaseLemmas BpModel BtbModel BtbSpec.
From Coq Require Import Lia.
Local Open Scope Z_scope.

Lemma nodup_map {A B} (f : A -> B) l : (forall x y, In x l -> In y l -> f x = f y -> x = y) -> NoDup l -> NoDup (map f l).
Proof.
  intros H N. induction N as [|x l NI N IH]; [constructor|]. cbn [map]. constructor.
  - intros I. apply in_map_iff in I. destruct I as (y & E & I). apply NI. rewrite (H x y); [exact I|now left|now right|now symmetry].
  - apply IH. intros y z I J. apply H; now right.
Qed.

Section ASSOC.
  Variable n : nat.
  Hypothesis npos : (0 < n)%nat.
  Definition mat (e : nat -> bent) (w : nat) (k : Z) : Prop := be_valid (e w) = true /\ be_tag (e w) = k.
  Definition one (e : nat -> bent) : Prop := forall w w' k, (w < n)%nat -> (w' < n)%nat -> mat e w k -> mat e w' k -> w = w'.

  Lemma hit_some e k w : as_hit n e k = Some w -> (w < n)%nat /\ mat e w k.
  Proof.
    intros H. apply find_some in H. destruct H as [I M]. apply in_seq in I. apply andb_true_iff in M. destruct M as [M1 M2].
    apply Z.eqb_eq in M2. split; [lia|]. now split.
  Qed.
  Lemma hit_none e k w : as_hit n e k = None -> (w < n)%nat -> ~ mat e w k.
  Proof.
    intros H L [M1 M2]. pose proof (find_none _ _ H w) as N. cbn beta in N. rewrite M1, M2, Z.eqb_refl in N.
    discriminate N. apply in_seq. lia.
  Qed.
  Lemma hit_is e k w : one e -> (w < n)%nat -> mat e w k -> as_hit n e k = Some w.
  Proof.
    intros U L M. destruct (as_hit n e k) as [w'|] eqn:H.
    - destruct (hit_some _ _ _ H) as [L' M']. f_equal. exact (U w' w k L' L M' M).
    - destruct (hit_none _ _ w H L M).
  Qed.
  Lemma look_some e k a : look n e k = Some a -> exists w, (w < n)%nat /\ mat e w k /\ be_tgt (e w) = a.
  Proof.
    unfold look. destruct (as_hit n e k) as [w|] eqn:H; [|discriminate]. intros E. injection E as E.
    destruct (hit_some _ _ _ H). now exists w.
  Qed.
  Lemma look_is e k w : one e -> (w < n)%nat -> mat e w k -> look n e k = Some (be_tgt (e w)).
  Proof. intros U L M. unfold look. now rewrite (hit_is e k w U L M). Qed.
  Lemma look_none e k : (forall w, (w < n)%nat -> ~ mat e w k) -> look n e k = None.
  Proof. intros N. unfold look. destruct (as_hit n e k) as [w|] eqn:H; [|reflexivity]. destruct (hit_some _ _ _ H) as [L M]. destruct (N w L M). Qed.
  Lemma mat_dec e k : (exists w, (w < n)%nat /\ mat e w k) \/ forall w, (w < n)%nat -> ~ mat e w k.
  Proof. destruct (as_hit n e k) as [w|] eqn:H; [left; exists w; exact (hit_some _ _ _ H)|right; intros w L; exact (hit_none _ _ w H L)]. Qed.

  Lemma victim_lt e : (as_victim n e < n)%nat.
  Proof.
    unfold as_victim. destruct (find _ _) as [w|] eqn:F.
    - apply find_some in F. destruct F as [I _]. apply in_seq in I. lia.
    - assert (G: forall l (a : nat * Z), (fst a < n)%nat -> (forall w, In w l -> (w < n)%nat) ->
        (fst (fold_left (fun a w => if (be_use (e w) <? snd a)%Z then (w, be_use (e w)) else a) l a) < n)%nat).
      { induction l as [|w l IH]; intros a A I; [exact A|]. cbn [fold_left]. apply IH; [|intros w' I'; apply I; now right].
        destruct (_ <? _); [apply I; now left|exact A]. }
      apply G; [exact npos|intros w I; apply in_seq in I; lia].
  Qed.
  Lemma victim_empty e w : (w < n)%nat -> be_valid (e w) = false -> be_valid (e (as_victim n e)) = false.
  Proof.
    intros L V. unfold as_victim. destruct (find _ _) as [w'|] eqn:F.
    - apply find_some in F. destruct F as [_ F]. now apply negb_true_iff in F.
    - pose proof (find_none _ _ F w) as N. cbn beta in N. rewrite V in N. discriminate N. apply in_seq. lia.
  Qed.
  (** a full set gives up an entry of least usefulness *)
  Lemma victim_least e w : (forall w, (w < n)%nat -> be_valid (e w) = true /\ be_use (e w) <= 7) -> (w < n)%nat ->
    be_use (e (as_victim n e)) <= be_use (e w).
  Proof.
    intros V L. unfold as_victim. destruct (find _ _) as [w'|] eqn:F.
    - apply find_some in F. destruct F as [I F]. apply in_seq in I. rewrite (proj1 (V w' ltac:(lia))) in F. discriminate.
    - assert (G: forall l (a : nat * Z), be_use (e (fst a)) = snd a ->
        let r := fold_left (fun a w => if be_use (e w) <? snd a then (w, be_use (e w)) else a) l a in
        be_use (e (fst r)) = snd r /\ snd r <= snd a /\ forall w, In w l -> snd r <= be_use (e w)).
      { induction l as [|x l IH]; intros a A; [split; [exact A|]; split; [cbn [fold_left]; lia|intros w0 []]|].
        cbn [fold_left]. destruct (Z.ltb_spec (be_use (e x)) (snd a)) as [C|C].
        - destruct (IH (x, be_use (e x)) eq_refl) as (A1 & A2 & A3). cbn [snd] in A2. split; [exact A1|]. split; [lia|].
          intros w0 [<-|I0]; [exact A2|now apply A3].
        - destruct (IH a A) as (A1 & A2 & A3). split; [exact A1|]. split; [exact A2|]. intros w0 [<-|I0]; [lia|now apply A3]. }
      destruct n as [|m]; [lia|]. cbn [seq fold_left snd].
      replace (be_use (e 0%nat) <? 255) with true by (symmetry; apply Z.ltb_lt; pose proof (proj2 (V 0%nat ltac:(lia))); lia).
      destruct (G (seq 1 m) (0%nat, be_use (e 0%nat)) eq_refl) as (A1 & A2 & A3). cbn [snd] in A2. rewrite A1.
      destruct w as [|w]; [exact A2|]. apply A3. apply in_seq. lia.
  Qed.
  Lemma way_lt e k : (as_way n e k < n)%nat.
  Proof. unfold as_way. destruct (as_hit n e k) eqn:H; [exact (proj1 (hit_some _ _ _ H))|apply victim_lt]. Qed.
  (** an entry that is written does not belong to another present tag, unless the set is full *)
  Lemma way_other e k k' : mat e (as_way n e k) k' -> k' <> k ->
    as_hit n e k = None /\ forall w, (w < n)%nat -> be_valid (e w) = true.
  Proof.
    intros M N. unfold as_way in M. destruct (as_hit n e k) as [w|] eqn:H.
    - destruct (hit_some _ _ _ H) as [_ [_ M']]. destruct M as [_ M]. congruence.
    - split; [reflexivity|]. intros w L. destruct (be_valid (e w)) eqn:V; [reflexivity|].
      pose proof (victim_empty e w L V) as X. destruct M as [M _]. congruence.
  Qed.

  Section WRITE.
    Variables (t : Z -> nat -> bent) (i k v u : Z).
    Let t' := as_write n t i k v u.
    Hypothesis U : forall j, one (t j).
    Lemma wr_other j : j <> i -> t' j = t j.
    Proof. intros N. unfold t', as_write. rewrite (proj2 (Z.eqb_neq _ _) N). reflexivity. Qed.
    Lemma wr_at w : t' i w = if (w =? as_way n (t i) k)%nat then BEnt true k v u else t i w.
    Proof. unfold t', as_write. rewrite Z.eqb_refl. reflexivity. Qed.
    Lemma wr_mat w k' : mat (t' i) w k' -> (w = as_way n (t i) k /\ k' = k) \/ (w <> as_way n (t i) k /\ mat (t i) w k').
    Proof.
      unfold mat. rewrite wr_at. destruct (Nat.eqb_spec w (as_way n (t i) k)) as [E|N]; [|now right].
      cbn [be_valid be_tag]. intros [_ E']. left. now split.
    Qed.
    Lemma wr_one j : one (t' j).
    Proof.
      destruct (Z.eq_dec j i) as [->|N]; [|rewrite wr_other by exact N; apply U].
      assert (G: forall w w', (w < n)%nat -> w = as_way n (t i) k -> w' <> as_way n (t i) k -> (w' < n)%nat -> mat (t i) w' k -> False).
      { intros w w' L E E' L' M. unfold as_way in E'. rewrite (hit_is _ _ _ (U i) L' M) in E'. now apply E'. }
      intros w w' k' L L' M M'. destruct (wr_mat _ _ M) as [[A B]|[A B]], (wr_mat _ _ M') as [[A' B']|[A' B']].
      - congruence.
      - subst k'. destruct (G w w' L A A' L' B').
      - subst k'. destruct (G w' w L' A' A L B).
      - exact (U i w w' k' L L' B B').
    Qed.
    Lemma wr_look_same : look n (t' i) k = Some v.
    Proof.
      set (w := as_way n (t i) k). assert (M: mat (t' i) w k) by (unfold mat; rewrite wr_at; unfold w; now rewrite Nat.eqb_refl).
      rewrite (look_is _ _ w (wr_one i) (way_lt _ _) M), wr_at. unfold w. now rewrite Nat.eqb_refl.
    Qed.
    Lemma wr_look_keep k' : k' <> k -> (as_hit n (t i) k <> None \/ exists w, (w < n)%nat /\ be_valid (t i w) = false) ->
      look n (t' i) k' = look n (t i) k'.
    Proof.
      intros N C. destruct (mat_dec (t i) k') as [(w & L & M)|NM].
      - assert (NW: w <> as_way n (t i) k).
        { intros E. rewrite E in M. destruct (way_other _ _ _ M N) as [H F]. destruct C as [C|(w0 & L0 & V0)]; [congruence|].
          rewrite (F w0 L0) in V0. discriminate. }
        assert (EW: t' i w = t i w) by (rewrite wr_at; now rewrite (proj2 (Nat.eqb_neq _ _) NW)).
        rewrite (look_is (t i) k' w (U i) L M), (look_is (t' i) k' w (wr_one i) L) by (unfold mat; rewrite EW; exact M). now rewrite EW.
      - rewrite (look_none (t i) k' NM), look_none; [reflexivity|]. intros w L M. destruct (wr_mat _ _ M) as [[_ E]|[_ M']]; [congruence|].
        exact (NM w L M').
    Qed.
    Lemma wr_look_loses k' a : k' <> k -> look n (t' i) k' = Some a -> look n (t i) k' = Some a.
    Proof.
      intros N H. destruct (look_some _ _ _ H) as (w & L & M & E). destruct (wr_mat _ _ M) as [[_ X]|[NW M']]; [congruence|].
      rewrite (look_is (t i) k' w (U i) L M'). rewrite wr_at in E. rewrite (proj2 (Nat.eqb_neq _ _) NW) in E. now rewrite E.
    Qed.
  End WRITE.

  (** All tables reachable by writes [ws] (newest first), whatever usefulness is written *)
  Inductive written : list (Z * Z * Z) -> (Z -> nat -> bent) -> Prop :=
  | wn_nil : written [] (fun _ _ => bent0)
  | wn_cons : forall ws t i k v u, written ws t -> written ((i, k, v) :: ws) (as_write n t i k v u).
  Lemma written_one ws t : written ws t -> forall j, one (t j).
  Proof.
    induction 1 as [|ws t i k v u W IH]; intros j; [intros w w' k _ _ [M _]; discriminate M|]. now apply wr_one.
  Qed.
  Lemma written_latest ws t i k a : written ws t -> look n (t i) k = Some a -> latest ws i k = Some a.
  Proof.
    intros W. revert a. induction W as [|ws t j k0 v u W IH]; intros a H.
    - destruct (look_some _ _ _ H) as (w & _ & [M _] & _). discriminate M.
    - pose proof (written_one _ _ W) as U. unfold latest. cbn [find fst snd].
      destruct (Z.eqb_spec j i) as [->|N]; cbn [andb].
      + destruct (Z.eqb_spec k0 k) as [->|N].
        * rewrite wr_look_same in H by exact U. exact H.
        * apply IH. refine (wr_look_loses t i k0 v u U k a _ H). congruence.
      + apply IH. rewrite wr_other in H by congruence. exact H.
  Qed.
  Lemma written_tags ws t i w : written ws t -> (w < n)%nat -> be_valid (t i w) = true -> exists v, In (i, be_tag (t i w), v) ws.
  Proof.
    intros W L. induction W as [|ws t j k0 v u W IH]; [discriminate|]. intros V.
    destruct (Z.eq_dec i j) as [->|N].
    - rewrite wr_at in *. destruct (w =? as_way n (t j) k0)%nat; [exists v; now left|]. destruct (IH V) as [v' I]. exists v'. now right.
    - rewrite wr_other in * by exact N. destruct (IH V) as [v' I]. exists v'. now right.
  Qed.
  (** If at most [n] tags are ever written to an index, nothing is lost. *)
  Lemma written_exact ws t i k ks : written ws t -> (length ks <= n)%nat ->
    (forall k' v, In (i, k', v) ws -> In k' ks) -> look n (t i) k = latest ws i k.
  Proof.
    intros W LK. revert k. induction W as [|ws t j k0 v u W IH]; intros k H.
    - unfold latest. cbn [find]. apply look_none. intros w _ [M _]. discriminate M.
    - pose proof (written_one _ _ W) as U. unfold latest. cbn [find fst snd].
      assert (H': forall k' v, In (i, k', v) ws -> In k' ks) by (intros k' v' I; apply (H k' v'); now right).
      destruct (Z.eqb_spec j i) as [->|N]; cbn [andb].
      + destruct (Z.eqb_spec k0 k) as [->|N]; [now apply wr_look_same|].
        rewrite wr_look_keep; [now apply IH|exact U|congruence|].
        destruct (as_hit n (t i) k0) as [w|] eqn:HH; [left; discriminate|right].
        destruct (find (fun w => negb (be_valid (t i w))) (seq 0 n)) as [w|] eqn:F.
        { apply find_some in F. destruct F as [I F]. apply in_seq in I. apply negb_true_iff in F. exists w. split; [lia|exact F]. }
        exfalso. assert (V: forall w, (w < n)%nat -> be_valid (t i w) = true).
        { intros w L. pose proof (find_none _ _ F w) as X. cbn beta in X. apply negb_false_iff, X. apply in_seq. lia. }
        set (tags := map (fun w => be_tag (t i w)) (seq 0 n)).
        assert (ND: NoDup (k0 :: tags)).
        { constructor.
          - intros I. apply in_map_iff in I. destruct I as (w & E & I). apply in_seq in I.
            apply (hit_none _ _ w HH); [lia|]. split; [apply V; lia|exact E].
          - apply nodup_map; [|apply seq_NoDup]. intros w w' I I' E. apply in_seq in I, I'.
            apply (U i w w' (be_tag (t i w))); [lia|lia| |]; (split; [apply V; lia|congruence]). }
        assert (INC: incl (k0 :: tags) ks).
        { intros x [<-|I]; [apply (H k0 v); now left|]. apply in_map_iff in I. destruct I as (w & <- & I). apply in_seq in I.
          destruct (written_tags _ _ i w W) as [v' X]; [lia|apply V; lia|]. exact (H' _ v' X). }
        pose proof (NoDup_incl_length ND INC) as X. cbn [length] in X. unfold tags in X. rewrite map_length, seq_length in X. lia.
      + rewrite wr_other by congruence. now apply IH.
  Qed.
End ASSOC.
