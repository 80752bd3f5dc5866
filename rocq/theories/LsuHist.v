(** Committed stores, the requests the cache holds, and the order in which they
    take effect. *)
From Coq Require Import Permutation.
From Verif Require Import Base BaseLemmas Ring MemModel MemSpec MemProofs LsuModel LsuStq LsuQ LsuRun LsuSpec.
Local Open Scope nat_scope.
Ltac Zify.zify_post_hook ::= Z.div_mod_to_equations.

Definition hof (e : stqe) : hst := HS (s_pa e) (s_f3 e) (s_data e) (s_mmio e) (s_sup e).
Definition h0 : hst := HS 0 0 0 false false.
Definition req (k : nat) (h : hst) : dsreq := DSq (h_pa h) (align_store_data (h_data h) (h_pa h) (h_f3 h)) (get_store_strb (h_pa h) (h_f3 h)) k.
Definition ovh (x y : hst) : bool := CheckAddr (h_pa x) (get_store_strb (h_pa x) (h_f3 x)) (h_pa y) (get_store_strb (h_pa y) (h_f3 y)).
Lemma check_sym a x b y : CheckAddr a x b y = CheckAddr b y a x.
Proof.
  unfold CheckAddr. cbv zeta. set (p := Z.land a 4294967292). set (q := Z.land b 4294967292).
  assert (M : (if p <? q then p else q)%Z = (if q <? p then q else p)%Z) by (destruct (Z.ltb_spec p q), (Z.ltb_spec q p); lia).
  rewrite M. rewrite orb_comm, Z.land_comm. reflexivity.
Qed.

Record HI (b : nat) (hist : list hst) (acc : list nat) (pend : pending) (s : stqs) : Prop := {
  hi_len : length hist = b + scc s;
  hi_at : forall k, k < scc s -> nth (b + k) hist h0 = hof (ent s k);
  hi_p1 : forall k, k < scc s -> s_st (ent s k) = SWaitDcacheResp -> pend ((sh s + k) mod STQ_SIZE) = Some (req ((sh s + k) mod STQ_SIZE) (hof (ent s k)));
  hi_p2 : forall x q, pend x = Some q -> exists k, k < scc s /\ x = (sh s + k) mod STQ_SIZE /\ s_st (ent s k) = SWaitDcacheResp;
  hi_nd : NoDup acc;
  hi_in : forall p, In p acc -> p < b + scc s /\ plain (nth p hist h0) = true;
  hi_old : forall p, p < b -> plain (nth p hist h0) = true -> In p acc;
  hi_now : forall k, k < scc s -> plain (hof (ent s k)) = true -> (In (b + k) acc <-> s_st (ent s k) = SDone);
  hi_ord : forall i j, i < j -> j < length acc -> ovh (nth (nth i acc 0) hist h0) (nth (nth j acc 0) hist h0) = true -> nth i acc 0 < nth j acc 0 }.

(** Phases that do not touch committed stores. *)
Lemma HI_frame b hist acc pend s s' : sh s' = sh s -> scc s' = scc s ->
  (forall k, k < scc s -> hof (ent s' k) = hof (ent s k) /\ (s_st (ent s' k) = s_st (ent s k) \/
     plain (hof (ent s k)) = false /\ s_st (ent s k) <> SWaitDcacheResp /\ s_st (ent s' k) <> SWaitDcacheResp \/ s_st (ent s k) = SCommitted /\ s_st (ent s' k) = SWaitMmioResp)) ->
  HI b hist acc pend s -> HI b hist acc pend s'.
Proof.
  intros E1 E2 H [A B C D E F G I J]. constructor; rewrite ?E1, ?E2; auto.
  - intros k K. destruct (H k K) as [X _]. rewrite X. now apply B.
  - intros k K S. destruct (H k K) as [X [Y|[(_ & _ & Y)|(_ & Y)]]]; [|congruence|congruence]. rewrite X. apply C; [exact K|congruence].
  - intros x q P. destruct (D x q P) as (k & K & X & S). exists k. split; [exact K|]. split; [exact X|]. destruct (H k K) as [_ [Y|[(_ & Y & _)|(Y & _)]]]; congruence.
  - intros k K P. destruct (H k K) as [X Y]. rewrite X in P. rewrite (I k K P). destruct Y as [Y|[(Y & _)|(Y1 & Y2)]]; [now rewrite Y|congruence|].
    rewrite Y1, Y2. split; discriminate.
Qed.
Lemma HI_calm b hist acc pend s s' : Cinv s -> ptrs s s' -> calm s s' -> HI b hist acc pend s -> HI b hist acc pend s'.
Proof.
  intros (C1 & C2 & C3) (P1 & P2 & P3 & P4 & P5) K. apply HI_frame; auto. intros k L. unfold ent. rewrite P1.
  rewrite K; [split; [reflexivity|now left]|]. fold (ent s k). rewrite C3 by lia. now apply Nat.ltb_lt.
Qed.

(** Commit. *)
Definition hcommit (fl : bool) (e : stqe) : hst := HS (s_pa e) (s_f3 e) (s_data e) (s_mmio e) (if fl then true else s_lrsc e && negb (s_scp e)).
Lemma nth_app_l {A} (l1 l2 : list A) k d : k < length l1 -> nth k (l1 ++ l2) d = nth k l1 d. Proof. apply app_nth1. Qed.
Lemma HI_commit b hist acc pend s fl idx : SInv b s -> accepts s idx = true -> scc s < sn s -> (s_pf (sq s idx) = true -> fl = true) ->
  HI b hist acc pend s -> HI b (hist ++ [hcommit fl (sq s idx)]) acc pend (commit_one fl s idx).
Proof.
  intros V AC L PF [A B C D E F G I J]. pose proof (commit_one_spec b s fl idx V (fun _ => conj L PF)) as (V' & _ & _ & SC & IX & _). rewrite AC in SC. specialize (IX AC).
  assert (II : idx = (sh s + scc s) mod STQ_SIZE) by (rewrite IX, (v_sh _ _ V); unfold STQ_SIZE; lia).
  pose proof (v_C _ _ V) as (C1 & C2 & C3). unfold STQ_SIZE in C2.
  set (f := fun e => if fl then set_s_sup true (set_s_st SDone e) else if s_lrsc e && negb (s_scp e) then set_s_st SDone (set_s_sup true e) else set_s_st SCommitted e).
  assert (SQE : sq (commit_one fl s idx) = fupd (sq s) idx (f (sq s idx))).
  { unfold commit_one. fold (accepts s idx). rewrite AC. reflexivity. }
  assert (SHE : sh (commit_one fl s idx) = sh s).
  { unfold commit_one. fold (accepts s idx). now rewrite AC. }
  assert (EN : forall j, j < STQ_SIZE -> ent (commit_one fl s idx) j = if j =? scc s then f (sq s idx) else ent s j).
  { intros j JJ. unfold ent. rewrite SQE, SHE. unfold fupd. destruct (Nat.eqb_spec j (scc s)) as [->|N]; [now rewrite <- II, Nat.eqb_refl|].
    destruct (Nat.eqb_spec ((sh s + j) mod STQ_SIZE) idx) as [X|]; [|reflexivity]. exfalso. apply N. rewrite II in X. apply (slot_inj STQ_SIZE) in X; unfold STQ_SIZE in *; lia. }
  assert (GW : s_st (sq s idx) = SWaitCommit) by (unfold accepts in AC; apply andb_true_iff in AC as [_ AC]; now apply is_s_eq in AC).
  assert (HF : hof (f (sq s idx)) = hcommit fl (sq s idx)).
  { pose proof (v_good _ _ V idx) as GG. unfold good in GG. rewrite GW in GG. destruct GG as [G1 G2]. unfold f, hof, hcommit.
    destruct fl; [reflexivity|]. destruct (s_lrsc (sq s idx) && negb (s_scp (sq s idx))) eqn:X; [reflexivity|]. cbn. f_equal.
    apply G2. destruct (s_pf (sq s idx)); [now specialize (PF eq_refl)|reflexivity]. }
  assert (ND : s_st (f (sq s idx)) = SCommitted \/ s_st (f (sq s idx)) = SDone /\ plain (hcommit fl (sq s idx)) = false).
  { unfold f, plain, hcommit. destruct fl; [now right|]. destruct (_ && _); [right; now split|now left]. }
  assert (LT : forall k, k < scc (commit_one fl s idx) -> k < scc s \/ k = scc s) by (intros; lia).
  constructor.
  - rewrite app_length. cbn. lia.
  - intros k K. rewrite EN by (unfold STQ_SIZE; lia). destruct (Nat.eqb_spec k (scc s)) as [->|N].
    + rewrite app_nth2 by lia. replace (b + scc s - length hist) with 0 by lia. cbn. now symmetry.
    + rewrite app_nth1 by lia. apply B. lia.
  - intros k K S. rewrite SHE. rewrite EN in * by (unfold STQ_SIZE; lia). destruct (Nat.eqb_spec k (scc s)) as [->|N].
    + destruct ND as [X|[X _]]; congruence.
    + apply C; [lia|exact S].
  - intros x q P. destruct (D x q P) as (k & K & X & S). exists k. rewrite SHE. split; [lia|]. split; [exact X|]. rewrite EN by (unfold STQ_SIZE; lia).
    destruct (Nat.eqb_spec k (scc s)); [lia|exact S].
  - exact E.
  - intros p P. destruct (F p P) as [X Y]. split; [lia|]. rewrite app_nth1 by lia. exact Y.
  - intros p P Q. apply G; [exact P|]. rewrite app_nth1 in Q by lia. exact Q.
  - intros k K P. rewrite EN in * by (unfold STQ_SIZE; lia). destruct (Nat.eqb_spec k (scc s)) as [->|N]; [|apply I; [lia|exact P]].
    rewrite HF in P. destruct ND as [X|[_ X]]; [|congruence]. rewrite X. split; [|discriminate]. intros Q. destruct (F _ Q) as [Q1 _]. lia.
  - intros i j IJ JL O. assert (X : forall n, n < length acc -> nth n acc 0 < length hist).
    { intros n N. rewrite A. apply F. now apply nth_In. }
    rewrite !app_nth1 in O by (apply X; lia). now apply J.
Qed.

(** The answers of the cache. *)
Definition reqat (hist : list hst) (p : nat) : dsreq := req (p mod STQ_SIZE) (nth p hist h0).
Lemma HI_answer b hist acc pend log s r : SInv b s -> HI b hist acc pend s -> log = map (reqat hist) acc ->
  exists acc', HI b hist acc' (fst (answer (pend, log) r)) (store_resp s r) /\ snd (answer (pend, log) r) = map (reqat hist) acc'.
Proof.
  intros V H LG. pose proof H as [A B C D E F G I J]. pose proof (v_C _ _ V) as (C1 & C2 & C3). unfold STQ_SIZE in C2. unfold store_resp, answer. cbn [fst snd].
  destruct (pend (ds_idx r)) as [q|] eqn:P.
  2:{ exists acc. split; [|exact LG]. cbn [fst]. destruct (_ <=? _); [apply (HI_frame b hist acc pend s); try reflexivity; [intros k K; split; [reflexivity|now left]|exact H]|]. destruct (is_s s (ds_idx r) SWaitDcacheResp) eqn:S; [|exact H].
      apply is_s_eq in S. (* a store outside the committed part: not in the queue *)
      assert (OUT : forall k, k < scc s -> (sh s + k) mod STQ_SIZE <> ds_idx r).
      { intros k K X. rewrite <- X in S, P. rewrite (C k K S) in P. discriminate. }
      assert (FR : forall f, HI b hist acc pend (upd_s (ds_idx r) f s)).
      { intros f. apply (HI_frame b hist acc pend s); try reflexivity; [|exact H]. intros k K. unfold ent. cbn [upd_s set_sq sq sh]. rewrite fupd_ne by (now apply OUT). split; [reflexivity|now left]. }
      destruct (ds_rep r); apply FR. }
  destruct (D _ _ P) as (k & K & X & S). assert (LT : ds_idx r < STQ_SIZE) by (rewrite X; apply Nat.mod_upper_bound; unfold STQ_SIZE; lia).
  destruct (Nat.leb_spec STQ_SIZE (ds_idx r)); [lia|]. assert (S' : is_s s (ds_idx r) SWaitDcacheResp = true) by (apply is_s_eq; rewrite X; exact S). rewrite S'.
  pose proof (C k K S) as PQ. rewrite <- X, P in PQ. injection PQ as QE.
  pose proof (v_good _ _ V ((sh s + k) mod STQ_SIZE)) as GG. fold (ent s k) in GG. unfold good in GG. rewrite S in GG. destruct GG as (_ & G2 & G3).
  assert (PL : plain (hof (ent s k)) = true) by (unfold plain, hof; cbn; now rewrite G2, G3).
  assert (EN : forall f j, j < STQ_SIZE -> ent (upd_s (ds_idx r) f s) j = if j =? k then f (ent s k) else ent s j).
  { intros f j JJ. rewrite X. apply ent_upd; [unfold STQ_SIZE; lia|exact JJ]. }
  assert (SLOT : (b + k) mod STQ_SIZE = ds_idx r) by (rewrite X, (v_sh _ _ V); unfold STQ_SIZE; lia).
  assert (REP : forall rp w, HI b hist acc (fupd pend (ds_idx r) None) (upd_s (ds_idx r) (fun e => set_s_wait w (set_s_rep rp (set_s_st SCommitted e))) s)).
  { intros rp w. constructor; auto; cbn [upd_s set_sq scc sh].
    - intros j JL. rewrite EN by (unfold STQ_SIZE; lia). destruct (Nat.eqb_spec j k) as [->|]; [now apply B|now apply B].
    - intros j JL Q. rewrite EN in * by (unfold STQ_SIZE; lia). destruct (Nat.eqb_spec j k) as [->|N]; [discriminate|]. rewrite fupd_ne; [now apply C|].
      intros Y. rewrite X in Y. apply (slot_inj STQ_SIZE) in Y; unfold STQ_SIZE in *; lia.
    - intros x y Q. unfold fupd in Q. destruct (Nat.eqb_spec x (ds_idx r)) as [|N]; [discriminate|]. destruct (D x y Q) as (j & JL & XX & SS). exists j. split; [exact JL|]. split; [exact XX|].
      rewrite EN by (unfold STQ_SIZE; lia). destruct (Nat.eqb_spec j k) as [->|]; [congruence|exact SS].
    - intros j JL Q. rewrite EN in * by (unfold STQ_SIZE; lia). destruct (Nat.eqb_spec j k) as [->|]; [|now apply I]. rewrite (I k K PL), S. cbn. split; discriminate. }
  destruct (ds_rep r); try (exists acc; split; [apply REP|exact LG]).
  (* hit *)
  exists (acc ++ [b + k]). cbn [fst snd]. split.
  2:{ rewrite map_app, LG. cbn [map]. do 2 f_equal. unfold reqat. rewrite SLOT, QE, (B k K). reflexivity. }
  assert (FRESH : ~ In (b + k) acc) by (rewrite (I k K PL), S; discriminate).
  constructor; auto; cbn [upd_s set_sq scc sh].
  - intros j JL. rewrite EN by (unfold STQ_SIZE; lia). destruct (Nat.eqb_spec j k) as [->|]; [now apply B|now apply B].
  - intros j JL Q. rewrite EN in * by (unfold STQ_SIZE; lia). destruct (Nat.eqb_spec j k) as [->|N]; [discriminate|]. rewrite fupd_ne; [now apply C|].
    intros Y. rewrite X in Y. apply (slot_inj STQ_SIZE) in Y; unfold STQ_SIZE in *; lia.
  - intros x y Q. unfold fupd in Q. destruct (Nat.eqb_spec x (ds_idx r)) as [|N]; [discriminate|]. destruct (D x y Q) as (j & JL & XX & SS). exists j. split; [exact JL|]. split; [exact XX|].
    rewrite EN by (unfold STQ_SIZE; lia). destruct (Nat.eqb_spec j k) as [->|]; [congruence|exact SS].
  - apply NoDup_rev in E. rewrite <- (rev_involutive (acc ++ [b + k])). apply NoDup_rev. rewrite rev_app_distr. cbn. constructor; [|exact E]. rewrite <- in_rev. exact FRESH.
  - intros p Q. apply in_app_iff in Q as [Q|[<-|[]]]; [now apply F|]. split; [lia|]. rewrite (B k K). exact PL.
  - intros p Q1 Q2. apply in_app_iff. left. now apply G.
  - intros j JL Q. rewrite EN in * by (unfold STQ_SIZE; lia). destruct (Nat.eqb_spec j k) as [->|N].
    + split; [reflexivity|]. intros _. apply in_app_iff. right. now left.
    + rewrite <- (I j JL Q). rewrite in_app_iff. split; [intros [Y|[Y|[]]]; [exact Y|lia]|now left].
  - intros i j IJ JL O. rewrite app_length in JL. cbn in JL. assert (ID : i < length acc) by lia. rewrite (app_nth1 _ _ _ ID) in *.
    destruct (Nat.eq_dec j (length acc)) as [->|N].
    + rewrite app_nth2, Nat.sub_diag in * by lia. cbn [nth] in *. set (p := nth i acc 0) in *. assert (PI : In p acc) by (now apply nth_In).
      destruct (Nat.lt_trichotomy p (b + k)) as [Y|[Y|Y]]; [exact Y|rewrite Y in PI; contradiction|]. exfalso.
      destruct (F p PI) as [Y1 Y2]. replace p with (b + (p - b)) in * by lia. set (j := p - b) in *. assert (JS : j < scc s) by lia.
      rewrite (B j JS) in *. rewrite (B k K) in O. apply (I j JS Y2) in PI.
      assert (ACT : active (ent s j) = true) by (unfold active; rewrite PI; unfold plain, hof in Y2; cbn in Y2; now apply andb_true_iff in Y2 as [Y2 _]).
      assert (DK : s_st (ent s k) = SDone); [|congruence]. apply (v_J _ _ V k j); [lia|lia|exact ACT|]. unfold ovl. rewrite check_sym. exact O.
    + rewrite app_nth1 in * by lia. apply J; [exact IJ|lia|exact O].
Qed.

(** Wake-ups and uncached completions. *)
Lemma wake_stores_ent addr ks : forall n s k, hof (sq (wake_stores addr ks n s) k) = hof (sq s k) /\ s_st (sq (wake_stores addr ks n s) k) = s_st (sq s k).
Proof.
  induction ks as [|a t IH]; intros n s k; [split; reflexivity|]. cbn [wake_stores]. cbv zeta. destruct (_ || _); [apply IH|].
  assert (U : forall n', hof (sq (wake_stores addr t n' (upd_s a (set_s_wait 0) s)) k) = hof (sq s k) /\ s_st (sq (wake_stores addr t n' (upd_s a (set_s_wait 0) s)) k) = s_st (sq s k)).
  { intros n'. destruct (IH n' (upd_s a (set_s_wait 0) s) k) as [X Y]. rewrite X, Y. cbn [upd_s set_sq sq]. unfold fupd. destruct (Nat.eqb_spec k a) as [->|]; split; reflexivity. }
  destruct (s_rep _); try apply IH; [destruct (line_match _ _)|destruct (_ <? _)]; try apply IH; apply U.
Qed.
Lemma HI_resps b hist rs : forall acc pend log s, SInv b s -> HI b hist acc pend s -> log = map (reqat hist) acc ->
  exists acc', HI b hist acc' (fst (fold_left answer rs (pend, log))) (fold_left store_resp rs s) /\ snd (fold_left answer rs (pend, log)) = map (reqat hist) acc'.
Proof.
  induction rs as [|r t IH]; intros acc pend log s V H L; [exists acc; auto|]. cbn [fold_left].
  destruct (HI_answer b hist acc pend log s r V H L) as (acc1 & H1 & L1). destruct (answer (pend, log) r) as [pend1 log1]. cbn [fst snd] in *.
  apply (IH acc1); [|exact H1|exact L1]. eapply SInv_shape; [apply store_resp_shape|apply store_resp_good, V|exact V].
Qed.
Lemma HI_dcache b hist rs fill acc pend log s : SInv b s -> HI b hist acc pend s -> log = map (reqat hist) acc ->
  exists acc', HI b hist acc' (fst (fold_left answer rs (pend, log))) (comb_dcache2lsu_stq rs fill s) /\ snd (fold_left answer rs (pend, log)) = map (reqat hist) acc'.
Proof.
  intros V H L. destruct (HI_resps b hist rs acc pend log s V H L) as (acc1 & H1 & L1). exists acc1. split; [|exact L1]. unfold comb_dcache2lsu_stq. destruct fill as [a|]; [|exact H1].
  set (t := fold_left store_resp rs s) in *. pose proof (wake_stores_shape a (stq_slots t (Nat.min (scc t) (sn t))) 0 t) as [(P1 & _ & _ & P4 & _) _ _].
  apply (HI_frame b hist acc1 _ t); auto. intros k K. unfold ent. rewrite P1. destruct (wake_stores_ent a (stq_slots t (Nat.min (scc t) (sn t))) 0 t ((sh t + k) mod STQ_SIZE)). split; [assumption|now left].
Qed.
Lemma HI_mmio b hist acc pend resp cur l : SInv b (st l) -> HI b hist acc pend (st l) -> HI b hist acc pend (st (comb_mmio_in resp cur l)).
Proof.
  intros V H. unfold comb_mmio_in. destruct resp; [|exact H]. destruct (negb _); [exact H|]. destruct (u_ld cur); [destruct (_ <? _); exact H|].
  cbn [st]. destruct (is_s (st l) (u_idx cur) SWaitMmioResp) eqn:S; [|exact H]. apply is_s_eq in S. apply (HI_frame b hist acc pend (st l)); try reflexivity; [|exact H].
  intros k K. unfold ent. cbn [upd_s set_sq sq sh]. unfold fupd. destruct (Nat.eqb_spec ((sh (st l) + k) mod STQ_SIZE) (u_idx cur)) as [E|]; [|split; [reflexivity|now left]].
  rewrite E. split; [reflexivity|]. right. left. pose proof (v_good _ _ V (u_idx cur)) as G. unfold good in G. rewrite S in G. destruct G as (_ & G2 & G3).
  unfold plain, hof. cbn. rewrite S, G2, G3. repeat split; discriminate.
Qed.

(** Issue. *)
Lemma issue_conv cur is : forall n s u out s' u' out', issue_stores cur is n s u out = (s', u', out') -> (forall k, good (sq s k)) ->
  exists new, out' = out ++ new /\ (forall k, s_st (sq s' k) = SWaitDcacheResp -> s_st (sq s k) = SWaitDcacheResp \/ exists q, In q new /\ q_sidx q = k).
Proof.
  induction is as [|i t IH]; intros n s u out s' u' out' E GD; cbn [issue_stores] in E.
  - injection E as <- <- <-. exists []. split; [now rewrite app_nil_r|]. auto.
  - destruct (_ <=? _); [injection E as <- <- <-; exists []; split; [now rewrite app_nil_r|auto]|]. cbv zeta in E. set (k0 := (sh s + i) mod STQ_SIZE) in *.
    destruct (_ || _) eqn:CO; [eapply IH; eassumption|]. apply orb_false_iff in CO as [CO _]. apply negb_false_iff in CO. apply is_s_eq in CO.
    set (s1 := upd_s k0 (set_s_wait (pred (s_wait (sq s k0)))) s) in *.
    assert (G1 : forall k, good (sq s1 k)).
    { intros k. unfold s1. cbn [upd_s set_sq sq]. unfold fupd. destruct (Nat.eqb_spec k k0) as [->|]; [|apply GD]. exact (GD k0). }
    assert (S1 : forall k, s_st (sq s1 k) = s_st (sq s k)).
    { intros k. unfold s1. cbn [upd_s set_sq sq]. unfold fupd. destruct (Nat.eqb_spec k k0) as [->|]; reflexivity. }
    assert (K1 : forall o, issue_stores cur t n s1 u out = o -> forall s' u' out', o = (s', u', out') -> exists new, out' = out ++ new /\
        (forall k, s_st (sq s' k) = SWaitDcacheResp -> s_st (sq s k) = SWaitDcacheResp \/ exists q, In q new /\ q_sidx q = k)).
    { intros o O a b c ->. destruct (IH _ _ _ _ _ _ _ O G1) as (new & N1 & N2). exists new. split; [exact N1|]. intros k K. rewrite <- S1. now apply N2. }
    destruct (0 <? _); [exact (K1 _ E _ _ _ eq_refl)|]. destruct (blocked s1 i); [exact (K1 _ E _ _ _ eq_refl)|].
    assert (FL : full (sq s1 k0) /\ s_sup (sq s1 k0) = false).
    { pose proof (G1 k0) as G. unfold good in G. rewrite S1, CO in G. exact G. }
    assert (EQ0 : forall x, s_st (sq (upd_s k0 (set_s_st x) s1) k0) = x) by (intros x; cbn [upd_s set_sq sq]; now rewrite fupd_eq).
    assert (NE : forall x k, k <> k0 -> sq (upd_s k0 (set_s_st x) s1) k = sq s1 k) by (intros x k N; cbn [upd_s set_sq sq]; now rewrite fupd_ne).
    destruct (s_mmio (sq s1 k0)) eqn:MM.
    + destruct (_ && _); [|exact (K1 _ E _ _ _ eq_refl)]. apply IH in E.
      * destruct E as (new & N1 & N2). exists new. split; [exact N1|]. intros k K. destruct (N2 k K) as [Y|Y]; [|now right]. left. destruct (Nat.eq_dec k k0) as [->|N]; [rewrite EQ0 in Y; discriminate|].
        rewrite (NE _ _ N), S1 in Y. exact Y.
      * intros k. cbn [upd_s set_sq sq]. unfold fupd. destruct (Nat.eqb_spec k k0) as [->|]; [|apply G1]. unfold good. cbn. destruct FL as [F1 F2]. repeat split; try apply F1; assumption.
    + destruct FL as [F1 F2]. rewrite F2 in E. apply IH in E.
      * destruct E as (new & N1 & N2). rewrite <- app_assoc in N1. eexists. split; [exact N1|]. intros k K. destruct (N2 k K) as [Y|(q & Q1 & Q2)]; [|right; exists q; split; [now right|exact Q2]].
        destruct (Nat.eq_dec k k0) as [->|N]; [right; eexists; split; [now left|reflexivity]|]. left. rewrite (NE _ _ N), S1 in Y. exact Y.
      * intros k. cbn [upd_s set_sq sq]. unfold fupd. destruct (Nat.eqb_spec k k0) as [->|]; [|apply G1]. unfold good. cbn. repeat split; try apply F1; assumption.
Qed.
Lemma asks_in out : NoDup (map q_sidx out) -> forall p x, fold_left ask out p x = match find (fun q => q_sidx q =? x) out with Some q => Some q | None => p x end.
Proof.
  induction out as [|q t IH]; intros ND p x; cbn [fold_left find]; [reflexivity|]. inversion ND as [|? ? N1 N2]; subst. rewrite IH by exact N2. unfold ask, fupd.
  destruct (Nat.eqb_spec (q_sidx q) x) as [E|N].
  - subst x. destruct (find _ t) as [q'|] eqn:F; [|now rewrite Nat.eqb_refl]. exfalso. apply find_some in F as [F1 F2]. apply Nat.eqb_eq in F2. apply N1. rewrite <- F2. now apply in_map.
  - destruct (find _ t); [reflexivity|]. destruct (Nat.eqb_spec x (q_sidx q)); [congruence|reflexivity].
Qed.
Lemma HI_issue b hist acc pend cur s u s' u' out : comb_lsu2dcache_stq cur s u = (s', u', out) -> SInv b s -> HI b hist acc pend s ->
  HI b hist acc (fold_left ask out pend) s'.
Proof.
  intros E V H. pose proof (v_C _ _ V) as (C1 & C2 & C3). unfold STQ_SIZE in C2.
  destruct (lsu2dcache_stq_spec cur s u s' u' out E (v_good _ _ V) (v_C _ _ V) (v_J _ _ V)) as ([(P1 & P2 & P3 & P4 & P5) LE _ _ _ _ ST] & (_ & RQ & ND) & _).
  unfold comb_lsu2dcache_stq in E. apply issue_conv in E as (new & N1 & N2); [|exact (v_good _ _ V)]. cbn in N1. subst out. rename new into out.
  destruct H as [A B C D EE F G I J].
  assert (HF : forall k, k < scc s -> hof (ent s' k) = hof (ent s k)).
  { intros k K. unfold ent. rewrite P1. assert (CM : com (s_st (ent s k)) = true) by (rewrite C3 by lia; now apply Nat.ltb_lt).
    destruct (le_frozen _ _ (LE ((sh s + k) mod STQ_SIZE)) CM) as (X1 & X2 & X3 & _ & _ & X4 & X5 & _). unfold hof. now rewrite X1, X2, X3, X4, X5. }
  assert (SE : forall k, sent (s_st (ent s k)) (s_st (ent s' k))) by (intros k; unfold ent; rewrite P1; apply ST).
  assert (FQ : forall k, k < scc s -> s_st (ent s' k) = SWaitDcacheResp -> s_st (ent s k) = SCommitted -> find (fun q => q_sidx q =? (sh s + k) mod STQ_SIZE) out = Some (req ((sh s + k) mod STQ_SIZE) (hof (ent s k)))).
  { intros k K S0 S1. unfold ent in S0. rewrite P1 in S0. destruct (N2 _ S0) as [Y|(q & Q1 & Q2)]; [unfold ent in S1; congruence|].
    destruct (find _ out) as [q'|] eqn:FF.
    - apply find_some in FF as [F1 F2]. apply Nat.eqb_eq in F2. rewrite Forall_forall in RQ. destruct (RQ q' F1) as (i & I1 & SO & _). destruct SO. assert (IK : i = k).
      { rewrite so_idx in F2. apply (slot_inj STQ_SIZE) in F2; unfold STQ_SIZE; lia. }
      subst i. f_equal. destruct q'; unfold req, hof; cbn in *; congruence.
    - exfalso. apply (find_none _ _ FF) in Q1. rewrite Q2, Nat.eqb_refl in Q1. discriminate. }
  assert (FN : forall k, k < scc s -> s_st (ent s k) = SWaitDcacheResp -> find (fun q => q_sidx q =? (sh s + k) mod STQ_SIZE) out = None).
  { intros k K S0. destruct (find _ out) as [q'|] eqn:FF; [|reflexivity]. exfalso. apply find_some in FF as [F1 F2]. apply Nat.eqb_eq in F2. rewrite Forall_forall in RQ. destruct (RQ q' F1) as (i & I1 & SO & _). destruct SO. assert (IK : i = k).
      { rewrite so_idx in F2. apply (slot_inj STQ_SIZE) in F2; unfold STQ_SIZE; lia. } subst i. congruence. }
  constructor; rewrite ?P1, ?P4; auto.
  - intros k K. rewrite HF by exact K. now apply B.
  - intros k K S0. rewrite HF by exact K. rewrite asks_in by exact ND. destruct (SE k) as [Y|[Y1 _]].
    + rewrite Y in S0. rewrite (FN k K S0). now apply C.
    + now rewrite (FQ k K S0 Y1).
  - intros x q Q. rewrite asks_in in Q by exact ND. destruct (find _ out) as [q'|] eqn:FF.
    + apply find_some in FF as [F1 F2]. apply Nat.eqb_eq in F2. rewrite Forall_forall in RQ. destruct (RQ q' F1) as (i & I1 & SO & SS). destruct SO. exists i. split; [exact so_i|]. split; [congruence|exact SS].
    + destruct (D x q Q) as (k & K & X & S0). exists k. split; [exact K|]. split; [exact X|]. destruct (SE k) as [Y|[Y _]]; congruence.
  - intros k K P. rewrite HF in P by exact K. rewrite (I k K P). destruct (SE k) as [Y|[Y1 [Y2|Y2]]]; rewrite ?Y, ?Y1, ?Y2; [tauto|split; discriminate|split; discriminate].
Qed.

(** Retirement. *)
Lemma HI_retire b hist acc pend s n r : SInv b s -> r <= scc s -> sq (retire n s) = sq s -> sh (retire n s) = (b + r) mod STQ_SIZE -> scc (retire n s) = scc s - r ->
  (forall k, k < r -> s_st (ent s k) = SDone) -> HI b hist acc pend s -> HI (b + r) hist acc pend (retire n s).
Proof.
  intros V R SQE SHE SCE DN [A B C D E F G I J].
  assert (EN : forall k, ent (retire n s) k = ent s (r + k)).
  { intros k. unfold ent. rewrite SQE, SHE, (v_sh _ _ V). f_equal. unfold STQ_SIZE. lia. }
  assert (SL : forall k, (sh (retire n s) + k) mod STQ_SIZE = (sh s + (r + k)) mod STQ_SIZE) by (intros k; rewrite SHE, (v_sh _ _ V); unfold STQ_SIZE; lia).
  constructor; rewrite ?SCE; auto.
  - lia.
  - intros k K. rewrite EN, <- Nat.add_assoc. apply B. lia.
  - intros k K S0. rewrite SL, EN in *. apply C; [lia|exact S0].
  - intros x q Q. destruct (D x q Q) as (k & K & X & S0). destruct (Nat.lt_ge_cases k r) as [L|L]; [rewrite DN in S0 by exact L; discriminate|].
    exists (k - r). split; [lia|]. rewrite SL, EN. replace (r + (k - r)) with k by lia. tauto.
  - intros p P. destruct (F p P) as [F1 F2]. split; [lia|exact F2].
  - intros p P Q. destruct (Nat.lt_ge_cases p b) as [L|L]; [now apply G|]. replace p with (b + (p - b)) in * by lia. set (k := p - b) in *. assert (K : k < scc s) by lia.
    rewrite (B k K) in Q. apply (I k K Q). apply DN. lia.
  - intros k K P. rewrite EN in *. rewrite <- Nat.add_assoc. apply I; [lia|exact P].
Qed.
