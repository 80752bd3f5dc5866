(** C80: the committed instructions form the architectural path. *)
From Verif Require Import Base BaseLemmas ExecModel RobModel RobSpec RobProofs RobProps BrArbModel BrArbProps CpModel CpOrder ResProps.
Local Open Scope nat_scope.
Ltac Zify.zify_post_hook ::= Z.div_mod_to_equations.

Lemma app_mid {A} (l1 l2 a : list A) e z : l1 ++ l2 = a ++ e :: z ->
  (exists u, l1 = a ++ e :: u /\ z = u ++ l2) \/ (exists u, a = l1 ++ u /\ l2 = u ++ e :: z).
Proof.
  revert a. induction l1 as [|c l1 IH]; intros a H; cbn [app] in H; [right; exists a; auto|].
  destruct a as [|c' a]; cbn [app] in H; injection H as -> H; [left; exists l1; auto|].
  destruct (IH a H) as [(u & -> & ->)|(u & -> & ->)]; [left; exists u; auto|right; exists u; auto].
Qed.
Lemma no_arrivals f : forall l b, any_fire f = false -> arrivals l b f = [].
Proof. induction f as [|[u|] f IH]; intros l b H; cbn in *; [reflexivity|discriminate|apply IH; exact H]. Qed.
Lemma upto_at k a : forall e z, q_idx e = k -> ~ In k (map q_idx a) -> upto k (a ++ e :: z) = a ++ [QEnt (q_idx e) (q_uop e) (q_reports e) true].
Proof.
  induction a as [|c a IH]; intros e z E N; cbn [app upto].
  - subst k. rewrite Nat.eqb_refl. reflexivity.
  - cbn [map In] in N. destruct (Nat.eqb_spec (q_idx c) k) as [X|X]; [tauto|]. rewrite IH; tauto.
Qed.

(** What a cycle does to an entry that stays. *)
Definition hits (ws : list wback) (e : qent) : bool := existsb (fun w => (w_idx w =? q_idx e) && (group (w_port w) =? 1)) ws.
Definition same (ws : list wback) (e e' : qent) : Prop := q_idx e' = q_idx e /\ q_uop e' = q_uop e /\ brep e' = brep e || hits ws e.
Lemma brep_add ws e : brep (add_reports ws e) = brep e || hits ws e.
Proof.
  unfold brep, reported, add_reports, hits. cbn [q_reports q_idx]. rewrite existsb_app. f_equal.
  induction ws as [|w ws IH]; [reflexivity|]. cbn [filter existsb]. destruct (w_idx w =? q_idx e); cbn [existsb andb orb]; [now rewrite IH|exact IH].
Qed.
Lemma same_map ws l : Forall2 (same ws) l (map (add_reports ws) l).
Proof. induction l as [|e l IH]; cbn [map]; constructor; [|exact IH]. split; [reflexivity|]. split; [reflexivity|apply brep_add]. Qed.
Lemma F2_idx ws l l' : Forall2 (same ws) l l' -> map q_idx l' = map q_idx l.
Proof. induction 1 as [|e e' l l' (A & _) _ IH]; cbn [map]; congruence. Qed.

Lemma int_flush r q ri : reach r q -> b_interrupt (broadcast r ri) = true -> b_flush (broadcast r ri) = true.
Proof.
  intros R BI. destruct (RobProofs.reach_inv r _ R) as (m & WF & _). clear R. unfold broadcast in *. pose proof (decide_decided r m ri WF) as D. destruct D as [|M IR FS DH A|k v M IR Fv|k v M IR Fv C G]; cbn [b_interrupt] in BI; try discriminate.
  - rewrite orb_true_r. repeat match goal with |- context [if ?x then _ else _] => destruct x end; reflexivity.
  - exfalso. revert BI. repeat match goal with |- context [if ?x then _ else _] => destruct x end; cbn; discriminate.
Qed.
Lemma Forall2_in_r {A B} (R : A -> B -> Prop) l m y : Forall2 R l m -> In y m -> exists x, In x l /\ R x y.
Proof. induction 1 as [|a b l m H _ IH]; [intros []|]. intros [<-|I]; [exists a; cbn; auto|]. destruct (IH I) as (x & A1 & B1). exists x. cbn. auto. Qed.
Lemma Forall2_in_l {A B} (R : A -> B -> Prop) l m x : Forall2 R l m -> In x l -> exists y, In y m /\ R x y.
Proof. induction 1 as [|a b l m H _ IH]; [intros []|]. intros [<-|I]; [exists b; cbn; auto|]. destruct (IH I) as (y & A1 & B1). exists y. cbn. auto. Qed.

Section path.
  Variable pc pred act : nat -> Z.
  Variable flg br : nat -> bool.
  Notation pcE := (pcE pc). Notation predE := (predE pred). Notation actE := (actE act). Notation flgE := (flgE flg). Notation brE := (brE br).
  Notation chain := (chain pc pred). Notation ends := (ends pred). Notation penv := (penv pc pred act flg br). Notation preach := (preach pc pred act flg br). Notation path := (path pc act). Notation next_pc := (next_pc pc).
  Variable start : Z.

  (** [e] continues at the architectural address, or the misprediction is still to come. *)
  Definition link (b : latch) (a : list qent) (e : qent) (y : Z) : Prop :=
    y = actE e \/ (y = predE e /\ (brep e = false \/ exists k t, b = Some (k, t) /\ In k (map q_idx (a ++ [e])))).
  Record PI (r : rob) (q : list qent) (b : latch) (x : Z) (L : list (qent * option Z)) : Prop := {
    v_reach : reach r q;
    v_flag : forall e, In e q -> flgE e = lap r (q_idx e);
    v_kind : forall e, In e q -> (brE e = true -> Z.testbit (u_expect (q_uop e)) 1 = true) /\ (predE e <> actE e -> brE e = true);
    v_latch : forall k t, b = Some (k, t) -> exists e, In e q /\ q_idx e = k /\ t = actE e;
    v_link : forall a e z, q = a ++ e :: z -> link b a e (next_pc z x);
    v_log : path start L (next_pc q x) }.

  Lemma chain_next u : forall x e z, chain x (u ++ e :: z) -> next_pc z (ends x (u ++ e :: z)) = predE e.
  Proof.
    unfold CpModel.ends. induction u as [|c u IH]; intros x e z H; cbn [app CpModel.chain fold_left] in *.
    - destruct z as [|e2 z]; [reflexivity|]. cbn [CpModel.chain CpModel.next_pc] in *. apply H.
    - apply (IH (predE c)). apply H.
  Qed.
  Lemma chain_head x l : chain x l -> next_pc l (ends x l) = x.
  Proof. destruct l; cbn; [reflexivity|intros [A _]; exact A]. Qed.
  Lemma path_app l : forall x l' y, path x (l ++ l') y <-> exists z, path x l z /\ path z l' y.
  Proof.
    induction l as [|[e f] l IH]; intros x l' y; cbn [app CpModel.path].
    - split; [intros H; exists x; auto|intros (z & -> & H); exact H].
    - rewrite IH. split; [intros (A & z & B & C); exists z; auto|intros (z & (A & B) & C); eauto].
  Qed.

  (** The pick of the arbitration among entries in order of age. *)
  Lemma pick r (Q : list qent) brs : deq_ptr r < 32 ->
    (forall e, In e Q -> q_idx e < 64) ->
    (forall a e y e' z, Q = a ++ e :: y ++ e' :: z -> (apos r (q_idx e) < apos r (q_idx e'))%Z) ->
    (forall s, In (Some s) brs -> exists e, In e Q /\ r_idx s = Z.of_nat (q_idx e) /\ r_flag s = lap r (q_idx e) /\ r_target s = actE e /\ (predE e <> actE e -> r_mispred s = true)) ->
    let o := arbitrate brs in
    (x_mispred o = true -> exists e, In e Q /\ Z.to_nat (x_rob o) = q_idx e /\ x_pc o = actE e) /\
    (forall a e z s, Q = a ++ e :: z -> In (Some s) brs -> r_idx s = Z.of_nat (q_idx e) -> r_mispred s = true ->
       x_mispred o = true /\ In (Z.to_nat (x_rob o)) (map q_idx (a ++ [e]))).
  Proof.
    intros D RG OR B. cbv zeta. set (pos := fun s => apos r (Z.to_nat (r_idx s))).
    destruct (c16_oldest_wins 64 (wbase r) pos brs ltac:(lia)) as [C1 C2].
    { intros s S. destruct (B s S) as (e & I & E & F & _). unfold pos. rewrite E, Nat2Z.id. split; [apply apos_placed; auto|apply apos_window; auto]. }
    split.
    - intros M. destruct (C2 M) as (w & W & _ & P & R & _). destruct (B w W) as (e & I & E & _ & T & _). exists e. split; [exact I|]. rewrite R, E, Nat2Z.id, P, T. auto.
    - intros a e z s QE S E M. assert (X : x_mispred (arbitrate brs) = true) by (apply C1; eauto). split; [exact X|].
      destruct (C2 X) as (w & W & MW & P & R & _ & _ & O). destruct (B w W) as (ew & I & EW & _). specialize (O s S M). unfold pos in O. rewrite E, EW, !Nat2Z.id in O.
      rewrite R, EW, Nat2Z.id. apply in_map. rewrite QE in I. apply in_app_iff in I. cbn [In] in I. destruct I as [I|[->|I]]; [apply in_or_app; now left|apply in_or_app; right; now left|].
      exfalso. apply in_split in I as (y & z' & ->). pose proof (OR a e y ew z' QE). lia.
  Qed.

  (** One cycle without a flush, on the survivors [q1]. *)
  Lemma links r x q1 q1' new brs ws y : deq_ptr r < 32 -> (forall e, In e q1 -> q_idx e < 64) ->
    (forall a e y e' z, q1 = a ++ e :: y ++ e' :: z -> (apos r (q_idx e) < apos r (q_idx e'))%Z) ->
    (forall s, In (Some s) brs -> exists e, In e q1 /\ r_idx s = Z.of_nat (q_idx e) /\ r_flag s = lap r (q_idx e) /\ r_target s = actE e /\ (predE e <> actE e -> r_mispred s = true)) ->
    (forall w e, In w ws -> In e q1 -> brE e = true -> w_idx w = q_idx e -> group (w_port w) = 1 -> exists s, In (Some s) brs /\ r_idx s = Z.of_nat (q_idx e)) ->
    (forall e, In e q1 -> predE e <> actE e -> brE e = true) -> NoDup (map q_idx q1) ->
    Forall2 (same ws) q1 q1' ->
    (forall a e z, q1 = a ++ e :: z -> next_pc z x = actE e \/ (next_pc z x = predE e /\ brep e = false)) ->
    chain x new -> (forall e, In e new -> brep e = false) -> y = ends x new ->
    forall a e z, q1' ++ new = a ++ e :: z -> link (latch_step false brs) a e (next_pc z y).
  Proof.
    intros D RG OR B RP KD ND F LK CH NB -> a e z E. apply app_mid in E as [(u & E & ->)|(u & -> & E)].
    - rewrite E in F. apply Forall2_app_inv_r in F as (a0 & r0 & FA & FR & QE). inversion FR as [|e0 ? z0 ? (S1 & S2 & S3) FZ]; subst.
      assert (NX : next_pc (u ++ new) (ends x new) = next_pc z0 x).
      { destruct FZ as [|e1 e2 z1 u1 (_ & T & _) _]; [cbn [app]; apply chain_head, CH|]. cbn [app CpModel.next_pc]. unfold CpModel.pcE. now rewrite T. }
      rewrite NX. unfold link. unfold CpModel.actE, CpModel.predE. rewrite S2. fold (CpModel.actE act e0). fold (CpModel.predE pred e0).
      destruct (LK a0 e0 z0 eq_refl) as [X|(X & R)]; [left; exact X|].
      destruct (Z.eq_dec (predE e0) (actE e0)) as [PA|PA]; [left; congruence|]. right. split; [exact X|].
      destruct (hits ws e0) eqn:HT; [right|left; rewrite S3, R; reflexivity].
      unfold hits in HT. apply existsb_exists in HT as (w & W & G). apply andb_true_iff in G as [G1 G2]. apply Nat.eqb_eq in G1, G2.
      assert (IE : In e0 (a0 ++ e0 :: z0)) by (apply in_or_app; right; now left).
      destruct (RP w e0 W IE (KD e0 IE PA) G1 G2) as (s & SI & SE).
      assert (MS : r_mispred s = true).
      { destruct (B s SI) as (e1 & I1 & E1 & _ & _ & M1). assert (q_idx e1 = q_idx e0) by lia. assert (e1 = e0); [|subst e1; auto].
        clear - ND I1 IE H. revert ND I1 IE. generalize (a0 ++ e0 :: z0). intros l. induction l as [|c l IH]; [intros _ []|]. cbn [map In]. intros ND [->|I1] [->|IE]; auto.
        - inversion ND as [|? ? N _]; subst. destruct N. rewrite H. now apply in_map.
        - inversion ND as [|? ? N _]; subst. destruct N. rewrite <- H. now apply in_map.
        - inversion ND; auto. }
      destruct (pick r (a0 ++ e0 :: z0) brs D RG OR B) as [_ PK]. destruct (PK a0 e0 z0 s eq_refl SI SE MS) as [M I].
      exists (Z.to_nat (x_rob (arbitrate brs))), (x_pc (arbitrate brs)). split; [unfold latch_step; rewrite M; reflexivity|].
      rewrite map_app in *. cbn [map] in *. rewrite (F2_idx _ _ _ FA), S1. exact I.
    - right. split; [rewrite E; apply chain_next; rewrite <- E; exact CH|]. left. apply NB. rewrite E. apply in_or_app. right. now left.
  Qed.

  Lemma log_path x p : forall a q1 b, b = None ->
    (forall a' e z, a ++ p ++ q1 = a' ++ e :: z -> link b a' e (next_pc z x)) -> (forall e, In e p -> brE e = true -> brep e = true) -> (forall e, In e p -> predE e <> actE e -> brE e = true) ->
    path (next_pc (p ++ q1) x) (map (fun e => (e, None)) p) (next_pc q1 x).
  Proof.
    induction p as [|e p IH]; intros a q1 b NB LK CM KD; [reflexivity|]. cbn [map CpModel.path app CpModel.next_pc]. split; [reflexivity|].
    assert (N : next_pc (p ++ q1) x = actE e).
    { destruct (LK a e (p ++ q1) eq_refl) as [X|(X & [R|(k & t & Y & _)])]; [exact X| |congruence].
      destruct (Z.eq_dec (predE e) (actE e)) as [PA|PA]; [congruence|]. rewrite CM in R; [discriminate|now left|apply KD; [now left|exact PA]]. }
    rewrite <- N. apply (IH (a ++ [e]) q1 b NB); auto.
    - intros a' e' z E. apply LK. rewrite <- E, <- app_assoc. reflexivity.
    - intros e' I. apply CM. now right.
    - intros e' I. apply KD. now right.
  Qed.

  Lemma PI_step r q b x L i brs fpc : PI r q b x L -> penv r q b x i brs ->
    PI (rob_step r i) (q_step q r i) (latch_step (b_flush (broadcast r i)) brs) (fetch_step pred r i b x fpc) (L ++ leaves r q i fpc).
  Proof.
    intros [RC FL KD LT LK LG] E. destruct (c03_indices_unique r q RC) as [ND RG]. destruct (reach_inv r q RC) as (n & W & T). pose proof (wf_deq _ _ W) as D. unfold LINES in D.
    assert (TR : traffic_ok r i).
    { constructor; [exact (pe_width _ _ _ _ _ _ _ _ _ _ _ E)| |].
      - intros M. apply (pe_nofire _ _ _ _ _ _ _ _ _ _ _ E). intros ->. unfold is_mis in M. rewrite (pe_mis _ _ _ _ _ _ _ _ _ _ _ E) in M. discriminate.
      - intros k M. rewrite (pe_mis _ _ _ _ _ _ _ _ _ _ _ E) in M. destruct b as [[k' t]|]; [|discriminate]. injection M as ->. destruct (LT k t eq_refl) as (e & I & <- & _). rewrite (tracks_keys _ _ T). now apply in_map. }
    assert (RC' : reach (rob_step r i) (q_step q r i)) by now constructor.
    destruct (b_flush (broadcast r i)) eqn:FB.
    { unfold fetch_step, leaves. rewrite FB. assert (Q' : q_step q r i = []) by (unfold q_step; now rewrite FB). rewrite Q' in *. destruct (reach_flush_head r q i RC FB) as (e & q' & k & u & -> & C & _). rewrite C. cbn [length firstn map].
      constructor; [exact RC'|intros ? []|intros ? []|discriminate|intros [|]; discriminate|]. apply path_app. exists (pcE e). split; [exact LG|]. cbn. auto. }
    assert (NI : b_interrupt (broadcast r i) = false).
    { destruct (b_interrupt (broadcast r i)) eqn:X; [|reflexivity]. pose proof (int_flush r q i RC X). congruence. }
    assert (DONE : forall e, In e (firstn (length (committed r i)) q) -> brE e = true -> brep e = true).
    { intros e I X. assert (Iq : In e q) by (rewrite <- (firstn_skipn (length (committed r i)) q); apply in_or_app; now left).
      destruct (c04_committed_is_complete r q i e RC I NI 1 (proj1 (KD e Iq) X)) as (w & W1 & W2). unfold brep, reported. apply existsb_exists. exists w. split; [exact W1|]. now rewrite W2. }
    destruct b as [[k t]|].
    - pose proof (pe_mis _ _ _ _ _ _ _ _ _ _ _ E) as M. cbn [option_map fst] in M. destruct (c04_mispredict_holds_commit r q i k RC M) as [CM _].
      destruct (LT k t eq_refl) as (e0 & I0 & K0 & T0). apply in_split in I0 as (a & z & QE).
      assert (NA : ~ In k (map q_idx a)). { rewrite QE, map_app in ND. cbn [map] in ND. apply NoDup_remove_2 in ND. rewrite <- K0. intros X. apply ND, in_or_app. now left. }
      assert (NW : arrivals (enq_ptr r) 0 (i_fire i) = []) by (apply no_arrivals, (pe_nofire _ _ _ _ _ _ _ _ _ _ _ E); discriminate).
      set (f0 := add_reports (i_wb i) e0). set (c0 := QEnt (q_idx f0) (q_uop f0) (q_reports f0) true).
      assert (Q' : q_step q r i = map (add_reports (i_wb i)) a ++ [c0]).
      { unfold q_step. rewrite FB, CM, M, NW. cbn [length skipn]. rewrite app_nil_r. assert (U : upto k (map (add_reports (i_wb i)) q) = map (add_reports (i_wb i)) a ++ [c0]).
        { rewrite QE, map_app. cbn [map]. apply upto_at; [exact K0|]. rewrite map_map. exact NA. }
        rewrite U. now destruct (rob_ready r). }
      assert (F2 : Forall2 (same (i_wb i)) (a ++ [e0]) (map (add_reports (i_wb i)) a ++ [c0])).
      { apply Forall2_app; [apply same_map|]. constructor; [|constructor]. split; [reflexivity|]. split; [reflexivity|]. exact (brep_add (i_wb i) e0). }
      assert (SUB : forall e, In e (a ++ [e0]) -> In e q) by (intros e I; rewrite QE; apply in_or_app; apply in_app_iff in I as [I|[<-|[]]]; [now left|right; now left]).
      assert (BRS : forall s, In (Some s) brs -> exists e, In e (a ++ [e0]) /\ r_idx s = Z.of_nat (q_idx e) /\ r_flag s = lap r (q_idx e) /\ r_target s = actE e /\ (predE e <> actE e -> r_mispred s = true)).
      { intros s S. destruct (pe_br _ _ _ _ _ _ _ _ _ _ _ E s S) as (a1 & e & z1 & Q1 & OLD & _ & _ & X1 & X2 & X3 & X4). exists e. split; [|rewrite <- FL by (rewrite Q1; apply in_or_app; right; now left); auto].
        specialize (OLD k t eq_refl). rewrite QE in Q1. apply app_mid in Q1 as [(u & -> & _)|(u & -> & X)]; [apply in_or_app; left; apply in_or_app; right; now left|].
        destruct u as [|u0 u]; [injection X as -> _; apply in_or_app; right; now left|]. injection X as -> X. exfalso. apply OLD. rewrite map_app. cbn [map]. apply in_or_app. right. now left. }
      assert (NW2 : newq r i = []) by (unfold newq; rewrite NW; now destruct (rob_ready r)).
      assert (FE : fetch_step pred r i (Some (k, t)) x fpc = t) by (unfold fetch_step; now rewrite FB). rewrite FE.
      assert (OR : forall a' e y e' z', a ++ [e0] = a' ++ e :: y ++ e' :: z' -> (apos r (q_idx e) < apos r (q_idx e'))%Z).
      { intros a' e y e' z' X. apply (older_pos r q a' e y e' (z' ++ z) RC). rewrite QE. change (e0 :: z) with ([e0] ++ z). rewrite app_assoc, X, <- app_assoc. cbn [app]. rewrite <- app_assoc. reflexivity. }
      assert (ND1 : NoDup (map q_idx (a ++ [e0]))).
      { rewrite QE in ND. change (e0 :: z) with ([e0] ++ z) in ND. rewrite app_assoc, map_app in ND. clear - ND. revert ND. generalize (map q_idx (a ++ [e0])), (map q_idx z). intros l m. induction l as [|c l IH]; [constructor|]. cbn. intros X. inversion X as [|? ? N X']; subst. constructor; [|auto]. intros Y. apply N, in_or_app. now left. }
      rewrite Q' in *. constructor; [exact RC'| | | | |].
      + intros e I. assert (X : exists e1, In e1 (a ++ [e0]) /\ q_idx e = q_idx e1 /\ q_uop e = q_uop e1).
        { apply (Forall2_in_r _ _ _ _ F2) in I as (e1 & I1 & A & B & _). eauto. }
        destruct X as (e1 & I1 & A & B). unfold CpModel.flgE. rewrite A, B. rewrite (lap_flight r q i e1 RC FB) by (rewrite CM; cbn [length skipn]; auto). exact (FL e1 (SUB e1 I1)).
      + intros e I. apply (Forall2_in_r _ _ _ _ F2) in I as (e1 & I1 & A & B & _). unfold CpModel.brE, CpModel.predE, CpModel.actE. rewrite B. exact (KD e1 (SUB e1 I1)).
      + intros k' t' X. unfold latch_step in X. cbv zeta in X. destruct (x_mispred (arbitrate brs)) eqn:MX; [|discriminate]. injection X as <- <-.
        destruct (pick r (a ++ [e0]) brs D (fun e I => RG e (SUB e I)) OR BRS) as [PK _]. destruct (PK MX) as (e & I & A & B).
        apply (Forall2_in_l _ _ _ _ F2) in I as (e1 & I1 & A1 & B1 & _). exists e1. split; [exact I1|]. split; [congruence|]. rewrite B. unfold CpModel.actE. now rewrite B1.
      + intros a' e z' X. apply (links r t (a ++ [e0]) (map (add_reports (i_wb i)) a ++ [c0]) [] brs (i_wb i) t D (fun e I => RG e (SUB e I)) OR BRS); auto.
        * intros w e1 W1 I1 B1 X1 G1. exact (pe_rep _ _ _ _ _ _ _ _ _ _ _ E w e1 W1 (SUB e1 I1) B1 X1 G1).
        * intros e1 I1. apply (proj2 (KD e1 (SUB e1 I1))).
        * intros a1 e1 z1 X1. destruct z1 as [|e2 z1]; [left; cbn; apply app_inj_tail in X1 as [_ <-]; exact T0|].
          assert (Q1 : q = a1 ++ e1 :: (e2 :: z1) ++ z). { rewrite QE. change (e0 :: z) with ([e0] ++ z). rewrite app_assoc, X1, <- app_assoc. reflexivity. }
          destruct (LK a1 e1 _ Q1) as [Y|(Y & [Z|(k' & t' & Z & Z2)])]; [left; exact Y|right; split; [exact Y|exact Z]|]. exfalso. injection Z as <- <-.
          apply NA. assert (P : exists u, a = (a1 ++ [e1]) ++ u). { clear - X1. destruct (app_mid _ _ _ _ _ X1) as [(u & -> & U)|(u & -> & U)]; [exists u; now rewrite <- app_assoc|]. exfalso. destruct u as [|? [|]]; discriminate. }
          destruct P as (u & ->). rewrite map_app. apply in_or_app. now left.
        * exact I.
        * intros e1 [].
        * now rewrite app_nil_r.
      + unfold leaves. rewrite CM. cbn [length firstn map]. rewrite app_nil_r. assert (NX : next_pc (map (add_reports (i_wb i)) a ++ [c0]) t = next_pc q x) by (rewrite QE; destruct a; reflexivity). rewrite NX. exact LG.
    - pose proof (pe_mis _ _ _ _ _ _ _ _ _ _ _ E) as M. cbn [option_map] in M. set (c := length (committed r i)) in *. set (q1 := skipn c q) in *.
      assert (QE : q = firstn c q ++ q1) by (symmetry; apply firstn_skipn).
      assert (SUB : forall e, In e q1 -> In e q) by (intros e I; rewrite QE; apply in_or_app; now right).
      assert (Q' : q_step q r i = map (add_reports (i_wb i)) q1 ++ newq r i) by (unfold q_step, newq; rewrite FB, M; fold c; fold q1; destruct (rob_ready r); [reflexivity|now rewrite app_nil_r]).
      assert (FE : fetch_step pred r i None x fpc = ends x (newq r i)) by (unfold fetch_step; now rewrite FB). rewrite FE, Q' in *.
      assert (F2 : Forall2 (same (i_wb i)) q1 (map (add_reports (i_wb i)) q1)) by apply same_map.
      assert (BRS : forall s, In (Some s) brs -> exists e, In e q1 /\ r_idx s = Z.of_nat (q_idx e) /\ r_flag s = lap r (q_idx e) /\ r_target s = actE e /\ (predE e <> actE e -> r_mispred s = true)).
      { intros s S. destruct (pe_br _ _ _ _ _ _ _ _ _ _ _ E s S) as (a1 & e & z1 & Q1 & _ & BE & BR & X1 & X2 & X3 & X4). assert (Iq : In e q) by (rewrite Q1; apply in_or_app; right; now left). exists e. split; [|rewrite <- FL by exact Iq; auto].
        rewrite QE in Iq. apply in_app_iff in Iq as [Iq|Iq]; [|exact Iq]. rewrite (DONE e Iq BE) in BR. discriminate. }
      assert (OR : forall a' e y e' z', q1 = a' ++ e :: y ++ e' :: z' -> (apos r (q_idx e) < apos r (q_idx e'))%Z).
      { intros a' e y e' z' X. apply (older_pos r q (firstn c q ++ a') e y e' z' RC). rewrite QE at 1. rewrite X, <- app_assoc. reflexivity. }
      assert (ND1 : NoDup (map q_idx q1)).
      { rewrite QE, map_app in ND. clear - ND. revert ND. generalize (map q_idx (firstn c q)). intros l. induction l as [|d l IH]; [auto|]. cbn. intros X. inversion X; auto. }
      constructor; [exact RC'| | | | |].
      + intros e I. apply in_app_iff in I as [I|I].
        * apply (Forall2_in_r _ _ _ _ F2) in I as (e1 & I1 & A & B & _). unfold CpModel.flgE. rewrite A, B. rewrite (lap_flight r q i e1 RC FB I1). exact (FL e1 (SUB e1 I1)).
        * rewrite (pe_flag _ _ _ _ _ _ _ _ _ _ _ E e I). unfold newq in I. destruct (rob_ready r) eqn:RD; [|destruct I]. symmetry. exact (lap_new r q i e RC FB RD (pe_width _ _ _ _ _ _ _ _ _ _ _ E) I).
      + intros e I. apply in_app_iff in I as [I|I]; [|exact (pe_kind _ _ _ _ _ _ _ _ _ _ _ E e I)].
        apply (Forall2_in_r _ _ _ _ F2) in I as (e1 & I1 & A & B & _). unfold CpModel.brE, CpModel.predE, CpModel.actE. rewrite B. exact (KD e1 (SUB e1 I1)).
      + intros k' t' X. unfold latch_step in X. cbv zeta in X. destruct (x_mispred (arbitrate brs)) eqn:MX; [|discriminate]. injection X as <- <-.
        destruct (pick r q1 brs D (fun e I => RG e (SUB e I)) OR BRS) as [PK _]. destruct (PK MX) as (e & I & A & B).
        apply (Forall2_in_l _ _ _ _ F2) in I as (e1 & I1 & A1 & B1 & _). exists e1. split; [apply in_or_app; now left|]. split; [congruence|]. rewrite B. unfold CpModel.actE. now rewrite B1.
      + intros a' e z' X. apply (links r x q1 (map (add_reports (i_wb i)) q1) (newq r i) brs (i_wb i) (ends x (newq r i)) D (fun e I => RG e (SUB e I)) OR BRS); auto.
        * intros w e1 W1 I1 B1 X1 G1. exact (pe_rep _ _ _ _ _ _ _ _ _ _ _ E w e1 W1 (SUB e1 I1) B1 X1 G1).
        * intros e1 I1. apply (proj2 (KD e1 (SUB e1 I1))).
        * intros a1 e1 z1 X1. destruct (LK (firstn c q ++ a1) e1 z1) as [Y|(Y & [Z|(k' & t' & Z & _)])]; [rewrite QE at 1; rewrite X1, <- app_assoc; reflexivity|left; exact Y|right; split; [exact Y|exact Z]|discriminate].
        * exact (pe_path _ _ _ _ _ _ _ _ _ _ _ E).
        * intros e1 I1. unfold newq in I1. destruct (rob_ready r); [|destruct I1]. clear - I1. revert I1. generalize 0 at 1. induction (i_fire i) as [|[u|] f IH]; intros m I1; [destruct I1| |exact (IH _ I1)]. cbn [arrivals In] in I1. destruct I1 as [<-|I1]; [reflexivity|exact (IH _ I1)].
      + apply path_app. exists (next_pc q x). split; [exact LG|]. unfold leaves. rewrite FB. fold c.
        assert (NX : next_pc (map (add_reports (i_wb i)) q1 ++ newq r i) (ends x (newq r i)) = next_pc q1 x) by (destruct q1; [apply chain_head, (pe_path _ _ _ _ _ _ _ _ _ _ _ E)|reflexivity]). rewrite NX. rewrite QE at 1.
        apply (log_path x (firstn c q) [] q1 None eq_refl); auto.
        * cbn [app]. rewrite <- QE. exact LK.
        * intros e I. apply (proj2 (KD e ltac:(rewrite QE; apply in_or_app; now left))).
  Qed.
  Lemma preach_PI r q b x L : preach start r q b x L -> PI r q b x L.
  Proof.
    induction 1 as [|r q b x L i brs fpc H IH E]; [|exact (PI_step _ _ _ _ _ _ _ _ IH E)].
    constructor; [constructor|intros ? []|intros ? []|discriminate|intros [|]; discriminate|reflexivity].
  Qed.

  (** The state reached is one of the reorder buffer alone: every redirection names an
      instruction in flight, and carries its architectural next address. *)
  Theorem c80_redirect_in_flight r q b x L : preach start r q b x L -> reach r q /\
    forall k t, b = Some (k, t) -> exists e, In e q /\ q_idx e = k /\ t = actE e.
  Proof. intros H. apply preach_PI in H as []. auto. Qed.
  (** The lap flags given at dispatch stay usable: for two instructions in flight the
      comparison of flag and index is program order. *)
  Theorem c80_flags_give_age r q b x L a e y e' z s s' : preach start r q b x L -> q = a ++ e :: y ++ e' :: z ->
    r_idx s = Z.of_nat (q_idx e) -> r_flag s = flgE e -> r_idx s' = Z.of_nat (q_idx e') -> r_flag s' = flgE e' ->
    cmp_age s s' = false /\ cmp_age s' s = true.
  Proof.
    intros H Q A1 A2 B1 B2. apply preach_PI in H as [RC FL _ _ _ _]. destruct (c03_indices_unique r q RC) as [_ RG]. destruct (reach_inv r q RC) as (n & W & _). pose proof (wf_deq _ _ W) as D. unfold LINES in D.
    assert (I : In e q) by (rewrite Q; apply in_or_app; right; now left). assert (I' : In e' q) by (rewrite Q; apply in_or_app; right; right; apply in_or_app; right; now left).
    rewrite (FL e I) in A2. rewrite (FL e' I') in B2. pose proof (older_pos r q a e y e' z RC Q) as O.
    rewrite (cmp_age_order 64 (wbase r) s s' (apos r (q_idx e)) (apos r (q_idx e'))), (cmp_age_order 64 (wbase r) s' s (apos r (q_idx e')) (apos r (q_idx e))); try apply apos_placed; try apply apos_window; auto; try lia.
  Qed.
  (** C80: what leaves the reorder buffer is the architectural path from the reset address,
      with the addresses of the flushes; the next instruction, in the buffer or still to come,
      is the one the path leads to. *)
  Theorem c80_committed_path r q b x L : preach start r q b x L -> path start L (next_pc q x).
  Proof. intros H. apply preach_PI in H as []. auto. Qed.
  (** Behind an instruction in flight follows its architectural successor, or it has not been
      resolved, or it or an older one is about to be redirected. *)
  Theorem c80_successor_in_flight r q b x L a e z : preach start r q b x L -> q = a ++ e :: z ->
    next_pc z x = actE e \/ next_pc z x = predE e /\ (brep e = false \/ exists k t, b = Some (k, t) /\ In k (map q_idx (a ++ [e]))).
  Proof. intros H. apply preach_PI in H as [_ _ _ _ LK _]. apply LK. Qed.

  (** *** Runs checked by computation *)
  Fixpoint chainb (x : Z) (l : list qent) : bool := match l with [] => true | e :: l => (pcE e =? x)%Z && chainb (predE e) l end.
  Definition samel (b b' : option nat) : bool := match b, b' with None, None => true | Some k, Some k' => k =? k' | _, _ => false end.
  Definition kindb (e : qent) : bool := (negb (brE e) || Z.testbit (u_expect (q_uop e)) 1) && ((predE e =? actE e)%Z || brE e).
  Definition ownb (q : list qent) (b : latch) (s : brres) (p : nat) : bool :=
    match nth_error q p with
    | Some e => match b with Some (k, _) => negb (existsb (Nat.eqb k) (map q_idx (firstn p q))) | None => true end && brE e && negb (brep e) &&
        (r_idx s =? Z.of_nat (q_idx e))%Z && Bool.eqb (r_flag s) (flgE e) && (r_target s =? actE e)%Z && ((predE e =? actE e)%Z || r_mispred s)
    | None => false end.
  Definition repb (brs : list (option brres)) (w : wback) (e : qent) : bool :=
    negb (brE e && (w_idx w =? q_idx e) && (group (w_port w) =? 1)) || existsb (fun o => match o with Some s => (r_idx s =? Z.of_nat (q_idx e))%Z | None => false end) brs.
  Definition penvb (r : rob) (q : list qent) (b : latch) (x : Z) (i : rob_in) (brs : list (option brres)) : bool :=
    (length (i_fire i) =? BANKS) && match b with None => true | Some _ => negb (any_fire (i_fire i)) end && samel (RobModel.i_mispred i) (option_map fst b) &&
    chainb x (newq r i) && forallb (fun e => Bool.eqb (flgE e) (enq_flag r)) (newq r i) && forallb kindb (newq r i) &&
    forallb (fun o => match o with Some s => existsb (ownb q b s) (seq 0 (length q)) | None => true end) brs &&
    forallb (fun w => forallb (repb brs w) q) (i_wb i).
  Lemma chainb_ok l : forall x, chainb x l = true -> chain x l.
  Proof. induction l as [|e l IH]; intros x H; cbn in *; [exact I|]. apply andb_true_iff in H as [A B]. apply Z.eqb_eq in A. split; [exact A|exact (IH _ B)]. Qed.
  Lemma penvb_ok r q b x i brs : penvb r q b x i brs = true -> penv r q b x i brs.
  Proof.
    unfold penvb. rewrite !andb_true_iff. intros (((((((A & B) & C) & D) & E) & F) & G) & H). constructor.
    - now apply Nat.eqb_eq in A.
    - intros N. destruct b; [now apply negb_true_iff in B|congruence].
    - unfold samel in C. destruct (RobModel.i_mispred i), (option_map fst b); try discriminate; [apply Nat.eqb_eq in C; now subst|reflexivity].
    - now apply chainb_ok.
    - intros e I. rewrite forallb_forall in E. specialize (E e I). now apply eqb_prop in E.
    - intros e I. rewrite forallb_forall in F. specialize (F e I). unfold kindb in F. apply andb_true_iff in F as [F1 F2]. split.
      + intros X. rewrite X in F1. exact F1.
      + intros X. apply orb_true_iff in F2 as [F2|F2]; [apply Z.eqb_eq in F2; contradiction|exact F2].
    - intros s I. rewrite forallb_forall in G. specialize (G _ I). cbn beta iota in G. apply existsb_exists in G as (p & _ & G). unfold ownb in G.
      destruct (nth_error q p) as [e|] eqn:N; [|discriminate]. rewrite !andb_true_iff in G. destruct G as ((((((G1 & G2) & G3) & G4) & G5) & G6) & G7).
      exists (firstn p q), e, (skipn (S p) q). split.
      { clear - N. revert q N. induction p as [|p IH]; intros [|c q] N; try discriminate; cbn in *; [injection N as ->; reflexivity|]. f_equal. now apply IH. }
      split. { intros k t ->. apply negb_true_iff in G1. intros X. assert (Y : existsb (Nat.eqb k) (map q_idx (firstn p q)) = true) by (apply existsb_exists; exists k; split; [exact X|apply Nat.eqb_refl]). congruence. }
      apply negb_true_iff in G3. apply Z.eqb_eq in G4, G6. apply eqb_prop in G5. repeat split; auto. intros X. apply orb_true_iff in G7 as [G7|G7]; [apply Z.eqb_eq in G7; contradiction|exact G7].
    - intros w e W I X1 X2 X3. rewrite forallb_forall in H. specialize (H w W). cbn beta in H. rewrite forallb_forall in H. specialize (H e I). unfold repb in H. rewrite X1, X2, X3, !Nat.eqb_refl in H. cbn [andb negb orb] in H.
      apply existsb_exists in H as ([s|] & I1 & I2); [|discriminate]. apply Z.eqb_eq in I2. eauto.
  Qed.
  Definition pst : Type := rob * list qent * latch * Z * list (qent * option Z).
  Definition pin : Type := rob_in * list (option brres) * Z.
  Definition pnext (s : pst) (c : pin) : pst := let '(r, q, b, x, L) := s in let '(i, brs, fpc) := c in
    (rob_step r i, q_step q r i, latch_step (b_flush (broadcast r i)) brs, fetch_step pred r i b x fpc, L ++ leaves r q i fpc).
  Fixpoint pok (s : pst) (l : list pin) : bool :=
    match l with [] => true | c :: l' => (let '(r, q, b, x, _) := s in let '(i, brs, _) := c in penvb r q b x i brs) && pok (pnext s c) l' end.
  Definition holds (s : pst) : Prop := let '(r, q, b, x, L) := s in preach start r q b x L.
  Lemma pok_run l : forall s, holds s -> pok s l = true -> holds (fold_left pnext l s).
  Proof.
    induction l as [|[[i brs] fpc] l IH]; intros [[[[r q] b] x] L] H K; [exact H|]. cbn [pok] in K. apply andb_true_iff in K as [K1 K2]. cbn [fold_left]. apply IH; [|exact K2].
    cbn [pnext holds]. constructor; [exact H|now apply penvb_ok].
  Qed.
End path.

(** A branch at 0x100, predicted to fall through, goes to 0x200; the branch fetched behind it
    is reported as mispredicted in the same cycle, on the lower port. *)
Definition xpc (n : nat) : Z := nth n [0x100; 0x104; 0x200; 0x204]%Z 0%Z.
Definition xpred (n : nat) : Z := nth n [0x104; 0x108; 0x204; 0x208]%Z 0%Z.
Definition xact (n : nat) : Z := nth n [0x200; 0x300; 0x204; 0x208]%Z 0%Z.
Definition xflg (n : nat) : bool := false.
Definition xbr (n : nat) : bool := n <? 2.
Definition xu (n : nat) : ruop := RUop (if n =? 3 then T_CSR else if n <? 2 then T_BR else T_ADD) false false false false false (if n <? 2 then 2%Z else 1%Z) 0%Z 0%Z false false false n.
Definition xw (port idx : nat) (m : bool) : wback := WBack port idx false false false false 0%Z 0%Z (8 <=? port) m m.
Definition xi (m : option nat) (ws : list wback) (f : list (option ruop)) : rob_in := RobIn m false false false ws f.
Definition nof : list (option ruop) := [None; None].
Definition xrun : list pin := [
  (xi None [] [Some (xu 0); Some (xu 1)], [], 0%Z);
  (xi None [xw 8 1 true; xw 9 0 true] nof, [Some (BrRes 1 false 2 true 0x300 0); Some (BrRes 0 false 1 true 0x200 0)], 0%Z);
  (xi (Some 0) [] nof, [], 0%Z);
  (xi None [] [Some (xu 2); Some (xu 3)], [], 0%Z);
  (xi None [xw 0 2 false; xw 1 3 false] nof, [], 0%Z);
  (xi None [] nof, [], 0%Z); (xi None [] nof, [], 0x208%Z)].
Definition xst0 : pst := (rob_init, [], None, 0x100%Z, []).
Definition xst (k : nat) : pst := fold_left (pnext xpred) (firstn k xrun) xst0.
Lemma xst_ok k : pok xpc xpred xact xflg xbr xst0 (firstn k xrun) = true -> holds xpc xpred xact xflg xbr 0x100%Z (xst k).
Proof. intros H. apply pok_run; [constructor|exact H]. Qed.
Example c80_ex_latched : holds xpc xpred xact xflg xbr 0x100%Z (xst 2) /\ (let '(_, q, b, _, _) := xst 2 in b = Some (0, 0x200%Z) /\ length q = 2).
Proof. split; [apply xst_ok; vm_compute; reflexivity|vm_compute; auto]. Qed.
Example c80_ex_path : holds xpc xpred xact xflg xbr 0x100%Z (xst 7) /\
  (let '(_, q, b, x, L) := xst 7 in q = [] /\ x = 0x208%Z /\ map (fun p => (pcE xpc (fst p), snd p)) L = [(0x100, None); (0x200, None); (0x204, Some 0x208)]%Z).
Proof. split; [apply xst_ok; vm_compute; reflexivity|vm_compute; auto]. Qed.

Print Assumptions c80_redirect_in_flight.
Print Assumptions c80_flags_give_age.
Print Assumptions c80_committed_path.
Print Assumptions c80_successor_in_flight.
