(** Lemmas for C40. *)
From Verif Require Import Base DispModel DispSpec.
Local Open Scope nat_scope.

(** *** Decomposition *)
Lemma shr2 : forall z, Z.shiftr z 2 = (z / 4)%Z.
Proof. intros z. now rewrite Z.shiftr_div_pow2 by lia. Qed.
Lemma load_iff : forall x, is_load x = true <-> reads_mem x.
Proof.
  intros x. unfold is_load, reads_mem, amo_op. rewrite shr2. unfold SC.
  destruct (ty x); cbn [itype_beq orb andb]; split; intros H; try discriminate H; try (left; reflexivity); try reflexivity;
    try (destruct H as [H|[H _]]; discriminate H).
  - right. split; [reflexivity|]. intros E. rewrite E in H. discriminate.
  - destruct H as [H|[_ H]]; [discriminate|]. destruct (Z.eqb_spec (f7 x / 4) 3); [contradiction|reflexivity].
Qed.
Lemma store_iff : forall x, is_store x = true <-> writes_mem x.
Proof.
  intros x. unfold is_store, writes_mem, amo_op. rewrite shr2. unfold LR.
  destruct (ty x); cbn [itype_beq orb andb]; split; intros H; try discriminate H; try (left; reflexivity); try reflexivity;
    try (destruct H as [H|[H _]]; discriminate H).
  - right. split; [reflexivity|]. intros E. rewrite E in H. discriminate.
  - destruct H as [H|[_ H]]; [discriminate|]. destruct (Z.eqb_spec (f7 x / 4) 2); [contradiction|reflexivity].
Qed.

Definition onq (q : iqid) (us : list (iqid * uop)) : list uop := map snd (filter (fun qu => iqid_beq (fst qu) q) us).
Lemma onq_app : forall q a b, onq q (a ++ b) = onq q a ++ onq q b.
Proof. intros. unfold onq. now rewrite filter_app, map_app. Qed.

Ltac amo x := destruct (Z.eqb_spec (f7 x / 4) LR) as [?|?]; [|destruct (Z.eqb_spec (f7 x / 4) SC) as [?|?]].
Lemma decompose_q : forall q x,
  (needs q x /\ exists u, onq q (decompose x) = [u] /\ carries q x u) \/ (~ needs q x /\ onq q (decompose x) = []).
Proof.
  intros q x. unfold decompose, needs, reads_mem, writes_mem, jumps, carries, same_place, src1_is, src2_is, amo_op. rewrite shr2.
  destruct (ty x) eqn:T; try (amo x);
  destruct q; cbn [onq map filter fst snd iqid_beq itype_beq orb];
  first
  [ left; split; [first [tauto | repeat split; intros C; intuition (try discriminate; unfold LR, SC in *; congruence)
                        | right; split; [reflexivity|unfold LR, SC in *; congruence] | left; reflexivity | right; left; reflexivity | right; right; reflexivity]|];
    eexists; split; [reflexivity|]; cbn; repeat split; try congruence; intros; try congruence; try (repeat split; congruence)
  | right; split; [intros C; intuition (try discriminate; unfold LR, SC in *; congruence)|reflexivity]
  | idtac ].
  all: try (destruct (f7 x / 4 =? SWAP)%Z; reflexivity).
  all: try (symmetry; apply Z.eqb_eq; assumption).
  all: try (symmetry; apply Z.eqb_neq; assumption).
Qed.

(** *** Requests *)
Definition cnt (q : iqid) (us : list (iqid * uop)) : nat := length (onq q us).
Lemma beq_q : forall a b, iqid_beq a b = true <-> a = b.
Proof. intros [] []; cbn; split; congruence. Qed.
Lemma cnt_app : forall q a b, cnt q (a ++ b) = cnt q a + cnt q b.
Proof. intros. unfold cnt. now rewrite onq_app, app_length. Qed.
Lemma place_n : forall us n m q, fst (place us n m) q = n q + cnt q us.
Proof.
  induction us as [|[p u] us IH]; intros n m q; cbn [place]; [cbn; lia|]. rewrite IH. unfold cnt, onq. cbn [filter fst].
  unfold bump. destruct (iqid_beq q p) eqn:E.
  - apply beq_q in E as ->. replace (iqid_beq p p) with true by (destruct p; reflexivity). cbn. lia.
  - destruct (iqid_beq p q) eqn:E2; [apply beq_q in E2 as ->; destruct q; discriminate|lia].
Qed.
Lemma place_m : forall us n m q k,
  snd (place us n m) q k = if (n q <=? k) && (k <? n q + cnt q us) then nth_error (onq q us) (k - n q) else m q k.
Proof.
  induction us as [|[p u] us IH]; intros n m q k; cbn [place].
  - change (cnt q []) with 0. cbn [snd map]. destruct ((n q <=? k) && (k <? n q + 0)) eqn:C; [lia|reflexivity].
  - rewrite IH. unfold cnt, onq, bump, rset. cbn [filter fst]. destruct (iqid_beq q p) eqn:E.
    + apply beq_q in E as ->. replace (iqid_beq p p) with true by (destruct p; reflexivity). cbn [map length andb snd].
      destruct (Nat.eqb_spec k (n p)) as [->|Nk].
      * replace (S (n p) <=? n p) with false by (symmetry; apply Nat.leb_gt; lia). cbn [andb].
        replace (n p <=? n p) with true by (symmetry; apply Nat.leb_le; lia).
        match goal with |- context [?a <? ?b] => replace (a <? b) with true by (symmetry; apply Nat.ltb_lt; lia) end.
        rewrite Nat.sub_diag. reflexivity.
      * match goal with |- (if ?c then _ else _) = (if ?d then _ else _) => destruct c eqn:C; destruct d eqn:D end; try reflexivity; try lia.
        replace (k - n p) with (S (k - S (n p))) by lia. reflexivity.
    + destruct (iqid_beq p q) eqn:E2; [apply beq_q in E2 as ->; destruct q; discriminate|]. reflexivity.
Qed.
Lemma place_app : forall a b n m, place (a ++ b) n m = let '(n1, m1) := place a n m in place b n1 m1.
Proof. induction a as [|[q u] a IH]; intros; cbn [place app]; [reflexivity|apply IH]. Qed.
Lemma bumps_eq : forall us n q m, bumps (map fst us) n q = fst (place us n m) q.
Proof.
  induction us as [|[p u] us IH]; intros n q m; cbn [place map bumps fst]; [reflexivity|apply IH].
Qed.
Definition eqn (a b : usage) := forall q, a q = b q.
Definition eqm (a b : reqs) := forall q k, a q k = b q k.
Lemma cancel_n : forall us n m q, fst (cancel (map fst us) n m) q = n q + cnt q us.
Proof.
  induction us as [|[p u] us IH]; intros n m q; cbn [cancel map fst]; [cbn; lia|]. rewrite IH. unfold cnt, onq. cbn [filter fst].
  unfold bump. destruct (iqid_beq q p) eqn:E.
  - apply beq_q in E as ->. replace (iqid_beq p p) with true by (destruct p; reflexivity). cbn. lia.
  - destruct (iqid_beq p q) eqn:E2; [apply beq_q in E2 as ->; destruct q; discriminate|lia].
Qed.
Lemma cancel_m : forall us n m q k,
  snd (cancel (map fst us) n m) q k = if (n q <=? k) && (k <? n q + cnt q us) then None else m q k.
Proof.
  induction us as [|[p u] us IH]; intros n m q k; cbn [cancel map fst].
  - change (cnt q []) with 0. cbn [snd map]. destruct ((n q <=? k) && (k <? n q + 0)) eqn:C; [lia|reflexivity].
  - rewrite IH. unfold cnt, onq, bump, rset. cbn [filter fst]. destruct (iqid_beq q p) eqn:E.
    + apply beq_q in E as ->. replace (iqid_beq p p) with true by (destruct p; reflexivity). cbn [map length andb].
      destruct (Nat.eqb_spec k (n p)) as [->|Nk].
      * replace (S (n p) <=? n p) with false by (symmetry; apply Nat.leb_gt; lia). cbn [andb].
        replace (n p <=? n p) with true by (symmetry; apply Nat.leb_le; lia).
        match goal with |- context [?a <? ?b] => replace (a <? b) with true by (symmetry; apply Nat.ltb_lt; lia) end. reflexivity.
      * match goal with |- (if ?c then _ else _) = (if ?d then _ else _) => destruct c eqn:C; destruct d eqn:D end; try reflexivity; try lia.
    + destruct (iqid_beq p q) eqn:E2; [apply beq_q in E2 as ->; destruct q; discriminate|]. reflexivity.
Qed.

(** *** comb_dispatch: a successful prefix [p], then possibly a slot that did not fit. *)
Definition ups (a : aslot) : list (iqid * uop) := if av a then decompose (ai a) else [].
Definition upss (l : list aslot) : list (iqid * uop) := flat_map ups l.
Lemma upss_app : forall a b, upss (a ++ b) = upss a ++ upss b.
Proof. intros. unfold upss. now rewrite flat_map_app. Qed.
Lemma fits_cnt : forall e n us q, fits e n us = true -> (forall q, cnt q us <= 1) -> 0 < cnt q us -> n q < W /\ n q < e_iqr e q.
Proof.
  intros e n us q F _ C. unfold fits in F. rewrite forallb_forall in F. unfold cnt, onq in C. rewrite map_length in C.
  destruct (filter (fun qu => iqid_beq (fst qu) q) us) as [|[r u] l] eqn:E; [cbn in C; lia|].
  assert (I : In (r, u) (filter (fun qu => iqid_beq (fst qu) q) us)) by (rewrite E; left; reflexivity).
  apply filter_In in I as [I1 I2]. cbn in I2. apply beq_q in I2 as ->. specialize (F _ I1). cbn [fst] in F.
  apply negb_true_iff, orb_false_iff in F as [F1 F2]. apply Nat.leb_gt in F1, F2. split; assumption.
Qed.
Lemma cnt_decompose : forall q x, cnt q (decompose x) <= 1.
Proof. intros q x. unfold cnt. destruct (decompose_q q x) as [(_ & u & -> & _)|[_ ->]]; cbn; lia. Qed.
Lemma disp_split : forall e al of oc n m f c m', disp_loop e al of oc n m = (f, c, m') ->
  (forall q, n q <= W /\ n q <= e_iqr e q) ->
  exists p s ft ct, al = p ++ s /\ f = map (fun _ => true) p ++ ft /\ c = map (fun a => map fst (ups a)) p ++ ct /\
    m' = snd (place (upss p) n m) /\ (forall q, n q + cnt q (upss p) <= W /\ n q + cnt q (upss p) <= e_iqr e q) /\
    (s = [] \/ exists b s', s = b :: s' /\ av b = true /\ hd true ft = false /\
       exists q, needs q (ai b) /\ (W <= n q + cnt q (upss p) \/ e_iqr e q <= n q + cnt q (upss p))).
Proof.
  intros e al. induction al as [|a al IH]; intros of oc n m f c m' E Hn; cbn [disp_loop] in E.
  - injection E as <- <- <-. exists [], [], [], []. repeat split; try (left; reflexivity); cbn; intros; rewrite ?Nat.add_0_r; apply Hn.
  - destruct (av a) eqn:V; cbn [negb] in E.
    + destruct (fits e n (decompose (ai a))) eqn:F.
      * destruct (place (decompose (ai a)) n m) as [n1 m1] eqn:P. destruct (disp_loop e al (tl of) (tl oc) n1 m1) as [[f1 c1] m2] eqn:E1.
        injection E as <- <- <-.
        assert (N1 : forall q, n1 q = n q + cnt q (decompose (ai a))) by (intros q; rewrite <- (place_n _ n m), P; reflexivity).
        destruct (IH _ _ _ _ _ _ _ E1) as (p & s & ft & ct & -> & -> & -> & -> & B & S).
        { intros q. rewrite N1. destruct (Nat.eq_dec (cnt q (decompose (ai a))) 0) as [Z|Z]; [rewrite Z, Nat.add_0_r; apply Hn|].
          pose proof (cnt_decompose q (ai a)). destruct (fits_cnt e n _ q F (fun q => cnt_decompose q (ai a))); lia. }
        exists (a :: p), s, ft, ct. assert (U : ups a = decompose (ai a)) by (unfold ups; now rewrite V).
        cbn [app map]. unfold upss in *. cbn [flat_map]. rewrite U. repeat split; try assumption.
        -- rewrite place_app, P. reflexivity.
        -- specialize (B q). rewrite N1 in B. unfold cnt in *. rewrite onq_app, app_length. lia.
        -- specialize (B q). rewrite N1 in B. unfold cnt in *. rewrite onq_app, app_length. lia.
        -- destruct S as [S|(b & s' & S1 & S2 & S3 & q & S4 & S5)]; [left; exact S|]. right. exists b, s'. repeat split; try assumption. exists q. split; [assumption|].
           rewrite N1 in S5. unfold cnt in *. rewrite onq_app, app_length. lia.
      * injection E as <- <- <-. exists [], (a :: al), (false :: tl of), (map fst (decompose (ai a)) :: tl oc).
        repeat split; try (cbn; rewrite ?Nat.add_0_r; apply Hn). right. exists a, al. repeat split; [assumption|].
        unfold fits in F. assert (X : exists qu, In qu (decompose (ai a)) /\ (W <= n (fst qu) \/ e_iqr e (fst qu) <= n (fst qu))).
        { clear - F. induction (decompose (ai a)) as [|qu l IHl]; [discriminate F|]. cbn [forallb] in F. apply andb_false_iff in F as [F|F].
          - exists qu. split; [left; reflexivity|]. apply negb_false_iff, orb_true_iff in F. rewrite !Nat.leb_le in F. exact F.
          - destruct (IHl F) as (y & I & Y). exists y. split; [right; exact I|exact Y]. }
        destruct X as ([q u] & I & X). cbn [fst] in X. exists q. change (cnt q (upss [])) with 0. rewrite Nat.add_0_r. split; [|exact X].
        destruct (decompose_q q (ai a)) as [[N _]|[_ N]]; [exact N|exfalso].
        assert (In u (onq q (decompose (ai a)))) as J; [|rewrite N in J; exact J].
        unfold onq. apply (in_map snd) with (x := (q, u)). apply filter_In. split; [exact I|]. cbn. destruct q; reflexivity.
    + destruct (disp_loop e al (tl of) (tl oc) n m) as [[f1 c1] m2] eqn:E1. injection E as <- <- <-.
      destruct (IH _ _ _ _ _ _ _ E1 Hn) as (p & s & ft & ct & -> & -> & -> & -> & B & S).
      exists (a :: p), s, ft, ct. assert (U : ups a = []) by (unfold ups; now rewrite V).
      cbn [app map]. unfold upss in *. cbn [flat_map]. rewrite U. repeat split; try assumption; apply B.
Qed.

(** *** comb_fire: everything valid fires in a prefix [p1] of [p], nothing after it. *)
Definition serial (a : aslot) : bool := itype_beq (ty (ai a)) AMO || is_CSR (ty (ai a)).
Lemma fire_stalled : forall e al f pf, fst (fire_loop e al f true pf) = map (fun _ => false) al /\ snd (fire_loop e al f true pf) = true.
Proof.
  intros e al. induction al as [|a al IH]; intros f pf; cbn [fire_loop]; [split; reflexivity|].
  rewrite !andb_false_r, !andb_false_l.
  match goal with |- context [if ?c then false else if ?d then false else false] => replace (if c then false else if d then false else false) with false by (destruct c, d; reflexivity) end.
  cbn [andb negb]. match goal with |- context [if ?c then true else true] => replace (if c then true else true) with true by (destruct c; reflexivity) end.
  destruct (fire_loop e al (tl f) true (pf || false)) as [r ps] eqn:E. specialize (IH (tl f) (pf || false)). rewrite E in IH. cbn in *. destruct IH as [-> ->]. split; reflexivity.
Qed.

Definition barrier (a : aslot) : bool := itype_beq (ty (ai a)) AMO || itype_beq (ty (ai a)) WFI.
Lemma fire_split : forall e al f pf fr ps, fire_loop e al f false pf = (fr, ps) ->
  (forall a, In a al -> arv a = true -> av a = true) ->
  exists p s, al = p ++ s /\ fr = map av p ++ map (fun _ => false) s /\
    (forall j a, nth_error p j = Some a -> av a = true ->
       arv a = true /\ nth j f false = true /\ e_ready e = true /\ gflush e = false /\
       (serial a = true -> e_empty e = true /\ pf = false /\ forall b, In b (firstn j p) -> av b = false) /\
       (barrier a = true -> length p = S j)) /\
    (ps = false -> s = [] /\ forall a, In a p -> av a = true -> barrier a = false) /\
    (ps = true -> (exists b s', s = b :: s' /\ av b = true /\
                     (arv b = false \/ nth (length p) f false = false \/ e_ready e = false \/ gflush e = true \/
                      (serial b = true /\ (e_empty e = false \/ pf = true \/ exists c, In c p /\ av c = true)))) \/
                  exists a, In a p /\ av a = true /\ barrier a = true).
Proof.
  intros e al. induction al as [|a al IH]; intros f pf fr ps E Hv; cbn [fire_loop] in E.
  { injection E as <- <-. exists [], []. split; [reflexivity|]. split; [reflexivity|]. split; [intros j a H; destruct j; discriminate|].
    split; [intros _; split; [reflexivity|intros a []]|discriminate]. }
  assert (Hv' : forall b, In b al -> arv b = true -> av b = true) by (intros b I; apply Hv; right; exact I).
  set (b0 := arv a && hd false f && e_ready e && negb false && negb (gflush e)) in E.
  set (cs := is_CSR (ty (ai a)) && (negb (e_empty e) || pf)) in E.
  set (at' := av a && itype_beq (ty (ai a)) AMO && (negb (e_empty e) || pf)) in E.
  set (b2 := if at' then false else if cs then false else b0) in E.
  destruct (av a) eqn:V.
  - destruct b2 eqn:B2.
    + (* fires *)
      assert (B : at' = false /\ cs = false /\ b0 = true) by (subst b2; destruct at', cs; try discriminate; auto).
      destruct B as (Ba & Bc & B0). unfold b0 in B0. rewrite !andb_true_iff in B0. destruct B0 as ((((B01 & B02) & B03) & _) & B04).
      apply negb_true_iff in B04.
      assert (SER : serial a = true -> e_empty e = true /\ pf = false).
      { unfold serial. intros H. subst at' cs. cbn [andb] in Ba. apply orb_true_iff in H as [H|H]; rewrite H in *; cbn [andb] in *.
        - apply orb_false_iff in Ba as [X Y]. apply negb_false_iff in X. auto.
        - apply orb_false_iff in Bc as [X Y]. apply negb_false_iff in X. auto. }
      cbn [andb negb] in E. fold (barrier a) in E. rewrite orb_true_r in E.
      destruct (barrier a) eqn:BR.
      * pose proof (fire_stalled e al (tl f) true) as [S1 S2]. destruct (fire_loop e al (tl f) true true) as [r ps'].
        cbn [fst snd] in S1, S2. injection E as <- <-. subst r ps'. exists [a], al. cbn [app map].
        split; [reflexivity|]. split; [rewrite V; reflexivity|]. split; [|split; [discriminate|]].
        -- intros [|j] c Hc; [|destruct j; discriminate Hc]. injection Hc as <-. intros _. repeat split; try assumption; try (now apply SER).
           ++ destruct f; [discriminate B02|exact B02].
           ++ intros ? [].
        -- intros _. right. exists a. repeat split; [left; reflexivity|assumption|assumption].
      * destruct (fire_loop e al (tl f) false true) as [r ps'] eqn:E1. injection E as <- <-.
        destruct (IH _ _ _ _ E1 Hv') as (p & s & -> & -> & P1 & P2 & P3). exists (a :: p), s. cbn [app map length].
        split; [reflexivity|]. split; [rewrite V; reflexivity|]. split; [|split].
        -- intros [|j] c Hc Vc.
           ++ injection Hc as <-. repeat split; try assumption; try (now apply SER); [destruct f; [discriminate B02|exact B02]|intros ? []|congruence].
           ++ cbn in Hc. destruct (P1 j c Hc Vc) as (Q1 & Q2 & Q3 & Q4 & Q5 & Q6). repeat split; try assumption.
              ** destruct f; [discriminate B02|]. exact Q2.
              ** now apply Q5.
              ** exfalso. destruct (Q5 H) as (_ & C & _). discriminate C.
              ** destruct (Q5 H) as (_ & C & _). discriminate C.
              ** intros Hb. rewrite (Q6 Hb). reflexivity.
        -- intros H. destruct (P2 H) as [-> P2']. split; [reflexivity|]. intros c [<-|I] Vc; [assumption|now apply P2'].
        -- intros H. destruct (P3 H) as [(b & s' & -> & Vb & R)|(c & I & Vc & Bc')].
           ++ left. exists b, s'. repeat split; [assumption|]. destruct R as [R|[R|[R|[R|[R1 R2]]]]]; auto.
              ** right; left. destruct f; [discriminate B02|]. exact R.
              ** right; right; right; right. split; [assumption|]. right; right. exists a. split; [left; reflexivity|assumption].
           ++ right. exists c. repeat split; [right; assumption|assumption|assumption].
    + (* valid, does not fire *)
      cbn [andb negb] in E. pose proof (fire_stalled e al (tl f) (pf || false)) as [S1 S2].
      destruct (fire_loop e al (tl f) true (pf || false)) as [r ps']. cbn [fst snd] in S1, S2. injection E as <- <-. subst r ps'.
      exists [], (a :: al). cbn [app map length]. split; [reflexivity|]. split; [reflexivity|]. split; [intros j c H; destruct j; discriminate|].
      split; [discriminate|].
      intros _. left. exists a, al. repeat split; [assumption|].
      destruct at' eqn:Ba; [|destruct cs eqn:Bc].
      * subst at'. cbn [andb] in Ba. apply andb_true_iff in Ba as [X Y]. do 4 right. split; [unfold serial; rewrite X; reflexivity|].
        apply orb_true_iff in Y as [Y|Y]; [left; now apply negb_true_iff in Y|auto].
      * subst cs. apply andb_true_iff in Bc as [X Y]. do 4 right. split; [unfold serial; rewrite X; apply orb_true_r|].
        apply orb_true_iff in Y as [Y|Y]; [left; now apply negb_true_iff in Y|auto].
      * subst b2. unfold b0 in B2. cbn [negb] in B2. rewrite andb_true_r in B2.
        destruct (arv a); [|auto]. destruct (gflush e); [auto|]. destruct (e_ready e); [|auto]. cbn in B2. rewrite !andb_true_r in B2.
        right; left. destruct f; [reflexivity|exact B2].
  - (* invalid slot *)
    assert (A : arv a = false) by (destruct (arv a) eqn:Ar; [rewrite (Hv a (or_introl eq_refl) Ar) in V; discriminate|reflexivity]).
    assert (B : b2 = false) by (subst b2 b0; rewrite A; cbn; destruct at', cs; reflexivity).
    rewrite B in E. cbn [andb negb] in E. rewrite orb_false_r in E.
    destruct (fire_loop e al (tl f) false pf) as [r ps'] eqn:E1. injection E as <- <-.
    destruct (IH _ _ _ _ E1 Hv') as (p & s & -> & -> & P1 & P2 & P3). exists (a :: p), s. cbn [app map length].
    split; [reflexivity|]. split; [rewrite V; reflexivity|]. split; [|split].
    + intros [|j] c Hc Vc; [injection Hc as <-; congruence|]. cbn in Hc. destruct (P1 j c Hc Vc) as (Q1 & Q2 & Q3 & Q4 & Q5 & Q6). repeat split; try assumption.
      * destruct f; [destruct j; discriminate Q2|]. exact Q2.
      * now apply Q5.
      * now apply Q5.
      * cbn [firstn]. intros b [<-|I]; [assumption|]. destruct (Q5 H) as (_ & _ & Q). now apply Q.
      * intros Hb. rewrite (Q6 Hb). reflexivity.
    + intros H. destruct (P2 H) as [-> P2']. split; [reflexivity|]. intros c [<-|I] Vc; [congruence|now apply P2'].
    + intros H. destruct (P3 H) as [(b & s' & -> & Vb & R)|(c & I & Vc & Bc')].
      * left. exists b, s'. repeat split; [assumption|]. destruct R as [R|[R|[R|[R|[R1 R2]]]]]; auto.
        -- right; left. destruct f; [reflexivity|]. exact R.
        -- do 4 right. split; [assumption|]. destruct R2 as [R2|[R2|(c & I & Vc)]]; auto. right; right. exists c. split; [right; assumption|assumption].
      * right. exists c. repeat split; [right; assumption|assumption|assumption].
Qed.

(** *** Rollback *)
Lemma roll_fired : forall p1 r f' fr' c' n m,
  exists n1, (forall q, n1 q = n q + cnt q (upss p1)) /\
    roll (p1 ++ r) (map (fun _ => true) p1 ++ f') (map av p1 ++ fr') (map (fun a => map fst (ups a)) p1 ++ c') n m = roll r f' fr' c' n1 m.
Proof.
  induction p1 as [|a p1 IH]; intros r f' fr' c' n m.
  - exists n. split; [intros q; cbn; lia|reflexivity].
  - cbn [app map roll hd tl]. destruct (av a) eqn:V; cbn [negb].
    + destruct (IH r f' fr' c' (bumps (map fst (ups a)) n) m) as (n1 & H1 & H2). exists n1. split; [|exact H2].
      intros q. rewrite H1, (bumps_eq _ _ _ no_req), place_n. unfold upss. cbn [flat_map]. unfold cnt. rewrite onq_app, app_length. lia.
    + destruct (IH r f' fr' c' n m) as (n1 & H1 & H2). exists n1. split; [|exact H2].
      intros q. rewrite H1. unfold upss. cbn [flat_map]. unfold ups at 2. rewrite V. reflexivity.
Qed.
Lemma roll_cancel : forall p2 s ft fr' ct n m,
  (s = [] \/ exists b s', s = b :: s' /\ av b = true /\ hd true ft = false) ->
  (forall j, nth j fr' false = false) ->
  forall q k, roll (p2 ++ s) (map (fun _ => true) p2 ++ ft) fr' (map (fun a => map fst (ups a)) p2 ++ ct) n m q k =
    if (n q <=? k) && (k <? n q + cnt q (upss p2)) then None else m q k.
Proof.
  induction p2 as [|a p2 IH]; intros s ft fr' ct n m Hs Hf q k.
  - change (cnt q (upss [])) with 0. replace ((n q <=? k) && (k <? n q + 0)) with false by (symmetry; destruct ((n q <=? k) && (k <? n q + 0)) eqn:C; [lia|reflexivity]).
    cbn [app map]. destruct Hs as [->|(b & s' & -> & Vb & Hd)]; [reflexivity|]. cbn [roll]. rewrite Vb. cbn [negb].
    destruct ft as [|t ft]; [discriminate Hd|]. cbn in Hd. subst t. reflexivity.
  - assert (Ht : forall j, nth j (tl fr') false = false) by (intros j; destruct fr' as [|x fr']; [destruct j; reflexivity|apply (Hf (S j))]).
    assert (Hh : hd false fr' = false) by (destruct fr'; [reflexivity|apply (Hf 0)]).
    cbn [app map roll hd tl]. rewrite Hh. destruct (av a) eqn:V; cbn [negb].
    + destruct (cancel (map fst (ups a)) n m) as [n1 m1] eqn:C.
      assert (N1 : forall q, n1 q = n q + cnt q (ups a)) by (intros; rewrite <- (cancel_n _ n m), C; reflexivity).
      assert (M1 : forall q k, m1 q k = if (n q <=? k) && (k <? n q + cnt q (ups a)) then None else m q k) by (intros; rewrite <- cancel_m, C; reflexivity).
      rewrite (IH _ _ _ _ _ _ Hs Ht), M1, N1. unfold upss. cbn [flat_map]. rewrite cnt_app.
      repeat match goal with |- context [if ?c then _ else _] => destruct c eqn:? end; try reflexivity; lia.
    + rewrite (IH _ _ _ _ _ _ Hs Ht). unfold upss. cbn [flat_map]. replace (ups a) with (@nil (iqid * uop)) by (unfold ups; now rewrite V). reflexivity.
Qed.

(** *** Putting the cycle together *)
Lemma prefix_of : forall (p s p1 s1 : list aslot), p ++ s = p1 ++ s1 -> length p1 <= length p -> exists p2, p = p1 ++ p2 /\ s1 = p2 ++ s.
Proof.
  intros p s p1. revert p s. induction p1 as [|a p1 IH]; intros p s s1 E L.
  - exists p. cbn in E. auto.
  - destruct p as [|b p]; [cbn in L; lia|]. cbn in E. injection E as -> E. destruct (IH _ _ _ E) as (p2 & -> & ->); [cbn in L; lia|]. exists p2. auto.
Qed.
Lemma nth_trues : forall (p : list aslot) j t, nth j (map (fun _ => true) p ++ t) false = if j <? length p then true else nth (j - length p) t false.
Proof.
  intros p j t. destruct (Nat.ltb_spec j (length p)).
  - rewrite app_nth1 by (rewrite map_length; lia). clear t. revert j H. induction p; intros j H; [cbn in H; lia|]. destruct j; [reflexivity|]. cbn. apply IHp. cbn in H. lia.
  - rewrite app_nth2 by (rewrite map_length; lia). now rewrite map_length.
Qed.
Lemma chosen_av : forall p s, chosen (p ++ s) (map av p ++ map (fun _ => false) s) = filter av p.
Proof.
  induction p as [|a p IH]; intros s; cbn [app map chosen filter].
  - induction s; cbn; auto.
  - rewrite IH. destruct (av a); reflexivity.
Qed.

Definition stuck (e : env) (b : aslot) (p1 : list aslot) : Prop :=
  e_ready e = false \/ gflush e = true \/ (serial b = true /\ (e_empty e = false \/ exists c, In c p1 /\ av c = true)) \/ arv b = false \/
  exists q, needs q (ai b) /\ (W <= cnt q (upss p1) \/ e_iqr e q <= cnt q (upss p1)).
Definition core (e : env) (st : dis) (al : list aslot) (fr : list bool) (ps : bool) (m : reqs) (f : list bool) (p1 s1 : list aslot) : Prop :=
  al = p1 ++ s1 /\ fr = map av p1 ++ map (fun _ => false) s1 /\
  (forall j a, nth_error p1 j = Some a -> av a = true ->
     arv a = true /\ nth j f false = true /\ e_ready e = true /\ gflush e = false /\
     (serial a = true -> e_empty e = true /\ forall b, In b (firstn j p1) -> av b = false) /\
     (barrier a = true -> length p1 = S j)) /\
  (ps = false -> s1 = [] /\ forall a, In a p1 -> av a = true -> barrier a = false) /\
  (ps = true -> (exists b s', s1 = b :: s' /\ av b = true /\ stuck e b p1) \/ exists a, In a p1 /\ av a = true /\ barrier a = true) /\
  (forall q k, m q k = nth_error (onq q (upss p1)) k) /\
  (forall q, cnt q (upss p1) <= W /\ cnt q (upss p1) <= e_iqr e q).
Lemma cycle_core : forall e st al f c m fr ps,
  disp_loop e al (succ st) (cache st) (fun _ => O) no_req = (f, c, m) -> fire_loop e al f false false = (fr, ps) ->
  (forall a, In a al -> arv a = true -> av a = true) ->
  exists p1 s1, core e st al fr ps (roll al f fr c (fun _ => O) m) f p1 s1.
Proof.
  intros e st al f c m fr ps D F Hv.
  destruct (disp_split _ _ _ _ _ _ _ _ _ D) as (p & s & ft & ct & -> & -> & -> & -> & B & S); [intros; cbn; lia|].
  destruct (fire_split _ _ _ _ _ _ F Hv) as (p1 & s1 & E & -> & P1 & P2 & P3).
  assert (L : length p1 <= length p).
  { destruct (Nat.le_gt_cases (length p1) (length p)) as [|L]; [assumption|exfalso].
    destruct S as [->|(b & s' & -> & Vb & Hd & _)].
    - rewrite app_nil_r in E. apply (f_equal (@length _)) in E. rewrite app_length in E. lia.
    - assert (N : nth_error p1 (length p) = Some b).
      { rewrite <- (nth_error_app1 p1 s1) by assumption. rewrite <- E. rewrite nth_error_app2, Nat.sub_diag by lia. reflexivity. }
      destruct (P1 _ _ N Vb) as (_ & Q & _). rewrite nth_trues in Q. rewrite Nat.ltb_irrefl, Nat.sub_diag in Q.
      destruct ft; [discriminate Hd|]. cbn in *. congruence. }
  destruct (prefix_of _ _ _ _ E L) as (p2 & -> & ->). exists p1, (p2 ++ s). unfold core.
  assert (S' : s = [] \/ exists b s', s = b :: s' /\ av b = true /\ hd true ft = false) by (destruct S as [S|(b & s' & S1 & S2 & S3 & _)]; [left; exact S|right; eauto 6]).
  rewrite <- app_assoc. repeat split; try (now apply P2).
  - now apply (P1 j a).
  - now apply (P1 j a).
  - now apply (P1 j a).
  - now apply (P1 j a).
  - now apply (P1 j a).
  - destruct (P1 j a H H0) as (_ & _ & _ & _ & Q & _). now apply Q.
  - now apply (P1 j a).
  - intros H. destruct (P3 H) as [(b & s' & X & Y & Z)|X]; [left; exists b, s'|right; exact X]. split; [exact X|]. split; [exact Y|]. unfold stuck.
    destruct Z as [Z|[Z|[Z|[Z|(Z1 & Z2)]]]]; auto 6.
    + do 4 right. rewrite nth_trues in Z. destruct p2 as [|c p2]; [|rewrite app_length in Z; cbn [length] in Z; rewrite (proj2 (Nat.ltb_lt _ _)) in Z by lia; discriminate Z].
      cbn [app] in X. rewrite app_nil_r in S. destruct S as [S|(b' & s'' & S1 & _ & _ & q & S4 & S5)]; [subst s; discriminate X|]. rewrite X in S1. injection S1 as <- _. eauto.
    + right; right; left. split; [assumption|]. destruct Z2 as [Z2|[Z2|Z2]]; auto. discriminate Z2.
  - intros q k. rewrite !map_app, <- !app_assoc.
    destruct (roll_fired p1 (p2 ++ s) (map (fun _ => true) p2 ++ ft) (map (fun _ => false) p2 ++ map (fun _ => false) s)
                (map (fun a => map fst (ups a)) p2 ++ ct) (fun _ => 0) (snd (place (upss (p1 ++ p2)) (fun _ => 0) no_req))) as (n1 & N1 & ->).
    cbn beta in N1. rewrite roll_cancel; [|exact S'|].
    + rewrite N1, place_m, upss_app. unfold cnt. rewrite onq_app, app_length. cbn [Nat.add Nat.leb andb]. rewrite Nat.sub_0_r.
      destruct (Nat.leb_spec (length (onq q (upss p1))) k) as [L1|L1]; cbn [andb].
      * destruct (Nat.ltb_spec k (length (onq q (upss p1)) + length (onq q (upss p2)))).
        -- symmetry. now apply nth_error_None.
        -- symmetry. now apply nth_error_None.
      * replace (k <? length (onq q (upss p1)) + length (onq q (upss p2))) with true by (symmetry; apply Nat.ltb_lt; lia).
        now apply nth_error_app1.
    + intros j. rewrite <- map_app. clear. generalize (p2 ++ s). intros l. revert j. induction l; intros [|j]; cbn; auto.
  - specialize (B q). rewrite upss_app in B. unfold cnt in *. rewrite onq_app, app_length in B. lia.
  - specialize (B q). rewrite upss_app in B. unfold cnt in *. rewrite onq_app, app_length in B. lia.
Qed.

(** *** Allocation of load/store queue entries *)
Definition stp (a : aslot) : bool := av a && is_store (ai a).
Definition ldp (a : aslot) : bool := av a && is_load (ai a).
Fixpoint idxs (P : aslot -> bool) (i : nat) (al : list aslot) : list nat :=
  match al with [] => [] | a :: r => if P a then i :: idxs P (S i) r else idxs P (S i) r end.
Lemma alloc_app : forall s1 e i so lo s2,
  alloc_loop e i so lo (s1 ++ s2) =
  let '(a1, so1, lo1) := alloc_loop e i so lo s1 in let '(a2, so2, lo2) := alloc_loop e (i + length s1) so1 lo1 s2 in (a1 ++ a2, so2, lo2).
Proof.
  induction s1 as [|[v x] s1 IH]; intros e i so lo s2; cbn [app alloc_loop length].
  - rewrite Nat.add_0_r. destruct (alloc_loop e i so lo s2) as [[? ?] ?]. reflexivity.
  - destruct (alloc_one e i so lo v x) as [[a so1] lo1]. rewrite IH. destruct (alloc_loop e (S i) so1 lo1 s1) as [[a1 so2] lo2].
    replace (i + S (length s1)) with (S i + length s1) by lia. destruct (alloc_loop e (S i + length s1) so2 lo2 s2) as [[? ?] ?]. reflexivity.
Qed.
Lemma alloc_more : forall sl e i so lo al so' lo', alloc_loop e i so lo sl = (al, so', lo') ->
  length al = length sl /\ (exists x, so' = so ++ x /\ forall k, In k x -> i <= k) /\ (exists x, lo' = lo ++ x /\ forall k, In k x -> i <= k).
Proof.
  induction sl as [|[v x] sl IH]; intros e i so lo al so' lo' E; cbn [alloc_loop] in E.
  - injection E as <- <- <-. repeat split; exists []; rewrite app_nil_r; split; try reflexivity; intros ? [].
  - destruct (alloc_one e i so lo v x) as [[a so1] lo1] eqn:O. destruct (alloc_loop e (S i) so1 lo1 sl) as [[al1 so2] lo2] eqn:E1. injection E as <- <- <-.
    destruct (IH _ _ _ _ _ _ _ E1) as (L & (x1 & -> & H1) & (x2 & -> & H2)). unfold alloc_one in O. injection O as _ <- <-.
    split; [cbn; lia|]. split.
    + match goal with |- context [if ?c then _ else so] => destruct c end.
      * exists (i :: x1). rewrite <- app_assoc. split; [reflexivity|]. intros k [<-|K]; [lia|]. specialize (H1 _ K). lia.
      * exists x1. split; [reflexivity|]. intros k K. specialize (H1 _ K). lia.
    + match goal with |- context [if ?c then _ else lo] => destruct c end.
      * exists (i :: x2). rewrite <- app_assoc. split; [reflexivity|]. intros k [<-|K]; [lia|]. specialize (H2 _ K). lia.
      * exists x2. split; [reflexivity|]. intros k K. specialize (H2 _ K). lia.
Qed.
Lemma alloc_head : forall sl e i so lo b al so' lo', alloc_loop e i so lo sl = (b :: al, so', lo') -> av b = true -> arv b = false ->
  (ldp b = true /\ (e_lfree e <= length lo \/ W <= length lo \/ e_lav e (length lo) = false)) \/ (stp b = true /\ (e_sfree e <= length so \/ W <= length so)).
Proof.
  intros [|[v x] sl] e i so lo b al so' lo' E V R; cbn [alloc_loop] in E; [discriminate|].
  destruct (alloc_one e i so lo v x) as [[b1 so1] lo1] eqn:O. destruct (alloc_loop e (S i) so1 lo1 sl) as [[al1 so2] lo2]. injection E as -> _ _ _.
  unfold alloc_one in O. injection O as <- _ _. cbn [av arv] in V, R. subst v. unfold stp, ldp. cbn [av ai andb] in *.
  unfold is_load, is_store, amo_op in *. cbn [ty f7]. set (L := itype_beq (ty x) LOAD || _) in *. set (T := itype_beq (ty x) STORE || _) in *.
  apply andb_false_iff in R as [R|R]; apply orb_false_iff in R as [R1 R2]; apply negb_false_iff in R1.
  - left. split; [exact R1|]. rewrite !andb_false_iff, !Nat.ltb_ge in R2. tauto.
  - right. split; [exact R1|]. rewrite !andb_false_iff, !Nat.ltb_ge in R2. tauto.
Qed.
Definition count (P : aslot -> bool) (l : list aslot) : nat := length (filter P l).
Definition attrs (e : env) (i ns nl : nat) (a : aslot) : Prop :=
  robi (ai a) = e_enq e * BANKS + i /\ robf (ai a) = e_robflag e /\
  (stp a = true -> ns < e_sfree e /\ ns < W) /\
  (ldp a = true -> nl < e_lfree e /\ nl < W /\ e_lav e nl = true /\ ldqi (ai a) = e_lai e nl) /\
  (stp a = true \/ ldp a = true -> stqi (ai a) = (e_stail e + ns) mod STQ_SIZE /\ stqf (ai a) = xorb (e_stflag e) (Nat.odd ((e_stail e + ns) / STQ_SIZE))).
Lemma alloc_good : forall sl e i so lo al so' lo', alloc_loop e i so lo sl = (al, so', lo') ->
  (forall a, In a al -> av a = true -> arv a = true) ->
  so' = so ++ idxs stp i al /\ lo' = lo ++ idxs ldp i al /\
  forall j a, nth_error al j = Some a -> attrs e (i + j) (length so + count stp (firstn j al)) (length lo + count ldp (firstn j al)) a.
Proof.
  induction sl as [|[v x] sl IH]; intros e i so lo al so' lo' E H; cbn [alloc_loop] in E.
  - injection E as <- <- <-. cbn. rewrite !app_nil_r. repeat split; destruct j; discriminate.
  - destruct (alloc_one e i so lo v x) as [[a so1] lo1] eqn:O. destruct (alloc_loop e (S i) so1 lo1 sl) as [[al1 so2] lo2] eqn:E1. injection E as <- <- <-.
    assert (Hr : forall b, In b al1 -> av b = true -> arv b = true) by (intros b I; apply H; right; exact I).
    assert (Ha : av a = true -> arv a = true) by (apply H; left; reflexivity).
    destruct (IH _ _ _ _ _ _ _ E1 Hr) as (-> & -> & A).
    unfold alloc_one in O.
    set (lok := (length lo <? e_lfree e) && (length lo <? W) && (length lo <? W) && e_lav e (length lo)) in O.
    set (sok := (length so <? e_sfree e) && (length so <? W)) in O.
    injection O as Oa Os Ol.
    assert (V : av a = v) by (rewrite <- Oa; reflexivity).
    assert (R : arv a = v && (negb (v && is_load x) || lok) && (negb (v && is_store x) || sok)) by (rewrite <- Oa; reflexivity).
    assert (St : stp a = v && is_store x) by (rewrite <- Oa; reflexivity).
    assert (Ld : ldp a = v && is_load x) by (rewrite <- Oa; reflexivity).
    assert (Ls : ldp a = true -> lok = true).
    { rewrite Ld. intros X. apply andb_true_iff in X as [X1 X2]. rewrite V, R, X1, X2 in Ha. specialize (Ha eq_refl). cbn in Ha. apply andb_true_iff in Ha. tauto. }
    assert (Ss : stp a = true -> sok = true).
    { rewrite St. intros X. apply andb_true_iff in X as [X1 X2]. rewrite V, R, X1, X2 in Ha. specialize (Ha eq_refl). cbn in Ha. apply andb_true_iff in Ha. tauto. }
    assert (So1 : so1 = so ++ (if stp a then [i] else [])).
    { rewrite <- Os, St in *. destruct (v && is_store x); cbn [andb]; [rewrite Ss by reflexivity; reflexivity|now rewrite app_nil_r]. }
    assert (Lo1 : lo1 = lo ++ (if ldp a then [i] else [])).
    { rewrite <- Ol, Ld in *. destruct (v && is_load x); cbn [andb]; [rewrite Ls by reflexivity; reflexivity|now rewrite app_nil_r]. }
    clear Os Ol. split; [rewrite So1, <- app_assoc; cbn [idxs]; destruct (stp a); reflexivity|].
    split; [rewrite Lo1, <- app_assoc; cbn [idxs]; destruct (ldp a); reflexivity|].
    intros [|j] b Hb.
    + injection Hb as <-. cbn [firstn count filter length]. unfold count. cbn [filter length]. rewrite !Nat.add_0_r. unfold attrs.
      split; [rewrite <- Oa; reflexivity|]. split; [rewrite <- Oa; reflexivity|]. split; [|split].
      * intros X. specialize (Ss X). unfold sok in Ss. apply andb_true_iff in Ss as [Y1 Y2]. apply Nat.ltb_lt in Y1, Y2. auto.
      * intros X. pose proof (Ls X) as Y. unfold lok in Y. rewrite !andb_true_iff in Y. destruct Y as (((Y1 & Y2) & _) & Y3). apply Nat.ltb_lt in Y1, Y2.
        repeat split; try assumption. rewrite Ld in X. rewrite <- Oa. cbn [ai ldqi]. rewrite X, (Ls ltac:(now rewrite Ld)). reflexivity.
      * intros X. assert (G : v && is_load x || v && is_store x && sok = true).
        { destruct X as [X|X]; [pose proof (Ss X) as Y; rewrite St in X; rewrite X, Y; apply orb_true_r|rewrite Ld in X; rewrite X; reflexivity]. }
        rewrite <- Oa. cbn [ai stqi stqf]. rewrite G. auto.
    + cbn [nth_error] in Hb. specialize (A j b Hb). cbn [firstn]. unfold count in *. cbn [filter].
      replace (i + S j) with (S i + j) by lia.
      replace (length so + length (if stp a then a :: filter stp (firstn j al1) else filter stp (firstn j al1))) with (length so1 + length (filter stp (firstn j al1)))
        by (rewrite So1, app_length; destruct (stp a); cbn [length]; lia).
      replace (length lo + length (if ldp a then a :: filter ldp (firstn j al1) else filter ldp (firstn j al1))) with (length lo1 + length (filter ldp (firstn j al1)))
        by (rewrite Lo1, app_length; destruct (ldp a); cbn [length]; lia).
      exact A.
Qed.
Lemma alloc_av : forall sl e i so lo al so' lo', alloc_loop e i so lo sl = (al, so', lo') ->
  forall j a, nth_error al j = Some a -> exists v x, nth_error sl j = Some (v, x) /\ av a = v /\ (arv a = true -> v = true) /\
    id (ai a) = id x /\ ty (ai a) = ty x /\ f7 (ai a) = f7 x /\ den (ai a) = den x /\ da (ai a) = da x /\ dp (ai a) = dp x /\
    s1e (ai a) = s1e x /\ s1 (ai a) = s1 x /\ s2e (ai a) = s2e x /\ s2 (ai a) = s2 x /\ brm (ai a) = Z.ldiff (brm x) (e_clear e).
Proof.
  induction sl as [|[v x] sl IH]; intros e i so lo al so' lo' E j a Hj; cbn [alloc_loop] in E.
  - injection E as <- <- <-. destruct j; discriminate.
  - destruct (alloc_one e i so lo v x) as [[a0 so1] lo1] eqn:O. destruct (alloc_loop e (S i) so1 lo1 sl) as [[al1 so2] lo2] eqn:E1. injection E as <- <- <-.
    destruct j as [|j]; [|cbn [nth_error] in *; eapply IH; eassumption]. cbn [nth_error] in Hj. injection Hj as <-.
    unfold alloc_one in O. injection O as <- _ _. exists v, x. cbn [av arv ai id ty f7 den da dp s1e s1 s2e s2 brm]. repeat split.
    intros R. apply andb_true_iff in R as [R _]. apply andb_true_iff in R as [R _]. assumption.
Qed.
Lemma idxs_nth : forall P al i k, nth_error (idxs P i al) k = match nth_error (idxs P 0 al) k with Some j => Some (i + j) | None => None end.
Proof.
  intros P al. assert (G : forall i d, idxs P (d + i) al = map (fun j => d + j) (idxs P i al)).
  { induction al as [|a al IH]; intros i d; cbn [idxs]; [reflexivity|]. specialize (IH (S i) d). rewrite Nat.add_succ_r in IH. rewrite IH. destruct (P a); reflexivity. }
  intros i k. specialize (G 0 i). rewrite Nat.add_0_r in G. rewrite G, nth_error_map. reflexivity.
Qed.
Lemma idxs_len : forall P al i, length (idxs P i al) = count P al.
Proof. unfold count. induction al as [|a al IH]; intros i; cbn [idxs filter]; [reflexivity|]. destruct (P a); cbn [length]; now rewrite IH. Qed.
Lemma idxs_filter : forall P al k,
  match nth_error (idxs P 0 al) k with
  | Some i => exists a, nth_error al i = Some a /\ P a = true /\ nth_error (filter P al) k = Some a /\ count P (firstn i al) = k
  | None => nth_error (filter P al) k = None end.
Proof.
  intros P al. induction al as [|a al IH]; intros k; cbn [idxs filter]; [destruct k; reflexivity|].
  destruct (P a) eqn:Pa.
  - destruct k as [|k]; cbn [nth_error]; [exists a; repeat split; assumption|]. rewrite idxs_nth. specialize (IH k).
    destruct (nth_error (idxs P 0 al) k) as [i|]; [|exact IH]. destruct IH as (b & B1 & B2 & B3 & B4). exists b. repeat split; try assumption.
    unfold count in *. cbn [Nat.add firstn filter]. rewrite Pa. cbn [length]. lia.
  - rewrite idxs_nth. specialize (IH k). destruct (nth_error (idxs P 0 al) k) as [i|]; [|exact IH].
    destruct IH as (b & B1 & B2 & B3 & B4). exists b. repeat split; try assumption. unfold count in *. cbn [Nat.add firstn filter]. rewrite Pa. exact B4.
Qed.

(** *** comb_wake only touches the ready bits. *)
Definition same (a a' : aslot) : Prop :=
  av a' = av a /\ arv a' = arv a /\ exists b1 b2, ai a' = set_busy (ai a) b1 b2.
Lemma wake_same : forall e b al prev, Forall2 same al (wake_loop e b prev al).
Proof.
  intros e b al. induction al as [|a al IH]; intros prev; cbn [wake_loop]; constructor; [|apply IH].
  unfold wake_one. destruct (negb (arv a)); repeat split; cbn [av arv ai].
  - exists (s1b (ai a)), (s2b (ai a)). destruct (ai a); reflexivity.
  - eexists _, _. reflexivity.
Qed.
Lemma F2_nth : forall A B (R : A -> B -> Prop) l l', Forall2 R l l' -> forall j b, nth_error l' j = Some b -> exists a, nth_error l j = Some a /\ R a b.
Proof. intros A B R l l' F. induction F; intros [|j] c E; try discriminate; cbn in *; [injection E as <-; eauto|eauto]. Qed.
Lemma same_stp : forall a a', same a a' -> stp a' = stp a /\ ldp a' = ldp a.
Proof. intros a a' (V & _ & b1 & b2 & E). unfold stp, ldp. rewrite V, E. split; reflexivity. Qed.
Lemma same_attrs : forall e i ns nl a a', same a a' -> attrs e i ns nl a -> attrs e i ns nl a'.
Proof.
  intros e i ns nl a a' S. destruct (same_stp _ _ S) as [S1 S2]. destruct S as (V & _ & b1 & b2 & E). unfold attrs. rewrite S1, S2, E. cbn [set_busy robi robf ldqi stqi stqf]. tauto.
Qed.
Lemma same_lists : forall l l', Forall2 same l l' -> forall i, idxs stp i l' = idxs stp i l /\ idxs ldp i l' = idxs ldp i l /\
  forall j, count stp (firstn j l') = count stp (firstn j l) /\ count ldp (firstn j l') = count ldp (firstn j l).
Proof.
  intros l l' F. induction F as [|a a' l l' Sm F IH]; intros i; [repeat split|].
  destruct (same_stp _ _ Sm) as [S1 S2]. destruct (IH (S i)) as (I1 & I2 & I3). cbn [idxs]. rewrite S1, S2, I1, I2. repeat split;
  (destruct j as [|j]; [reflexivity|]; unfold count in *; cbn [firstn filter]; rewrite ?S1, ?S2; destruct (I3 j) as [J1 J2];
   match goal with |- context [if ?c then _ else _] => destruct c end; cbn [length]; congruence).
Qed.
Lemma Forall2_length : forall A B (R : A -> B -> Prop) l l', Forall2 R l l' -> length l = length l'.
Proof. intros A B R l l' F. induction F; cbn; congruence. Qed.
Lemma F2_app_r : forall A B (R : A -> B -> Prop) l l1 l2, Forall2 R l (l1 ++ l2) -> exists m1 m2, l = m1 ++ m2 /\ Forall2 R m1 l1 /\ Forall2 R m2 l2.
Proof. intros. apply Forall2_app_inv_r in H. destruct H as (m1 & m2 & H1 & H2 & ->). eauto. Qed.

Lemma nth_false : forall (l : list aslot) j, nth j (map (fun _ => false) l) false = false.
Proof. induction l; intros [|j]; cbn; auto. Qed.
Lemma lsu_req_is : forall P p1 s1 x k, (forall a, P a = true -> av a = true) -> (forall i, In i x -> length p1 <= i) ->
  lsu_req (idxs P 0 p1 ++ x) (map av p1 ++ map (fun _ => false) s1) (p1 ++ s1) k = nth_error (map ai (filter P p1)) k.
Proof.
  intros P p1 s1 x k Pv Hx. unfold lsu_req. rewrite nth_error_map. pose proof (idxs_filter P p1 k) as H.
  destruct (nth_error (idxs P 0 p1) k) as [i|] eqn:E.
  - destruct H as (a & A1 & A2 & A3 & A4). rewrite nth_error_app1 by (apply nth_error_Some; congruence). rewrite E, A3.
    assert (L : i < length p1) by (apply nth_error_Some; congruence).
    rewrite app_nth1 by (rewrite map_length; assumption). rewrite nth_error_app1 by assumption. rewrite A1.
    replace (nth i (map av p1) false) with true; [reflexivity|]. symmetry. apply nth_error_nth. rewrite nth_error_map, A1. cbn. now rewrite Pv.
  - rewrite H. cbn [option_map]. apply nth_error_None in E. rewrite nth_error_app2 by assumption.
    destruct (nth_error x (k - length (idxs P 0 p1))) as [i|] eqn:F; [|reflexivity].
    apply nth_error_In in F. specialize (Hx _ F). rewrite app_nth2 by (rewrite map_length; assumption). rewrite nth_false. reflexivity.
Qed.

(** *** The whole cycle. *)
Record facts (e : env) (st : dis) (o : out) (st' : dis) (p1 rs : list aslot) : Prop := {
  k_al : o_alloc o = p1 ++ rs;
  k_len : length (o_alloc o) = length (slots st);
  k_fr : o_fire o = map av p1 ++ map (fun _ => false) rs;
  k_slot : forall j a, nth_error (p1 ++ rs) j = Some a -> exists v x, nth_error (slots st) j = Some (v, x) /\ av a = v /\ (arv a = true -> v = true) /\
    id (ai a) = id x /\ ty (ai a) = ty x /\ f7 (ai a) = f7 x /\ den (ai a) = den x /\ da (ai a) = da x /\ dp (ai a) = dp x /\
    s1e (ai a) = s1e x /\ s1 (ai a) = s1 x /\ s2e (ai a) = s2e x /\ s2 (ai a) = s2 x /\ brm (ai a) = Z.ldiff (brm x) (e_clear e);
  k_p1 : forall j a, nth_error p1 j = Some a -> av a = true ->
     arv a = true /\ e_ready e = true /\ gflush e = false /\
     (serial a = true -> e_empty e = true /\ forall b, In b (firstn j p1) -> av b = false) /\
     (barrier a = true -> length p1 = S j);
  k_ready1 : o_ready o = true -> rs = [] /\ forall a, In a p1 -> av a = true -> barrier a = false;
  k_ready0 : o_ready o = false -> (exists b s', rs = b :: s' /\ av b = true /\ stuck e b p1 /\
      (arv b = false -> (ldp b = true /\ (e_lfree e <= count ldp p1 \/ W <= count ldp p1 \/ e_lav e (count ldp p1) = false)) \/
                        (stp b = true /\ (e_sfree e <= count stp p1 \/ W <= count stp p1)))) \/ exists a, In a p1 /\ av a = true /\ barrier a = true;
  k_req : forall q k, o_req o q k = nth_error (onq q (upss p1)) k;
  k_cap : forall q, cnt q (upss p1) <= W /\ cnt q (upss p1) <= e_iqr e q;
  k_attr : forall j a, nth_error p1 j = Some a -> attrs e j (count stp (firstn j p1)) (count ldp (firstn j p1)) a;
  k_stq : forall k, o_stq o k = nth_error (map ai (filter stp p1)) k;
  k_ldq : forall k, o_ldq o k = nth_error (map ai (filter ldp p1)) k;
  k_busy : busy st' = busy_set (p1 ++ rs) (o_fire o) (busy_wake (e_wake e) (busy st));
  k_wake : forall j a, nth_error p1 j = Some a -> av a = true ->
     s1b (ai a) = wake_src e (busy st) (firstn j p1) (s1e (ai a)) (s1 (ai a)) /\ s2b (ai a) = wake_src e (busy st) (firstn j p1) (s2e (ai a)) (s2 (ai a));
  k_next : slots st' = if e_flush e || e_mispred e then map (fun vx => (false, snd vx)) (slots st)
             else if o_ready o then map (fun vx => (fst vx, clr e (snd vx))) (e_new e)
             else keep e (slots st) (o_alloc o) (o_fire o);
  k_expect : exists f, o_expect o = map (fun af => if av (fst af) && snd af then expect_of (ai (fst af)) else 0%Z) (combine (o_alloc o) f) /\
     length f = length (o_alloc o) /\ forall j a, nth_error p1 j = Some a -> av a = true -> nth j f false = true }.

Lemma wake_nth : forall e b al prev j a', nth_error (wake_loop e b prev al) j = Some a' ->
  exists a, nth_error al j = Some a /\ a' = wake_one e b (prev ++ firstn j (wake_loop e b prev al)) a.
Proof.
  intros e b al. induction al as [|a al IH]; intros prev [|j] a' H; try discriminate; cbn [wake_loop nth_error firstn] in *.
  - injection H as <-. exists a. rewrite app_nil_r. auto.
  - destruct (IH _ _ _ H) as (c & C1 & C2). exists c. split; [assumption|]. rewrite C2, <- app_assoc. reflexivity.
Qed.
Lemma disp_len : forall e al of oc n m f c m', disp_loop e al of oc n m = (f, c, m') -> length of = length al -> length f = length al.
Proof.
  intros e al. induction al as [|a al IH]; intros of oc n m f c m' E L; cbn [disp_loop] in E; [injection E as <- _ _; reflexivity|].
  destruct of as [|x of]; [discriminate L|]. cbn [length tl] in *. injection L as L.
  destruct (negb (av a)).
  - destruct (disp_loop e al of (tl oc) n m) as [[f1 c1] m1] eqn:E1. injection E as <- _ _. cbn. f_equal. eapply IH; eassumption.
  - destruct (fits e n (decompose (ai a))).
    + destruct (place (decompose (ai a)) n m) as [n1 m1]. destruct (disp_loop e al of (tl oc) n1 m1) as [[f1 c1] m2] eqn:E1. injection E as <- _ _. cbn. f_equal. eapply IH; eassumption.
    + injection E as <- _ _. cbn. now f_equal.
Qed.
Lemma cycle_facts : forall e st o st', cycle e st = (o, st') -> length (succ st) = length (slots st) -> exists p1 rs, facts e st o st' p1 rs.
Proof.
  intros e st o st' E Ls. unfold cycle in E. destruct (alloc_loop e 0 [] [] (slots st)) as [[al0 so] lo] eqn:A.
  remember (wake_loop e (busy st) [] al0) as al eqn:Al.
  destruct (disp_loop e al (succ st) (cache st) (fun _ => 0) no_req) as [[f c] m] eqn:D.
  destruct (fire_loop e al f false false) as [fr ps] eqn:F.
  pose proof (wake_same e (busy st) al0 []) as WS. rewrite <- Al in WS.
  assert (Hs : forall j a, nth_error al j = Some a -> exists v x, nth_error (slots st) j = Some (v, x) /\ av a = v /\ (arv a = true -> v = true) /\
    id (ai a) = id x /\ ty (ai a) = ty x /\ f7 (ai a) = f7 x /\ den (ai a) = den x /\ da (ai a) = da x /\ dp (ai a) = dp x /\
    s1e (ai a) = s1e x /\ s1 (ai a) = s1 x /\ s2e (ai a) = s2e x /\ s2 (ai a) = s2 x /\ brm (ai a) = Z.ldiff (brm x) (e_clear e)).
  { intros j a Hj. destruct (F2_nth _ _ _ _ _ WS _ _ Hj) as (a0 & A0 & (V & R & b1 & b2 & I)).
    destruct (alloc_av _ _ _ _ _ _ _ _ A _ _ A0) as (v & x & H). exists v, x. rewrite V, R, I. exact H. }
  assert (Hv : forall a, In a al -> arv a = true -> av a = true).
  { intros a I R. apply In_nth_error in I as [j Hj]. destruct (Hs _ _ Hj) as (v & x & _ & V & X & _). rewrite V. now apply X. }
  destruct (cycle_core e st al f c m fr ps D F Hv) as (p1 & rs & C1 & C2 & C3 & C4 & C5 & C6 & C7).
  destruct (alloc_more _ _ _ _ _ _ _ _ A) as (La & _ & _).
  pose proof (Forall2_length _ _ _ _ _ WS) as Lw.
  (* allocation on the fired prefix *)
  rewrite C1 in WS. destruct (F2_app_r _ _ _ _ _ _ WS) as (q1 & r1 & Q & W1 & W2). pose proof (Forall2_length _ _ _ _ _ W1) as L1.
  assert (Lq : length q1 <= length (slots st)) by (rewrite <- La, Q, app_length; lia).
  pose proof A as A'. rewrite <- (firstn_skipn (length q1) (slots st)), alloc_app in A'.
  destruct (alloc_loop e 0 [] [] (firstn (length q1) (slots st))) as [[a1 so1] lo1] eqn:A1.
  destruct (alloc_loop e (0 + length (firstn (length q1) (slots st))) so1 lo1 (skipn (length q1) (slots st))) as [[a2 so2] lo2] eqn:A2.
  injection A' as A'1 <- <-. rewrite Q in A'1.
  destruct (alloc_more _ _ _ _ _ _ _ _ A1) as (La1 & _ & _). rewrite firstn_length_le in La1 by assumption.
  assert (Eq : a1 = q1) by (apply (f_equal (firstn (length q1))) in A'1; rewrite <- La1 in A'1 at 1; rewrite !firstn_app, !firstn_all, !Nat.sub_diag in A'1; cbn in A'1; rewrite !app_nil_r in A'1; assumption).
  subst a1.
  destruct (alloc_good _ _ _ _ _ _ _ _ A1) as (Os & Ol & At).
  { intros a I V. apply In_nth_error in I as [j Hj].
    assert (Lj : j < length p1) by (rewrite <- L1; apply nth_error_Some; congruence).
    destruct (nth_error p1 j) as [a'|] eqn:Hp; [|apply nth_error_None in Hp; lia].
    destruct (F2_nth _ _ _ _ _ W1 _ _ Hp) as (a0 & H0 & (V' & R' & _)). rewrite Hj in H0. injection H0 as <-.
    rewrite <- R'. apply (C3 _ _ Hp). congruence. }
  cbn [app] in Os, Ol. destruct (same_lists _ _ W1 0) as (I1 & I2 & I3). rewrite <- I1 in Os. rewrite <- I2 in Ol.
  destruct (alloc_more _ _ _ _ _ _ _ _ A2) as (_ & (x1 & X1 & Y1) & (x2 & X2 & Y2)).
  rewrite firstn_length_le in Y1, Y2 by assumption. cbn [Nat.add] in Y1, Y2.
  injection E as <- <-. exists p1, rs. constructor; cbn [o_alloc o_fire o_ready o_req o_stq o_ldq o_expect slots busy].
  - exact C1.
  - rewrite <- Lw. exact La.
  - exact C2.
  - rewrite <- C1. exact Hs.
  - intros j a H V. destruct (C3 j a H V) as (? & ? & ? & ? & ? & ?). auto.
  - intros H. apply C4. now destruct ps.
  - intros H. destruct C5 as [(b & s' & Z1 & Z2 & Z3)|X]; [now destruct ps| |right; exact X]. left. exists b, s'. split; [exact Z1|]. split; [exact Z2|]. split; [exact Z3|]. intros Rb.
    apply app_inv_head in A'1. rewrite Z1 in W2. inversion W2 as [|b0 ? r2 ? Sm W2' e1 e2]. rewrite <- e1 in A'1. rewrite A'1 in A2.
    destruct (same_stp _ _ Sm) as [Ss Sl]. rewrite Ss, Sl. destruct Sm as (Av & Ar & _).
    rewrite <- (idxs_len stp p1 0), <- (idxs_len ldp p1 0), <- Os, <- Ol. apply (alloc_head _ _ _ _ _ _ _ _ _ A2); congruence.
  - exact C6.
  - exact C7.
  - intros j a Hj. destruct (F2_nth _ _ _ _ _ W1 _ _ Hj) as (a0 & H0 & Sm). specialize (At _ _ H0). cbn [length Nat.add] in At.
    destruct (I3 j) as [J1 J2]. rewrite J1, J2. eapply same_attrs; eassumption.
  - intros k. rewrite C1, C2, X1, Os. apply lsu_req_is; [intros a Ha; unfold stp in Ha; apply andb_true_iff in Ha; tauto|intros i I; rewrite <- L1; now apply Y1].
  - intros k. rewrite C1, C2, X2, Ol. apply lsu_req_is; [intros a Ha; unfold ldp in Ha; apply andb_true_iff in Ha; tauto|intros i I; rewrite <- L1; now apply Y2].
  - rewrite <- C1. reflexivity.
  - intros j a Hj V. destruct (C3 j a Hj V) as (Ar & _).
    assert (Hn : nth_error al j = Some a) by (rewrite C1, nth_error_app1; [assumption|apply nth_error_Some; congruence]).
    rewrite Al in Hn. destruct (wake_nth _ _ _ _ _ _ Hn) as (a0 & A0 & ->). rewrite <- Al in *. cbn [app] in *.
    unfold wake_one in *. destruct (arv a0) eqn:R0; cbn [negb] in *; [|congruence].
    assert (Fj : firstn j al = firstn j p1) by (rewrite C1, firstn_app; replace (j - length p1) with 0 by (assert (j < length p1) by (apply nth_error_Some; congruence); lia); cbn; now rewrite app_nil_r).
    rewrite Fj. split; reflexivity.
  - reflexivity.
  - exists f. split; [reflexivity|]. split; [eapply disp_len; [exact D|]; congruence|]. intros j a Hj V. now apply (C3 j a).
Qed.

(** *** Register history *)
Local Open Scope Z_scope.
Lemma fl_snoc_w : forall h p q, in_flight (h ++ [Woke q]) p <-> p <> q /\ in_flight h p.
Proof.
  intros h p q. split.
  - intros (h1 & h2 & E & N). destruct (exists_last (l := Disp p :: h2)) as (y & z & Y); [discriminate|].
    rewrite Y, app_assoc in E. apply app_inj_tail in E as [E <-].
    destruct y as [|w y]; [cbn in Y; discriminate Y|]. cbn in Y. injection Y as <- ->. split.
    + intros ->. apply N. apply in_or_app. right. left. reflexivity.
    + exists h1, y. split; [assumption|]. intros I. apply N. apply in_or_app. auto.
  - intros [N (h1 & h2 & -> & M)]. exists h1, (h2 ++ [Woke q]). rewrite <- app_assoc. split; [reflexivity|].
    intros I. apply in_app_or in I as [I|[I|[]]]; [auto|]. injection I as <-. contradiction.
Qed.
Lemma fl_snoc_d : forall h p q, in_flight (h ++ [Disp q]) p <-> p = q \/ in_flight h p.
Proof.
  intros h p q. split.
  - intros (h1 & h2 & E & N). destruct (exists_last (l := Disp p :: h2)) as (y & z & Y); [discriminate|].
    rewrite Y, app_assoc in E. apply app_inj_tail in E as [E <-].
    destruct y as [|w y]; cbn in Y; [injection Y as -> _; auto|]. injection Y as <- ->. right. exists h1, y. split; [assumption|]. intros I. apply N. apply in_or_app. auto.
  - intros [->|(h1 & h2 & -> & M)].
    + exists h, []. split; [reflexivity|intros []].
    + exists h1, (h2 ++ [Disp q]). rewrite <- app_assoc. split; [reflexivity|]. intros I. apply in_app_or in I as [I|[I|[]]]; [auto|discriminate].
Qed.
Lemma fl_nil : forall p, ~ in_flight [] p.
Proof. intros p (h1 & h2 & E & _). destruct h1; discriminate. Qed.
Lemma fl_wakes : forall ws h p, in_flight (h ++ map Woke ws) p <-> in_flight h p /\ ~ In p ws.
Proof.
  intros ws. induction ws as [|w ws IH] using rev_ind; intros h p.
  - cbn. rewrite app_nil_r. tauto.
  - rewrite map_app, app_assoc. cbn [map]. rewrite fl_snoc_w, IH, in_app_iff. cbn. intuition.
Qed.
Lemma fl_dests : forall l h p, in_flight (h ++ dests l) p <-> in_flight h p \/ exists x, In x l /\ den x = true /\ dp x = p.
Proof.
  intros l. induction l as [|x l IH] using rev_ind; intros h p.
  - cbn. rewrite app_nil_r. split; [auto|intros [H|(x & [] & _)]; auto].
  - unfold dests in *. rewrite filter_app, map_app, app_assoc. cbn [filter]. destruct (den x) eqn:D; cbn [map].
    + rewrite fl_snoc_d, IH. split.
      * intros [->|[H|(y & I & Y)]]; [right; exists x; rewrite in_app_iff; cbn; auto|auto|right; exists y; rewrite in_app_iff; tauto].
      * intros [H|(y & I & D' & <-)]; [auto|]. apply in_app_or in I as [I|[<-|[]]]; [right; right; eauto|auto].
    + rewrite app_nil_r, IH. split.
      * intros [H|(y & I & Y)]; [auto|right; exists y; rewrite in_app_iff; tauto].
      * intros [H|(y & I & D' & Y)]; [auto|]. apply in_app_or in I as [I|[<-|[]]]; [right; eauto|congruence].
Qed.
Lemma busy_wake_is : forall ws b p, busy_wake ws b p = b p && negb (existsb (Z.eqb p) ws).
Proof.
  unfold busy_wake. induction ws as [|w ws IH]; intros b p; cbn [fold_left existsb]; [now rewrite andb_true_r|].
  rewrite IH. destruct (p =? w); cbn; [now rewrite andb_false_r|reflexivity].
Qed.
Lemma busy_set_is : forall al fr b p, length fr = length al -> (busy_set al fr b p = true <-> b p = true \/ exists a, In a (chosen al fr) /\ den (ai a) = true /\ dp (ai a) = p).
Proof.
  induction al as [|a al IH]; intros fr b p L; cbn [busy_set chosen].
  - split; [auto|intros [H|(x & [] & _)]; auto].
  - destruct fr as [|v fr]; [discriminate L|]. cbn [tl hd length] in *. rewrite IH by lia. destruct v; cbn [andb chosen]; [|tauto].
    destruct (den (ai a)) eqn:D.
    + destruct (Z.eqb_spec p (dp (ai a))) as [->|N].
      * split; [intros _; right; exists a; cbn; auto|auto].
      * split; [intros [H|(x & I & X)]; [auto|right; exists x; cbn; tauto]|].
        intros [H|(x & [<-|I] & D' & <-)]; [auto|congruence|right; eauto].
    + split; [intros [H|(x & I & X)]; [auto|right; exists x; cbn; tauto]|].
      intros [H|(x & [<-|I] & D' & X)]; [auto|congruence|right; eauto].
Qed.
Lemma wake_src_is : forall e b prev en p, (forall a, In a prev -> den (ai a) = true -> da (ai a) <> 0) ->
  (wake_src e b prev en p = true <-> en = true /\ ((b p = true /\ ~ In p (e_wake e)) \/ exists a, In a prev /\ arv a = true /\ den (ai a) = true /\ dp (ai a) = p)).
Proof.
  intros e b prev en p. unfold wake_src, woken.
  assert (Hb : forall x, (if en && existsb (Z.eqb p) (e_wake e) then false else if en then b p else false) = x -> (x = true <-> en = true /\ b p = true /\ ~ In p (e_wake e))).
  { intros x <-. destruct en; cbn [andb]; [|split; [discriminate|intros [C _]; discriminate]].
    destruct (existsb (Z.eqb p) (e_wake e)) eqn:X.
    - split; [discriminate|]. intros (_ & _ & N). exfalso. apply N. apply existsb_exists in X as (y & I & Y). apply Z.eqb_eq in Y as <-. exact I.
    - split; [|tauto]. intros B. split; [reflexivity|]. split; [assumption|]. intros I.
      assert (existsb (Z.eqb p) (e_wake e) = true) by (apply existsb_exists; exists p; split; [assumption|apply Z.eqb_refl]). congruence. }
  destruct (if en && existsb (Z.eqb p) (e_wake e) then false else if en then b p else false) as [|] eqn:Hx; pose proof (Hb _ eq_refl) as H0; clear Hb.
  - destruct (proj1 H0 eq_refl) as (-> & B & N). intros _. split; [intros _; auto|]. intros _.
    clear. induction prev as [|a prev IH]; cbn [fold_left]; [reflexivity|]. destruct (negb (arv a) || negb (den (ai a))); [apply IH|]. destruct (da (ai a) =? 0); [apply IH|].
    cbn [andb]. destruct (p =? dp (ai a)); apply IH.
  - assert (G : forall acc, (acc = true -> en = true) -> (forall a, In a prev -> den (ai a) = true -> da (ai a) <> 0) ->
      (fold_left (fun b j => if negb (arv j) || negb (den (ai j)) then b else if da (ai j) =? 0 then b else if en && (p =? dp (ai j)) then true else b) prev acc = true
       <-> acc = true \/ (en = true /\ exists a, In a prev /\ arv a = true /\ den (ai a) = true /\ dp (ai a) = p))).
    { clear Hx H0. induction prev as [|a prev IH]; intros acc Ha Hd; cbn [fold_left].
      - split; [auto|]. intros [H|(_ & x & [] & _)]; auto.
      - assert (Hd' : forall x, In x prev -> den (ai x) = true -> da (ai x) <> 0) by (intros x I; apply Hd; right; exact I).
        destruct (arv a) eqn:R; cbn [negb orb]; [|rewrite IH by assumption; split; intros [H|(E & x & I & X)]; auto; [right; split; [auto|]; exists x; cbn; tauto|]; right; split; [auto|]; destruct I as [<-|I]; [exfalso; destruct X; congruence|eauto]].
        destruct (den (ai a)) eqn:D; cbn [negb]; [|rewrite IH by assumption; split; intros [H|(E & x & I & X)]; auto; [right; split; [auto|]; exists x; cbn; tauto|]; right; split; [auto|]; destruct I as [<-|I]; [exfalso; destruct X as (_ & X & _); congruence|eauto]].
        assert (N0 : da (ai a) <> 0) by (apply Hd; [left; reflexivity|assumption]). apply Z.eqb_neq in N0. rewrite N0.
        destruct en; cbn [andb].
        + destruct (Z.eqb_spec p (dp (ai a))) as [E|E].
          * rewrite IH by auto. split; [intros _; right; split; [reflexivity|]; exists a; cbn; repeat split; auto|auto].
          * rewrite IH by assumption. split; intros [H|(_ & x & I & X)]; auto; [right; split; [reflexivity|]; exists x; cbn; tauto|].
            right; split; [reflexivity|]; destruct I as [<-|I]; [exfalso; destruct X as (_ & _ & X); congruence|eauto].
        + rewrite IH by assumption. split; intros [H|(C & _)]; auto; discriminate. }
    intros Hd. rewrite (G false) by (auto; discriminate). split.
    + intros [C|[E X]]; [discriminate|auto].
    + intros [E [X|X]]; [|auto]. assert (false = true) by (apply H0; auto). discriminate.
Qed.
