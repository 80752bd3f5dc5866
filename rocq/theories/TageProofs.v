From Verif Require Import Base BaseLemmas TageModel TageSpec.
From Coq Require Import Lia.
Local Open Scope Z_scope.
Ltac Zify.zify_post_hook ::= Z.div_mod_to_equations.

Lemma zupd_eq {A} (f : Z -> A) i v : zupd f i v i = v.
Proof. unfold zupd. now rewrite Z.eqb_refl. Qed.
Lemma zupd_ne {A} (f : Z -> A) i v j : j <> i -> zupd f i v j = f j.
Proof. intros H. unfold zupd. now destruct (Z.eqb_spec j i). Qed.
Lemma zupd_rng n f i v : (forall x, rng n (f x)) -> rng n v -> forall x, rng n (zupd f i v x).
Proof. intros F V x. unfold zupd. destruct (x =? i); [exact V|apply F]. Qed.
Lemma apply_rng n f i w : (forall x, rng n (f x)) -> (forall v, w = Some v -> rng n v) -> forall x, rng n (apply f i w x).
Proof. intros F V x. unfold apply. destruct w as [v|]; [apply zupd_rng; auto|apply F]. Qed.
Lemma sinc_rng n v : rng n v -> rng n (sinc n v).
Proof. unfold rng, sinc. destruct (Z.leb_spec n v); lia. Qed.
Lemma sdec_rng n v : rng n v -> rng n (sdec v).
Proof. unfold rng, sdec. destruct (Z.eqb_spec v 0); lia. Qed.
Lemma sinc_moves n v : rng n v -> moves n true v (sinc n v).
Proof. unfold rng, moves, sinc. destruct (Z.leb_spec n v); lia. Qed.
Lemma sdec_moves n v : rng n v -> moves n false v (sdec v).
Proof. unfold rng, moves, sdec. destruct (Z.eqb_spec v 0); lia. Qed.
Lemma land63 x : Z.land x 63 = x mod 64.
Proof. change 63 with (Z.ones 6). rewrite Z.land_ones by lia. reflexivity. Qed.
Lemma land255 x : Z.land x 255 = x mod 256.
Proof. change 255 with (Z.ones 8). rewrite Z.land_ones by lia. reflexivity. Qed.
Lemma land4095 x : Z.land x 4095 = x mod 4096.
Proof. change 4095 with (Z.ones 12). rewrite Z.land_ones by lia. reflexivity. Qed.
Lemma tn_idx_rng r i : rng 63 (tn_idx r i).
Proof. unfold tn_idx, IDXM, rng. rewrite land63. lia. Qed.
Lemma tn_tag_rng r i : rng 255 (tn_tag r i).
Proof. unfold tn_tag, TAGM, rng. rewrite land255. lia. Qed.

(* ------------------------------------------------------------------ *)
(** * Searches *)

Lemma longest_spec h n : (n <= 4)%nat ->
  (longest h n < n /\ h (longest h n) = true /\ forall j, longest h n < j < n -> h j = false)%nat \/
  (longest h n = 4%nat /\ forall j, (j < n)%nat -> h j = false).
Proof.
  induction n as [|n IH]; intros H; cbn [longest].
  - right. split; [reflexivity|]. intros j Hj. lia.
  - destruct (h n) eqn:E.
    + left. split; [lia|]. split; [exact E|]. intros j Hj. lia.
    + destruct IH as [(A & B & C)|(A & B)]; [lia| |].
      * left. split; [lia|]. split; [exact B|]. intros j Hj. destruct (Nat.eq_dec j n) as [->|N]; [exact E|]. apply C. lia.
      * right. split; [exact A|]. intros j Hj. destruct (Nat.eq_dec j n) as [->|N]; [exact E|]. apply B. lia.
Qed.
Lemma longest_unique h n p : (p < n)%nat -> (n <= 4)%nat -> h p = true -> (forall j, (p < j < n)%nat -> h j = false) -> longest h n = p.
Proof.
  intros L N E C. destruct (longest_spec h n N) as [(A & B & D)|(A & B)].
  - destruct (lt_eq_lt_dec (longest h n) p) as [[X|X]|X]; [|exact X|].
    + specialize (D p ltac:(lia)). congruence.
    + specialize (C (longest h n) ltac:(lia)). congruence.
  - specialize (B p L). congruence.
Qed.
Lemma longest_none h n : (n <= 4)%nat -> (forall j, (j < n)%nat -> h j = false) -> longest h n = 4%nat.
Proof.
  intros N E. destruct (longest_spec h n N) as [(A & B & _)|(A & _)]; [|exact A]. specialize (E _ A). congruence.
Qed.
Lemma longest_ext h k n : (forall j, (j < n)%nat -> h j = k j) -> longest h n = longest k n.
Proof. induction n as [|n IH]; intros H; [reflexivity|]. cbn [longest]. rewrite (H n) by lia. destruct (k n); [reflexivity|]. apply IH. intros j Hj. apply H. lia. Qed.

(* ------------------------------------------------------------------ *)
(** * Allocation *)

Lemma victim_free s u v : victim s u = Some v -> (start u <= v < 4)%nat /\ u_use s u v = 0.
Proof.
  intros H. assert (I: In v (free s u)).
  { unfold victim in H. destruct (free s u) as [|j [|k l]]; [discriminate| |].
    - injection H as <-. now left.
    - injection H as <-. destruct (_ =? 0); [right; now left|now left]. }
  unfold free in I. apply filter_In in I. destruct I as [I E]. apply in_seq in I. unfold TN in I.
  split; [lia|now apply Z.eqb_eq].
Qed.
Lemma victim_none s u : victim s u = None -> forall i, (start u <= i < 4)%nat -> u_use s u i <> 0.
Proof.
  intros H i Hi E. assert (I: In i (free s u)).
  { unfold free. apply filter_In. split; [apply in_seq; unfold TN; lia|now apply Z.eqb_eq]. }
  unfold victim in H. destruct (free s u) as [|j [|k l]]; [contradiction| |]; discriminate.
Qed.
Lemma allocs_start u : allocs u = true -> (m_pcpn (tr_meta u) < 4 -> start u = S (m_pcpn (tr_meta u)))%nat /\
  (m_pcpn (tr_meta u) = 4 -> start u = 0)%nat.
Proof.
  intros _. unfold start, tp, tm, TN. destruct (Nat.eqb_spec (m_pcpn (tr_meta u)) 4); split; lia.
Qed.
Lemma victim_not_prov s u v : victim s u = Some v -> prov u = true -> v <> tp u.
Proof.
  intros H P. destruct (victim_free s u v H) as [A _]. unfold start in A. unfold prov in P. apply Nat.ltb_lt in P.
  unfold TN in *. destruct (Nat.eqb_spec (tp u) 4); lia.
Qed.

(* ------------------------------------------------------------------ *)
(** * Ranges *)

Lemma rst_row_rng s : rng 63 (rst_row s).
Proof. unfold rst_row, IDXM, rng. rewrite land63. lia. Qed.
Lemma thin_rng s v : rng 3 v -> rng 3 (thin s v).
Proof.
  unfold rng, thin. intros H. assert (C: v = 0 \/ v = 1 \/ v = 2 \/ v = 3) by lia.
  destruct (rst_lsb s); destruct C as [->|[->|[->| ->]]]; cbn; lia.
Qed.
Lemma w_use_rng s u i v : in_range s -> w_use s u i = Some v -> rng 3 v.
Proof.
  intros R. unfold w_use.
  assert (P: forall v, (if prov u && (i =? tp u)%nat then prov_use s u else None) = Some v -> rng 3 v).
  { intros x. destruct (prov u && (i =? tp u)%nat); [|discriminate]. unfold prov_use, u_use.
    pose proof (ir_use _ R (tp u) (mi u (tp u))) as U.
    repeat match goal with |- context [if ?c then _ else _] => destruct c end; intros [= <-]; first [now apply sinc_rng|now apply sdec_rng]. }
  destruct (allocs u); [|apply P]. destruct (victim s u) as [x|].
  - destruct (i =? x)%nat; [intros [= <-]; unfold rng; lia|apply P].
  - destruct (start u <=? i)%nat; [intros [= <-]; apply sdec_rng; apply (ir_use _ R)|apply P].
Qed.
Definition small (s : tg) : Prop := (forall i x, rng 7 (t_cnt s i x)) /\ forall x, rng 3 (t_base s x).
Lemma range_small s : in_range s -> small s.
Proof. intros R. split; [apply (ir_cnt _ R)|apply (ir_base _ R)]. Qed.
Lemma w_cnt_rng s u i v : small s -> w_cnt s u i = Some v -> rng 7 v.
Proof.
  intros R. unfold w_cnt.
  assert (P: forall v, (if prov u && (i =? tp u)%nat then Some (prov_cnt_new s u) else None) = Some v -> rng 7 v).
  { intros x. destruct (prov u && (i =? tp u)%nat); [|discriminate]. intros [= <-]. unfold prov_cnt_new, u_cnt.
    pose proof (proj1 R (tp u) (mi u (tp u))). destruct (tdir u); [now apply sinc_rng|now apply sdec_rng]. }
  destruct (allocs u); [|apply P]. destruct (victim s u) as [x|]; [|apply P].
  destruct (i =? x)%nat; [|apply P]. intros [= <-]. unfold rng. destruct (tdir u); lia.
Qed.
Lemma update_range s u : in_range s -> (forall i, rng 255 (m_tag (tr_meta u) i)) -> in_range (update s u).
Proof.
  intros R TG.
  assert (LE: forall tag e, rng 4095 tag -> rng 4095 (le_cnt e) -> rng 4095 (le_lim e) -> rng 7 (le_conf e) -> rng 4095 (le_tag e) ->
    rng 4095 (le_cnt (loop_enter e tag)) /\ rng 4095 (le_lim (loop_enter e tag)) /\ rng 7 (le_conf (loop_enter e tag)) /\ rng 4095 (le_tag (loop_enter e tag))).
  { intros tag e T A B C D. unfold loop_enter. destruct (_ || _); cbn [le_cnt le_lim le_conf le_tag].
    - split; [unfold rng; lia|]. split; [unfold rng; lia|]. split; [unfold rng; lia|exact T].
    - split; [exact A|]. split; [exact B|]. split; [exact C|exact D]. }
  assert (LS: forall e b, rng 4095 (le_cnt e) -> rng 4095 (le_lim e) -> rng 7 (le_conf e) -> rng 4095 (le_tag e) ->
    rng 4095 (le_cnt (loop_step e b)) /\ rng 4095 (le_lim (loop_step e b)) /\ rng 7 (le_conf (loop_step e b)) /\ rng 4095 (le_tag (loop_step e b))).
  { intros e b A B C D. unfold loop_step. destruct (Bool.eqb b (le_dir e)); [|destruct (_ && _)]; cbn [le_cnt le_lim le_conf le_tag].
    - split; [now apply sinc_rng|]. split; [exact B|]. split; [exact C|exact D].
    - split; [unfold rng; lia|]. split; [exact B|]. split; [now apply sinc_rng|exact D].
    - split; [unfold rng; lia|]. split; [exact A|]. split; [now apply sdec_rng|exact D]. }
  assert (T4: rng 4095 (Z.land (m_ltag (tm u)) 4095)) by (unfold rng; rewrite land4095; lia).
  pose proof (LE (Z.land (m_ltag (tm u)) 4095) (t_loop s (m_lidx (tm u))) T4 (ir_lcnt _ R _) (ir_llim _ R _) (ir_lconf _ R _) (ir_ltag _ R _)) as (E1 & E2 & E3 & E4).
  pose proof (LS _ (tdir u) E1 E2 E3 E4) as (L1 & L2 & L3 & L4). fold (loop_next s u) in L1, L2, L3, L4.
  unfold update.
  constructor; cbn [t_base t_tag t_cnt t_use t_sc t_scl t_ua t_theta t_rst t_loop].
  - destruct (prov u); [apply (ir_base _ R)|]. apply zupd_rng; [apply (ir_base _ R)|].
    unfold base_next. pose proof (ir_base _ R (base_idx (tr_pc u))). destruct (tdir u); [now apply sinc_rng|now apply sdec_rng].
  - intros i. apply apply_rng; [apply (ir_tag _ R)|]. intros v. unfold w_tag. destruct (allocs u); [|discriminate].
    destruct (victim s u) as [x|]; [|discriminate]. destruct (i =? x)%nat; [|discriminate]. intros [= <-]. apply TG.
  - intros i. apply apply_rng; [apply (ir_cnt _ R)|]. intros v. now apply w_cnt_rng, range_small.
  - intros i x. unfold use_after.
    assert (A: forall x, rng 3 (apply (t_use s i) (mi u i) (w_use s u i) x)).
    { apply apply_rng; [apply (ir_use _ R)|]. intros v. now apply w_use_rng. }
    destruct (_ && _); [|apply A]. apply zupd_rng; [exact A|]. apply thin_rng, (ir_use _ R).
  - apply apply_rng; [apply (ir_sc _ R)|]. intros v. unfold w_sc. pose proof (ir_sc _ R (sc_idx (tr_pc u))).
    repeat match goal with |- context [if ?c then _ else _] => destruct c end; try discriminate; intros [= <-]; first [now apply sinc_rng|now apply sdec_rng].
  - intros t. unfold scl_next. destruct (_ && _); [|apply (ir_scl _ R)].
    apply zupd_rng; [apply (ir_scl _ R)|]. pose proof (ir_scl _ R t (Z.land (m_scidx (tm u) t) 63)). destruct (tdir u); [now apply sinc_rng|now apply sdec_rng].
  - unfold ua_next. pose proof (ir_ua _ R) as A.
    repeat match goal with |- context [if ?c then _ else _] => destruct c eqn:? end; try exact A; unfold rng, sinc in *; try lia.
    repeat match goal with |- context [if ?c then _ else _] => destruct c eqn:? end; lia.
  - unfold theta_next, THETA_MAX, THETA_MIN. pose proof (ir_theta _ R) as A.
    repeat match goal with |- context [if ?c then _ else _] => destruct c eqn:? end; lia.
  - change (2 ^ 32) with 4294967296. lia.
  - intros x. unfold zupd. destruct (_ =? _); [exact L1|apply (ir_lcnt _ R)].
  - intros x. unfold zupd. destruct (_ =? _); [exact L2|apply (ir_llim _ R)].
  - intros x. unfold zupd. destruct (_ =? _); [exact L3|apply (ir_lconf _ R)].
  - intros x. unfold zupd. destruct (_ =? _); [exact L4|apply (ir_ltag _ R)].
Qed.
Lemma tg0_range : in_range tg0.
Proof.
  constructor; unfold tg0, rng; cbn [t_base t_tag t_cnt t_use t_sc t_scl t_ua t_theta t_rst t_loop le_cnt le_lim le_conf le_tag]; intros; unfold THETA_INIT; lia.
Qed.
Lemma answers_ok h s : treach h s -> forall a, In a (answers h) -> (forall i, rng 63 (m_idx a i)) /\ (forall i, rng 255 (m_tag a i)) /\ (m_pcpn a <= 4)%nat.
Proof.
  induction 1 as [|h s r u s' a R IH HU C]; [intros a []|]. intros b. unfold answers. cbn [flat_map fst]. intros I. apply in_app_or in I. destruct I as [I|I].
  - unfold tcycle in C. injection C as _ <-. destruct r as [r|]; [|contradiction]. destruct I as [<-|[]]. cbn [predict m_idx m_tag m_pcpn].
    split; [apply tn_idx_rng|]. split; [apply tn_tag_rng|]. unfold pcpn.
    destruct (longest_spec (hit s r) TN) as [(A & _)|(A & _)]; unfold TN in *; lia.
  - now apply IH.
Qed.
Lemma brings_tag h s m : treach h s -> brings_back h m -> forall i, rng 255 (m_tag m i).
Proof.
  intros R [(_ & _ & _ & Z & _)|(a & I & _ & _ & _ & E & _)] i.
  - rewrite Z. unfold rng. lia.
  - rewrite E. now apply (answers_ok h s R a I).
Qed.
Lemma treach_range h s : treach h s -> in_range s.
Proof.
  induction 1 as [|h s r u s' a R IH HU C]; [apply tg0_range|].
  unfold tcycle in C. injection C as <- _. destruct u as [u|]; [|exact IH]. apply update_range; [exact IH|].
  apply (brings_tag h s); [exact R|]. now apply HU.
Qed.

(* ------------------------------------------------------------------ *)
(** * Learning *)

Definition own_tag (s : tg) (r : preq) (i : nat) : Z := t_tag s i (tn_idx r i).
Definition own_cnt (s : tg) (r : preq) (i : nat) : Z := t_cnt s i (tn_idx r i).
Definition own_base (s : tg) (r : preq) : Z := t_base s (base_idx (rq_pc r)).

(** Steps from surely predicting [dir] *)
Definition dist (dir : bool) (c : Z) : Z := if dir then Z.max 0 (5 - c) else Z.max 0 (c - 2).
Definition bdist (dir : bool) (b : Z) : Z := if dir then Z.max 0 (2 - b) else Z.max 0 (b - 1).
Definition togo (dir : bool) (s : tg) (r : preq) : Z :=
  if (pcpn s r <? 4)%nat then dist dir (own_cnt s r (pcpn s r)) else bdist dir (own_base s r).
Definition level (s : tg) (r : preq) : Z := if (pcpn s r <? 4)%nat then 1 + Z.of_nat (pcpn s r) else 0.
Definition rank (dir : bool) (s : tg) (r : preq) : Z := if togo dir s r =? 0 then 0 else togo dir s r + 4 - level s r.

Lemma sure dir s r : togo dir s r = 0 -> m_pred (predict s r) = dir.
Proof.
  unfold togo. cbn [predict m_pred]. destruct (Nat.ltb_spec (pcpn s r) 4) as [P|P].
  - intros D. assert (W3: weak (prov_cnt s r) = false /\ weak_sc (prov_cnt s r) = false /\ (4 <=? prov_cnt s r) = dir).
    { unfold prov_cnt, rd_cnt. fold (own_cnt s r (pcpn s r)). unfold dist, weak, weak_sc in *. destruct dir; lia. }
    destruct W3 as (W & WS & E). unfold lused, pred1, scl_used, sel_pred. rewrite W, WS, E.
    rewrite !andb_false_r. cbn [andb]. replace (pcpn s r <? TN)%nat with true by (symmetry; now apply Nat.ltb_lt). reflexivity.
  - intros D. unfold lused, pred1, scl_used, sel_pred. replace (pcpn s r <? TN)%nat with false by (symmetry; now apply Nat.ltb_ge).
    rewrite andb_false_r. cbn [andb]. unfold base_pred. fold (own_base s r). unfold bdist in D. destruct dir; lia.
Qed.
Lemma base_idx_eq pc : base_idx pc = (pc / 4) mod 64.
Proof. unfold base_idx, IDXM. rewrite land63, Z.shiftr_div_pow2 by lia. reflexivity. Qed.
Lemma pcpn_ext s s' r : (forall i, (i < 4)%nat -> own_tag s' r i = own_tag s r i) -> pcpn s' r = pcpn s r.
Proof. intros H. unfold pcpn. apply longest_ext. intros j Hj. unfold hit, rd_tag. fold (own_tag s' r j) (own_tag s r j). now rewrite H. Qed.

Lemma other_same s r u : apart (predict s r) (rq_pc r) u ->
  (forall i, (i < 4)%nat -> own_tag (update s u) r i = own_tag s r i /\ own_cnt (update s u) r i = own_cnt s r i) /\
  own_base (update s u) r = own_base s r.
Proof.
  intros [A B]. cbn [predict m_idx] in A. split.
  - intros i Hi. specialize (A i Hi). unfold own_tag, own_cnt, update. cbn [t_tag t_cnt].
    assert (N: tn_idx r i <> mi u i) by (unfold mi, IDXM, tm; rewrite land63; congruence).
    split; unfold apply; [destruct (w_tag s u i)|destruct (w_cnt s u i)]; try reflexivity; now rewrite zupd_ne.
  - unfold own_base, update. cbn [t_base]. destruct (prov u); [reflexivity|]. rewrite zupd_ne; [reflexivity|]. rewrite !base_idx_eq. congruence.
Qed.
Lemma rank_ext dir s s' r :
  (forall i, (i < 4)%nat -> own_tag s' r i = own_tag s r i /\ own_cnt s' r i = own_cnt s r i) ->
  own_base s' r = own_base s r -> rank dir s' r = rank dir s r /\ togo dir s' r = togo dir s r.
Proof.
  intros H B. assert (P: pcpn s' r = pcpn s r) by (apply pcpn_ext; intros i Hi; now apply H).
  assert (T: togo dir s' r = togo dir s r).
  { unfold togo. rewrite P, B. destruct (Nat.ltb_spec (pcpn s r) 4) as [L|L]; [|reflexivity]. now rewrite (proj2 (H _ L)). }
  split; [|exact T]. unfold rank, level. now rewrite T, P.
Qed.

Lemma own_step s r dir w : keeps w -> small s ->
  let s' := update s (Train (rq_pc r) dir (w (predict s r))) in
  rank dir s' r < rank dir s r \/ rank dir s' r = 0.
Proof.
  intros K R s'. destruct (K (predict s r)) as (K1 & K2 & K3 & K4 & K5).
  set (u := Train (rq_pc r) dir (w (predict s r))) in *.
  assert (EP: tp u = pcpn s r) by (unfold tp, tm, u; cbn [tr_meta]; rewrite K3; reflexivity).
  assert (EI: forall i, mi u i = tn_idx r i).
  { intros i. unfold mi, tm, u, IDXM. cbn [tr_meta]. rewrite K4. cbn [predict m_idx]. rewrite land63.
    pose proof (tn_idx_rng r i) as Q. unfold rng in Q. apply Z.mod_small. lia. }
  assert (ED: tdir u = dir) by reflexivity.
  assert (EW: wrong u = xorb (m_pred (predict s r)) dir) by (unfold wrong, tm, u, tdir; cbn [tr_meta tr_dir]; now rewrite K1).
  assert (EPr: prov u = (pcpn s r <? 4)%nat) by (unfold prov; now rewrite EP).
  assert (P4: (pcpn s r <= 4)%nat) by (unfold pcpn; destruct (longest_spec (hit s r) TN) as [(A & _)|(A & _)]; unfold TN in *; lia).
  (* the two kinds of change *)
  assert (TAG: forall i, (i < 4)%nat -> own_tag s' r i = match w_tag s u i with Some v => v | None => own_tag s r i end).
  { intros i Hi. unfold own_tag, s', update. cbn [t_tag]. unfold apply. rewrite EI. destruct (w_tag s u i); [apply zupd_eq|reflexivity]. }
  assert (CNT: forall i, (i < 4)%nat -> own_cnt s' r i = match w_cnt s u i with Some v => v | None => own_cnt s r i end).
  { intros i Hi. unfold own_cnt, s', update. cbn [t_cnt]. unfold apply. rewrite EI. destruct (w_cnt s u i); [apply zupd_eq|reflexivity]. }
  assert (BASE: own_base s' r = if (pcpn s r <? 4)%nat then own_base s r else if dir then sinc 3 (own_base s r) else sdec (own_base s r)).
  { unfold own_base, s', update. cbn [t_base]. rewrite EPr. destruct (pcpn s r <? 4)%nat; [reflexivity|].
    change (tr_pc u) with (rq_pc r). rewrite zupd_eq. unfold base_next. reflexivity. }
  destruct (allocs u) eqn:AL; [destruct (victim s u) as [v|] eqn:V|].
  - (* a new entry *)
    destruct (victim_free s u v V) as [V1 V2].
    assert (VG: ((pcpn s r < 4 -> pcpn s r < v) /\ v < 4)%nat).
    { destruct (allocs_start u AL) as [S1 S2]. fold (tm u) in S1, S2. fold (tp u) in S1, S2. rewrite EP in S1, S2.
      split; [intros L; rewrite (S1 L) in V1; lia|lia]. }
    assert (Q: pcpn s' r = v).
    { unfold pcpn. apply longest_unique; unfold TN; [lia|lia| |].
      - unfold hit, rd_tag. fold (own_tag s' r v). rewrite TAG by lia. unfold w_tag. rewrite AL, V, Nat.eqb_refl.
        unfold tm, u. cbn [tr_meta]. rewrite K5. apply Z.eqb_refl.
      - intros j Hj. unfold hit, rd_tag. fold (own_tag s' r j). rewrite TAG by lia. unfold w_tag. rewrite AL, V.
        replace (j =? v)%nat with false by (symmetry; apply Nat.eqb_neq; lia).
        change (hit s r j = false). destruct (longest_spec (hit s r) TN) as [(A & B & C)|(A & B)]; unfold TN in *; [lia| |].
        + fold TN in C. apply C. unfold pcpn, TN in VG. unfold TN. lia.
        + apply B. lia. }
    assert (T: togo dir s' r = 1).
    { unfold togo. rewrite Q. replace (v <? 4)%nat with true by (symmetry; apply Nat.ltb_lt; lia).
      rewrite CNT by lia. unfold w_cnt. rewrite AL, V, Nat.eqb_refl, ED. unfold dist. destruct dir; lia. }
    left. unfold rank. rewrite T. change (1 =? 0) with false. cbn iota.
    assert (W: togo dir s r <> 0).
    { intros Z0. apply sure in Z0. unfold allocs in AL. rewrite EW, Z0, xorb_nilpotent in AL. discriminate. }
    assert (TP: 0 <= togo dir s r) by (unfold togo, dist, bdist; destruct (_ <? _)%nat; destruct dir; lia).
    replace (togo dir s r =? 0) with false by lia.
    unfold level. rewrite Q. replace (v <? 4)%nat with true by (symmetry; apply Nat.ltb_lt; lia).
    destruct (Nat.ltb_spec (pcpn s r) 4); lia.
  - (* none free *)
    assert (P: pcpn s' r = pcpn s r).
    { apply pcpn_ext. intros i Hi. rewrite TAG by assumption. unfold w_tag. now rewrite AL, V. }
    assert (T: togo dir s' r = Z.max 0 (togo dir s r - 1)).
    { unfold togo. rewrite P, BASE. destruct (Nat.ltb_spec (pcpn s r) 4) as [L|L].
      - rewrite CNT by assumption. unfold w_cnt. rewrite AL, V, EPr. replace (pcpn s r <? 4)%nat with true by (symmetry; now apply Nat.ltb_lt).
        rewrite EP, Nat.eqb_refl. cbn [andb]. unfold prov_cnt_new, u_cnt. rewrite EP, EI, ED. fold (own_cnt s r (pcpn s r)).
        pose proof (proj1 R (pcpn s r) (tn_idx r (pcpn s r))) as G. fold (own_cnt s r (pcpn s r)) in G. unfold rng in G.
        unfold dist, sinc, sdec. destruct dir; [destruct (Z.leb_spec 7 (own_cnt s r (pcpn s r)))|destruct (Z.eqb_spec (own_cnt s r (pcpn s r)) 0)]; lia.
      - pose proof (proj2 R (base_idx (rq_pc r))) as G. fold (own_base s r) in G. unfold rng in G.
        unfold bdist, sinc, sdec. destruct dir; [destruct (Z.leb_spec 3 (own_base s r))|destruct (Z.eqb_spec (own_base s r) 0)]; lia. }
    assert (TP: 0 <= togo dir s r) by (unfold togo, dist, bdist; destruct (_ <? _)%nat; destruct dir; lia).
    unfold rank, level. rewrite P, T. destruct (Z.eqb_spec (Z.max 0 (togo dir s r - 1)) 0); [now right|]. left.
    replace (togo dir s r =? 0) with false by lia. lia.
  - (* predicted right, or the longest table is the provider *)
    assert (P: pcpn s' r = pcpn s r).
    { apply pcpn_ext. intros i Hi. rewrite TAG by assumption. unfold w_tag. now rewrite AL. }
    assert (T: togo dir s' r = Z.max 0 (togo dir s r - 1)).
    { unfold togo. rewrite P, BASE. destruct (Nat.ltb_spec (pcpn s r) 4) as [L|L].
      - rewrite CNT by assumption. unfold w_cnt. rewrite AL, EPr. replace (pcpn s r <? 4)%nat with true by (symmetry; now apply Nat.ltb_lt).
        rewrite EP, Nat.eqb_refl. cbn [andb]. unfold prov_cnt_new, u_cnt. rewrite EP, EI, ED. fold (own_cnt s r (pcpn s r)).
        pose proof (proj1 R (pcpn s r) (tn_idx r (pcpn s r))) as G. fold (own_cnt s r (pcpn s r)) in G. unfold rng in G.
        unfold dist, sinc, sdec. destruct dir; [destruct (Z.leb_spec 7 (own_cnt s r (pcpn s r)))|destruct (Z.eqb_spec (own_cnt s r (pcpn s r)) 0)]; lia.
      - pose proof (proj2 R (base_idx (rq_pc r))) as G. fold (own_base s r) in G. unfold rng in G.
        unfold bdist, sinc, sdec. destruct dir; [destruct (Z.leb_spec 3 (own_base s r))|destruct (Z.eqb_spec (own_base s r) 0)]; lia. }
    assert (TP: 0 <= togo dir s r) by (unfold togo, dist, bdist; destruct (_ <? _)%nat; destruct dir; lia).
    unfold rank, level. rewrite P, T. destruct (Z.eqb_spec (Z.max 0 (togo dir s r - 1)) 0); [now right|]. left.
    replace (togo dir s r =? 0) with false by lia. lia.
Qed.
Lemma rank_pos dir s r : small s -> 0 <= rank dir s r <= 8.
Proof.
  intros R. unfold rank, level, togo. pose proof (proj2 R (base_idx (rq_pc r))) as G. fold (own_base s r) in G.
  destruct (Nat.ltb_spec (pcpn s r) 4) as [L|L].
  - pose proof (proj1 R (pcpn s r) (tn_idx r (pcpn s r))) as G2. fold (own_cnt s r (pcpn s r)) in G2.
    unfold rng, dist in *. destruct dir; destruct (_ =? 0) eqn:?; lia.
  - unfold rng, bdist in *. destruct dir; destruct (_ =? 0) eqn:?; lia.
Qed.
Lemma rank_zero dir s r : small s -> rank dir s r = 0 -> togo dir s r = 0.
Proof.
  intros R. unfold rank. destruct (Z.eqb_spec (togo dir s r) 0) as [E|E]; [auto|]. intros H.
  assert (TP: 0 <= togo dir s r) by (unfold togo, dist, bdist; destruct (_ <? _)%nat; destruct dir; lia).
  unfold level in H. destruct (Nat.ltb_spec (pcpn s r) 4); lia.
Qed.
Lemma update_small s u : small s -> small (update s u).
Proof.
  intros R. split; unfold update; cbn [t_cnt t_base].
  - intros i. apply apply_rng; [apply (proj1 R)|]. intros v. now apply w_cnt_rng.
  - destruct (prov u); [apply (proj2 R)|]. apply zupd_rng; [apply (proj2 R)|].
    unfold base_next. pose proof (proj2 R (base_idx (tr_pc u))). destruct (tdir u); [now apply sinc_rng|now apply sdec_rng].
Qed.
Lemma lessons_rank r dir w n s s' : keeps w -> small s -> lessons r dir w n s s' ->
  small s' /\ rank dir s' r <= Z.max 0 (8 - Z.of_nat n).
Proof.
  intros K R L. induction L as [s|n s s' L IH|n s s' u L IH A].
  - split; [exact R|]. pose proof (rank_pos dir s r R). lia.
  - destruct (IH R) as [R' B]. split; [now apply update_small|].
    destruct (own_step s' r dir w K R') as [D|D]; lia.
  - destruct (IH R) as [R' B]. split; [now apply update_small|]. destruct (other_same s' r u A) as [O1 O2].
    destruct (rank_ext dir s' (update s' u) r O1 O2) as [E _]. now rewrite E.
Qed.
