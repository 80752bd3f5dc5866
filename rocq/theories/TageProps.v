(** C64: the direction predictor. *)
From Verif Require Import Base BaseLemmas TageModel TageSpec TageProofs.
From Coq Require Import Lia.
Local Open Scope Z_scope.
Ltac Zify.zify_post_hook ::= Z.div_mod_to_equations.

(** *** State *)
Theorem c64_ranges h s : treach h s -> in_range s.
Proof. apply treach_range. Qed.
(** The random source never gets stuck at zero. *)
Theorem c64_lfsr_alive h s : treach h s -> exists i, (i < 4)%nat /\ t_lfsr s i = true.
Proof.
  induction 1 as [|h s r u s' a R IH HU C]; [exists 3%nat; split; [lia|reflexivity]|].
  unfold tcycle in C. injection C as <- _. destruct u as [u|]; [|exact IH]. cbn [update t_lfsr].
  destruct IH as (i & Hi & E). destruct (Nat.eq_dec i 3) as [->|N].
  - destruct (t_lfsr s 0) eqn:Z0.
    + exists 1%nat. split; [lia|exact Z0].
    + exists 0%nat. split; [lia|]. cbn [lfsr_next]. now rewrite Z0, E.
  - exists (S i). split; [lia|exact E].
Qed.

(** *** Prediction *)
(** The provider is the table with the longest history among those whose entry
    carries the branch's tag; the alternative the next shorter one. *)
Theorem c64_provider s r : let a := predict s r in
  let hits i := t_tag s i (m_idx a i) = m_tag a i in
  ((m_pcpn a < 4)%nat /\ hits (m_pcpn a) /\ (forall j, (m_pcpn a < j < 4)%nat -> ~ hits j) \/
   m_pcpn a = 4%nat /\ forall j, (j < 4)%nat -> ~ hits j) /\
  ((m_altpcpn a < m_pcpn a)%nat /\ hits (m_altpcpn a) /\ (forall j, (m_altpcpn a < j < m_pcpn a)%nat -> ~ hits j) \/
   m_altpcpn a = 4%nat /\ forall j, (j < m_pcpn a)%nat -> ~ hits j).
Proof.
  intros a hits.
  assert (H: forall j, hit s r j = true <-> hits j) by (intros j; unfold hit, hits, rd_tag; apply Z.eqb_eq).
  assert (N: forall j, hit s r j = false -> ~ hits j) by (intros j E X; apply H in X; congruence).
  change (m_pcpn a) with (longest (hit s r) TN). change (m_altpcpn a) with (longest (hit s r) (longest (hit s r) TN)).
  assert (P4: (longest (hit s r) TN <= 4)%nat) by (destruct (longest_spec (hit s r) TN) as [(A & _)|(A & _)]; unfold TN in *; lia).
  split.
  - destruct (longest_spec (hit s r) TN) as [(A & B & C)|(A & B)]; [unfold TN; lia|left|right].
    + split; [exact A|]. split; [now apply H|]. intros j Hj. now apply N, C.
    + split; [exact A|]. intros j Hj. now apply N, B.
  - destruct (longest_spec (hit s r) (longest (hit s r) TN) P4) as [(A & B & C)|(A & B)]; [left|right].
    + split; [exact A|]. split; [now apply H|]. intros j Hj. now apply N, C.
    + split; [exact A|]. intros j Hj. now apply N, B.
Qed.
(** The direction: the base counter without a provider, the provider's counter
    unless it is next to the middle; there the alternative may decide. *)
Theorem c64_direction s r : let a := predict s r in
  let c := t_cnt s (m_pcpn a) (m_idx a (m_pcpn a)) in
  let b := t_base s ((rq_pc r / 4) mod 64) in
  m_alt a = (if (m_altpcpn a <? 4)%nat then 4 <=? t_cnt s (m_altpcpn a) (m_idx a (m_altpcpn a)) else 2 <=? b) /\
  (m_pcpn a = 4%nat -> m_pred a = (2 <=? b)) /\
  ((m_pcpn a < 4)%nat -> c <> 3 -> c <> 4 -> m_pred a = (4 <=? c)) /\
  ((m_pcpn a < 4)%nat -> c = 4 -> m_pred a = m_alt a \/ m_pred a = true) /\
  ((m_pcpn a < 4)%nat -> c = 4 -> t_sc s (sc_idx (rq_pc r)) <> 0 -> m_pred a = true).
Proof.
  intros a c b.
  change c with (prov_cnt s r). change (m_pcpn a) with (pcpn s r). change (m_altpcpn a) with (altpcpn s r).
  change (m_alt a) with (alt_pred s r).
  assert (EB: base_pred s r = (2 <=? b)) by (unfold base_pred, b; now rewrite base_idx_eq).
  assert (PS: m_pred a = if lused s r then lpred s r else if scl_used s r then SCL_BIAS <=? scl_sum s r else sel_pred s r) by reflexivity.
  split; [unfold alt_pred; rewrite EB; reflexivity|]. split; [|split; [|split]].
  - intros E. rewrite PS. unfold lused, scl_used, sel_pred. rewrite E. rewrite andb_false_r. exact EB.
  - intros L N3 N4. assert (W: weak (prov_cnt s r) = false /\ weak_sc (prov_cnt s r) = false) by (unfold weak, weak_sc; lia).
    destruct W as [W WS]. rewrite PS. unfold lused, scl_used, sel_pred. rewrite W, WS, !andb_false_r. cbn [andb].
    replace (pcpn s r <? TN)%nat with true by (symmetry; now apply Nat.ltb_lt). reflexivity.
  - intros L E. assert (W: weak (prov_cnt s r) = false) by (unfold weak; lia).
    rewrite PS. unfold lused, scl_used, sel_pred. rewrite W, !andb_false_r. cbn [andb].
    replace (pcpn s r <? TN)%nat with true by (symmetry; now apply Nat.ltb_lt). rewrite E. cbn [Z.leb].
    change (4 <=? 4) with true. destruct (_ && _); [|now right]. destruct (_ =? 0); [now left|]. destruct (_ =? 3); now right.
  - intros L E SC. assert (W: weak (prov_cnt s r) = false) by (unfold weak; lia).
    rewrite PS. unfold lused, scl_used, sel_pred. rewrite W, !andb_false_r. cbn [andb].
    replace (pcpn s r <? TN)%nat with true by (symmetry; now apply Nat.ltb_lt). rewrite E.
    change (4 <=? 4) with true. destruct (_ && _); [|reflexivity].
    replace (t_sc s (sc_idx (rq_pc r)) =? 0) with false by (symmetry; now apply Z.eqb_neq). now destruct (_ =? 3).
Qed.

(** *** Training *)
(** Nothing but the entries named in the training changes (and one row of
    usefulness bits). *)
Theorem c64_written s u : let s' := update s u in
  (forall x, x <> (tr_pc u / 4) mod 64 -> t_base s' x = t_base s x) /\
  (forall i x, x <> m_idx (tr_meta u) i mod 64 -> t_tag s' i x = t_tag s i x /\ t_cnt s' i x = t_cnt s i x) /\
  (exists row, forall i x, x <> m_idx (tr_meta u) i mod 64 -> x <> row -> t_use s' i x = t_use s i x) /\
  (forall x, x <> m_lidx (tr_meta u) mod 64 -> t_loop s' x = t_loop s x).
Proof.
  intros s'. split; [|split; [|split]].
  - intros x H. unfold s', update. cbn [t_base]. destruct (prov u); [reflexivity|]. rewrite base_idx_eq. now apply zupd_ne.
  - intros i x H. assert (N: x <> mi u i) by (unfold mi, IDXM, tm; now rewrite land63).
    unfold s', update. cbn [t_tag t_cnt]. split; unfold apply; [destruct (w_tag s u i)|destruct (w_cnt s u i)]; try reflexivity; now apply zupd_ne.
  - exists (rst_row s). intros i x H HR. assert (N: x <> mi u i) by (unfold mi, IDXM, tm; now rewrite land63).
    unfold s', update. cbn [t_use]. unfold use_after.
    assert (A: apply (t_use s i) (mi u i) (w_use s u i) x = t_use s i x) by (unfold apply; destruct (w_use s u i); [now apply zupd_ne|reflexivity]).
    destruct (_ && _); [|exact A]. rewrite zupd_ne by exact HR. exact A.
  - intros x H. unfold s', update. cbn [t_loop]. apply zupd_ne. unfold tm. now rewrite land63.
Qed.
(** The provider's counter, or the base counter without one, moves one step
    towards the outcome.  Tags change only on a misprediction, in at most one
    table, longer than the provider, whose entry was not useful; it starts next to
    the middle on the side of the outcome. *)
Theorem c64_trained s u : in_range s -> let s' := update s u in let mt := tr_meta u in
  let e (f : nat -> Z -> Z) i := f i (m_idx mt i mod 64) in
  ((m_pcpn mt < 4)%nat -> moves 7 (tr_dir u) (e (t_cnt s) (m_pcpn mt)) (e (t_cnt s') (m_pcpn mt)) /\ t_base s' = t_base s) /\
  ((4 <= m_pcpn mt)%nat -> moves 3 (tr_dir u) (t_base s ((tr_pc u / 4) mod 64)) (t_base s' ((tr_pc u / 4) mod 64))) /\
  (m_pred mt = tr_dir u -> forall i, e (t_tag s') i = e (t_tag s) i /\ (i <> m_pcpn mt -> e (t_cnt s') i = e (t_cnt s) i)) /\
  (m_pred mt <> tr_dir u -> (m_pcpn mt <= 2 \/ m_pcpn mt = 4)%nat ->
    let longer i := (i < 4 /\ (m_pcpn mt < i \/ m_pcpn mt = 4))%nat in
    (exists v, longer v /\ e (t_use s) v = 0 /\ e (t_tag s') v = m_tag mt v /\
       e (t_cnt s') v = (if tr_dir u then 4 else 3) /\
       forall i, i <> v -> e (t_tag s') i = e (t_tag s) i /\ (i <> m_pcpn mt -> e (t_cnt s') i = e (t_cnt s) i)) \/
    ((forall i, longer i -> e (t_use s) i <> 0) /\
     (forall i, longer i -> moves 3 false (e (t_use s) i) (e (t_use s') i)) /\
     forall i, e (t_tag s') i = e (t_tag s) i)).
Proof.
  intros R s' mt e.
  assert (EI: forall i, m_idx mt i mod 64 = mi u i) by (intros i; unfold mi, IDXM, tm; now rewrite land63).
  assert (CNT: forall i, e (t_cnt s') i = match w_cnt s u i with Some v => v | None => e (t_cnt s) i end).
  { intros i. unfold e. rewrite EI. unfold s', update. cbn [t_cnt]. unfold apply. destruct (w_cnt s u i); [apply zupd_eq|reflexivity]. }
  assert (TAG: forall i, e (t_tag s') i = match w_tag s u i with Some v => v | None => e (t_tag s) i end).
  { intros i. unfold e. rewrite EI. unfold s', update. cbn [t_tag]. unfold apply. destruct (w_tag s u i); [apply zupd_eq|reflexivity]. }
  assert (USE: forall i v, w_use s u i = Some v -> e (t_use s') i = v).
  { intros i v W. unfold e. rewrite EI. unfold s', update. cbn [t_use]. unfold use_after. rewrite W. cbn [apply].
    cbn [andb]. destruct (Z.eqb_spec (mi u i) (rst_row s)) as [E|E].
    - rewrite andb_false_r. apply zupd_eq.
    - destruct (_ && _); [rewrite zupd_ne by exact E|]; apply zupd_eq. }
  change (m_pcpn mt) with (tp u) in *. change (tr_dir u) with (tdir u) in *.
  split; [|split; [|split]].
  - intros L. assert (P: prov u = true) by (unfold prov, TN; now apply Nat.ltb_lt).
    split; [|unfold s', update; cbn [t_base]; now rewrite P].
    assert (W: w_cnt s u (tp u) = Some (prov_cnt_new s u)).
    { unfold w_cnt. rewrite P, Nat.eqb_refl. cbn [andb]. destruct (allocs u); [|reflexivity].
      destruct (victim s u) as [v|] eqn:V; [|reflexivity]. pose proof (victim_not_prov s u v V P) as N.
      now replace (tp u =? v)%nat with false by (symmetry; apply Nat.eqb_neq; congruence). }
    rewrite CNT, W. unfold prov_cnt_new, u_cnt. unfold e. rewrite EI. pose proof (ir_cnt _ R (tp u) (mi u (tp u))).
    destruct (tdir u); [now apply sinc_moves|now apply sdec_moves].
  - intros L. assert (P: prov u = false) by (unfold prov, TN; now apply Nat.ltb_ge).
    unfold s', update. cbn [t_base]. rewrite P, <- base_idx_eq, zupd_eq. unfold base_next.
    pose proof (ir_base _ R (base_idx (tr_pc u))). destruct (tdir u); [now apply sinc_moves|now apply sdec_moves].
  - intros E i. assert (A: allocs u = false) by (unfold allocs, wrong; change (tm u) with mt; rewrite E, xorb_nilpotent; reflexivity).
    rewrite TAG, CNT. unfold w_tag, w_cnt. rewrite A. split; [reflexivity|]. intros N.
    replace (i =? tp u)%nat with false by (symmetry; now apply Nat.eqb_neq). now rewrite andb_false_r.
  - intros E PL longer.
    assert (A: allocs u = true).
    { unfold allocs, wrong. change (tm u) with mt. apply andb_true_iff. split; [now destruct (m_pred mt), (tdir u)|].
      apply orb_true_iff. unfold TN. destruct PL as [L|L]; [left; apply Nat.leb_le; lia|right; now apply Nat.eqb_eq]. }
    assert (ST: forall i, (start u <= i < 4)%nat <-> longer i).
    { intros i. unfold longer, start, TN. destruct (Nat.eqb_spec (tp u) 4); lia. }
    destruct (victim s u) as [v|] eqn:V.
    + left. exists v. destruct (victim_free s u v V) as [V1 V2]. split; [now apply ST|].
      split; [unfold e; rewrite EI; exact V2|]. split; [rewrite TAG; unfold w_tag; rewrite A, V, Nat.eqb_refl; reflexivity|].
      split; [rewrite CNT; unfold w_cnt; rewrite A, V, Nat.eqb_refl; reflexivity|].
      intros i N. rewrite TAG, CNT. unfold w_tag, w_cnt. rewrite A, V.
      replace (i =? v)%nat with false by (symmetry; now apply Nat.eqb_neq). split; [reflexivity|]. intros NP.
      replace (i =? tp u)%nat with false by (symmetry; now apply Nat.eqb_neq). now rewrite andb_false_r.
    + right. split; [|split].
      * intros i L. unfold e. rewrite EI. apply (victim_none s u V). now apply ST.
      * intros i L. assert (W: w_use s u i = Some (sdec (u_use s u i))).
        { unfold w_use. rewrite A, V. apply ST in L. now replace (start u <=? i)%nat with true by (symmetry; apply Nat.leb_le; lia). }
        rewrite (USE _ _ W). unfold e, u_use. rewrite EI. apply sdec_moves, (ir_use _ R).
      * intros i. rewrite TAG. unfold w_tag. now rewrite A, V.
Qed.
(** A branch that always goes the same way under the same history is predicted
    right after eight trainings, whatever the tables held before and whatever
    happens to other entries in between. *)
Theorem c64_learns r dir w n s s' : keeps w -> in_range s -> lessons r dir w n s s' -> (8 <= n)%nat ->
  m_pred (predict s' r) = dir.
Proof.
  intros K R L N. destruct (lessons_rank r dir w n s s' K (range_small s R) L) as [S B].
  apply sure, rank_zero; [exact S|]. pose proof (rank_pos dir s' r S). lia.
Qed.
Example c64_shipped_keeps : keeps shipped.
Proof. intros x. unfold shipped. cbn [m_pred m_alt m_pcpn m_idx m_tag]. repeat (split; [reflexivity|]). reflexivity. Qed.

(** *** Where entries come from *)
(** A tag other than 0 was put there by a mispredicted training that named this
    entry and this tag. *)
Theorem c64_tag_origin h s i x : treach h s -> t_tag s i x <> 0 ->
  exists u, In u (trainings h) /\ m_pred (tr_meta u) <> tr_dir u /\
    m_idx (tr_meta u) i mod 64 = x /\ m_tag (tr_meta u) i = t_tag s i x.
Proof.
  induction 1 as [|h s r u s' a R IH HU C]; [intros []; reflexivity|].
  intros N. unfold tcycle in C. injection C as <- <-. unfold trainings. cbn [flat_map snd].
  destruct u as [u|].
  - cbn [update t_tag] in *. unfold apply in *. destruct (w_tag s u i) as [v|] eqn:W.
    + unfold zupd in *. destruct (Z.eqb_spec x (mi u i)) as [E|E].
      * unfold w_tag in W. destruct (allocs u) eqn:A; [|discriminate]. destruct (victim s u) as [y|]; [|discriminate].
        destruct (Nat.eqb_spec i y) as [->|]; [|discriminate]. injection W as <-.
        exists u. split; [now left|]. split; [|split; [|reflexivity]].
        -- unfold allocs, wrong, tm, tdir in A. intros X. rewrite X, xorb_nilpotent in A. discriminate.
        -- rewrite E. unfold mi, IDXM, tm. now rewrite land63.
      * destruct (IH N) as (v' & I & J). exists v'. split; [right; exact I|exact J].
    + destruct (IH N) as (v' & I & J). exists v'. split; [right; exact I|exact J].
  - destruct (IH N) as (v' & I & J). exists v'. split; [exact I|exact J].
Qed.
(** There is no valid bit: in the empty predictor a branch whose tag is 0 finds all
    four tables, and the longest one, never trained, is its provider. *)
Theorem c64_empty_entry_refuted :
  exists r, m_pcpn (predict tg0 r) = 3%nat /\ trainings [] = [] /\ treach [] tg0 /\ 0 <= rq_pc r < 2 ^ 30.
Proof.
  exists (PReq 0 (fun _ => false) (fun _ _ => 0) 0). split; [vm_compute; reflexivity|]. split; [reflexivity|].
  split; [constructor|cbn; lia].
Qed.

(** *** The correctors and the loop predictor *)
(** The multi-table corrector is inert: its counters stay at their middle and it
    never decides.  (It is trained only after it has decided.) *)
Theorem c64_corrector_inert h s : treach h s ->
  (forall t x, t_scl s t x = 32) /\ t_theta s = 18 /\ (forall a, In a (answers h) -> m_scu a = false) /\
  forall r, m_scu (predict s r) = false.
Proof.
  assert (Q: forall s, (forall t x, t_scl s t x = 32) -> t_theta s = 18 -> forall r, m_scu (predict s r) = false).
  { clear h s. intros s A T r. cbn [predict m_scu]. unfold scl_used.
    assert (E: scl_sum s r = 256) by (unfold scl_sum, SCL_N; cbn [seq fold_left]; rewrite !A; reflexivity).
    rewrite E, T. change ((18 + MARGIN) mod 2 ^ 16 <=? absdiff 256 SCL_BIAS) with false. apply andb_false_r. }
  assert (G: treach h s -> (forall t x, t_scl s t x = 32) /\ t_theta s = 18 /\ forall a, In a (answers h) -> m_scu a = false).
  { induction 1 as [|h s r u s' a R IH HU C]; [split; [reflexivity|split; [reflexivity|intros a []]]|].
    destruct IH as (A & T & B). unfold tcycle in C. injection C as <- <-. 
    assert (S: forall v, u = Some v -> m_scu (tr_meta v) = false).
    { intros v E. destruct (HU v E) as [(_ & _ & _ & _ & Z0 & _)|(b & I & _ & _ & _ & _ & [(Z0 & _)|(Z0 & _)])]; [exact Z0|exact Z0|].
      rewrite Z0. now apply B. }
    assert (BB: forall b, In b (answers ((match r with Some r0 => Some (predict s r0) | None => None end, u) :: h)) -> m_scu b = false).
    { intros b. unfold answers. cbn [flat_map fst]. intros I. apply in_app_or in I. destruct I as [I|I]; [|now apply B].
      destruct r as [r|]; [|contradiction]. destruct I as [<-|[]]. now apply Q. }
    destruct u as [v|]; [|split; [exact A|split; [exact T|exact BB]]].
    specialize (S v eq_refl). split; [|split; [|exact BB]].
    - intros t x. unfold update. cbn [t_scl]. unfold scl_next, tm. rewrite S. apply A.
    - unfold update. cbn [t_theta]. unfold theta_next, tm. rewrite S. exact T. }
  intros R. destruct (G R) as (A & T & B). split; [exact A|]. split; [exact T|]. split; [exact B|]. now apply Q.
Qed.
(** As shipped, the training does not bring back the loop predictor's fields, so
    only its entry 0 with tag 0 is ever written, with the outcomes of all branches;
    no other branch gets a loop prediction. *)
Theorem c64_loop_shipped_refuted h s : treach h s -> (forall u, In u (trainings h) -> m_lidx (tr_meta u) = 0 /\ m_ltag (tr_meta u) = 0) ->
  (forall x, x <> 0 -> le_valid (t_loop s x) = false) /\ le_tag (t_loop s 0) = 0 /\
  forall r, m_lu (predict s r) = true \/ m_lh (predict s r) = true -> m_lidx (predict s r) = 0 /\ m_ltag (predict s r) = 0.
Proof.
  assert (Q: forall s, (forall x, x <> 0 -> le_valid (t_loop s x) = false) -> le_tag (t_loop s 0) = 0 ->
            forall r, m_lu (predict s r) = true \/ m_lh (predict s r) = true -> m_lidx (predict s r) = 0 /\ m_ltag (predict s r) = 0).
  { intros s0 V T r. cbn [predict m_lu m_lh m_lidx m_ltag]. intros H.
    assert (H1: lhit s0 r = true).
    { destruct H as [H|H]; [|exact H]. unfold lused, lsure in H. destruct (lhit s0 r); [reflexivity|discriminate]. }
    unfold lhit, lent in H1. apply andb_true_iff in H1. destruct H1 as [H1 H2]. apply Z.eqb_eq in H2.
    destruct (Z.eq_dec (loop_idx (rq_pc r)) 0) as [E|E]; [|rewrite V in H1 by exact E; discriminate].
    split; [exact E|]. rewrite E, T in H2. now symmetry. }
  intros R HL.
  assert (G: (forall x, x <> 0 -> le_valid (t_loop s x) = false) /\ le_tag (t_loop s 0) = 0).
  { induction R as [|h s r u s' a R IH HU C]; [split; reflexivity|].
    assert (HL': forall u, In u (trainings h) -> m_lidx (tr_meta u) = 0 /\ m_ltag (tr_meta u) = 0).
    { intros v I. apply HL. unfold trainings. cbn [flat_map]. apply in_or_app. now right. }
    destruct (IH HL') as [V T]. unfold tcycle in C. injection C as <- <-. destruct u as [u|]; [|split; assumption].
    destruct (HL u) as [L1 L2]; [unfold trainings; cbn [flat_map snd]; now left|].
    unfold update. cbn [t_loop]. unfold tm. rewrite L1. change (Z.land 0 63) with 0. split.
    - intros x N. rewrite zupd_ne by exact N. now apply V.
    - rewrite zupd_eq. unfold loop_next, tm. rewrite L1, L2. change (Z.land 0 4095) with 0.
      unfold loop_enter. rewrite T. rewrite Z.eqb_refl. cbn [negb]. rewrite orb_false_r.
      destruct (negb (le_valid (t_loop s 0))); unfold loop_step; cbn [le_dir];
        repeat match goal with |- context [if ?c then _ else _] => destruct c end; cbn [le_tag]; try reflexivity; exact T. }
  destruct G as [V T]. split; [exact V|]. split; [exact T|]. now apply Q.
Qed.
(** With its fields brought back it does learn the number of iterations... *)
Lemma loop_takens e tag n : le_valid e = true -> le_tag e = tag -> le_dir e = true -> 0 <= le_cnt e -> le_cnt e + Z.of_nat n < 4095 ->
  trained_loop e tag (repeat true n) = LEntry true tag (le_cnt e + Z.of_nat n) (le_lim e) (le_conf e) (le_age e) true.
Proof.
  revert e. induction n as [|n IH]; intros e V T D P B.
  - cbn [repeat trained_loop fold_left]. destruct e as [v tg c l f a dd]. cbn in *. subst. now rewrite Z.add_0_r.
  - unfold trained_loop. cbn [repeat fold_left]. fold (trained_loop (loop_step (loop_enter e tag) true) tag (repeat true n)).
    assert (E: loop_step (loop_enter e tag) true = LEntry true tag (le_cnt e + 1) (le_lim e) (le_conf e) (le_age e) true).
    { unfold loop_enter. rewrite V, T, Z.eqb_refl. cbn [negb orb]. unfold loop_step. rewrite D, V, T. cbn [Bool.eqb].
      unfold sinc, LITER. replace (4095 <=? le_cnt e) with false by lia. reflexivity. }
    rewrite E, IH by (cbn [le_valid le_tag le_dir le_cnt]; first [reflexivity|lia]). cbn [le_cnt le_lim le_conf le_age]. f_equal. lia.
Qed.
Lemma loop_round e tag n : le_valid e = true -> le_tag e = tag -> le_dir e = true -> le_cnt e = 0 -> (n < 4095)%nat ->
  trained_loop e tag (repeat true n ++ [false]) =
  if negb (le_lim e =? 0) && (Z.of_nat n =? le_lim e)
  then LEntry true tag 0 (le_lim e) (sinc 7 (le_conf e)) 7 true
  else LEntry true tag 0 (Z.of_nat n) (sdec (le_conf e)) (le_age e) true.
Proof.
  intros V T D C B. unfold trained_loop. rewrite fold_left_app. fold (trained_loop e tag (repeat true n)).
  rewrite (loop_takens e tag n V T D) by lia. rewrite C. cbn [fold_left]. unfold loop_enter. cbn [le_valid le_tag]. rewrite Z.eqb_refl. cbn [negb orb].
  unfold loop_step. cbn [le_dir Bool.eqb le_lim le_cnt le_conf le_age le_valid le_tag]. rewrite Z.add_0_l. reflexivity.
Qed.
Theorem c64_loop_counts e tag n k : (1 <= n < 4095)%nat -> (6 <= k)%nat ->
  (le_valid e = false \/ le_tag e <> tag) ->
  exists c a, 5 <= c /\ trained_loop e tag (rounds n k) = LEntry true tag 0 (Z.of_nat n) c a true.
Proof.
  intros N K F.
  assert (FIRST: trained_loop e tag (repeat true n ++ [false]) = LEntry true tag 0 (Z.of_nat n) 0 7 true).
  { assert (E: trained_loop e tag (repeat true n ++ [false]) = trained_loop (LEntry true tag 0 0 0 7 true) tag (repeat true n ++ [false])).
    { destruct n as [|n]; [lia|]. unfold trained_loop. cbn [repeat app fold_left]. do 2 f_equal.
      unfold loop_enter. cbn [le_valid le_tag]. rewrite Z.eqb_refl. cbn [negb orb].
      replace (negb (le_valid e) || negb (le_tag e =? tag)) with true; [reflexivity|].
      symmetry. apply orb_true_iff. destruct F as [-> |F]; [now left|]. right. now rewrite (proj2 (Z.eqb_neq _ _) F). }
    rewrite E, loop_round by first [reflexivity|lia]. reflexivity. }
  assert (G: forall k, exists a, trained_loop e tag (rounds n (S k)) = LEntry true tag 0 (Z.of_nat n) (Z.min 7 (Z.of_nat k)) a true).
  { intros j. induction j as [|j [a IH]].
    - exists 7. unfold rounds. cbn [repeat concat]. rewrite app_nil_r. exact FIRST.
    - exists 7. replace (rounds n (S (S j))) with (rounds n (S j) ++ (repeat true n ++ [false])).
      + unfold trained_loop. rewrite fold_left_app. fold (trained_loop e tag (rounds n (S j))). rewrite IH.
        fold (trained_loop (LEntry true tag 0 (Z.of_nat n) (Z.min 7 (Z.of_nat j)) a true) tag (repeat true n ++ [false])).
        rewrite loop_round by first [reflexivity|lia]. cbn [le_lim le_conf le_age].
        replace (Z.of_nat n =? 0) with false by lia. rewrite Z.eqb_refl. cbn [negb andb]. f_equal.
        unfold sinc. destruct (Z.leb_spec 7 (Z.min 7 (Z.of_nat j))); lia.
      + unfold rounds. generalize (repeat true n ++ [false]) as l. intros l.
        assert (Q: forall m, concat (repeat l m) ++ l = l ++ concat (repeat l m)).
        { induction m as [|m IHm]; [cbn [repeat concat app]; now rewrite app_nil_r|].
          cbn [repeat concat]. rewrite <- app_assoc, IHm. reflexivity. }
        cbn [repeat concat]. rewrite <- !app_assoc. f_equal. apply Q. }
  destruct k as [|k]; [lia|]. destruct (G k) as [a E]. exists (Z.min 7 (Z.of_nat k)), a. split; [lia|exact E].
Qed.
(** ... but predicts the exit one iteration early, and not when it comes: after [c]
    of [n] iterations (all trained) it expects an exit exactly when [c + 1 = n]. *)
Theorem c64_loop_exit_refuted s r n c : (1 <= n < 4095)%nat -> (c <= n)%nat -> forall e k, (6 <= k)%nat ->
  le_valid e = false \/ le_tag e <> loop_tag (rq_pc r) ->
  t_loop s (loop_idx (rq_pc r)) = trained_loop e (loop_tag (rq_pc r)) (rounds n k ++ repeat true c) ->
  m_lp (predict s r) = negb (c + 1 =? n)%nat.
Proof.
  intros N C e k K F E. destruct (c64_loop_counts e (loop_tag (rq_pc r)) n k N K F) as (cf & a & CF & G).
  unfold trained_loop in E. rewrite fold_left_app in E. fold (trained_loop e (loop_tag (rq_pc r)) (rounds n k)) in E. rewrite G in E.
  fold (trained_loop (LEntry true (loop_tag (rq_pc r)) 0 (Z.of_nat n) cf a true) (loop_tag (rq_pc r)) (repeat true c)) in E.
  assert (E2: t_loop s (loop_idx (rq_pc r)) = LEntry true (loop_tag (rq_pc r)) (Z.of_nat c) (Z.of_nat n) cf a true).
  { destruct (Nat.eq_dec c 0) as [->|NC]; [exact E|]. rewrite loop_takens in E by (cbn [le_valid le_tag le_dir le_cnt]; first [reflexivity|lia]). exact E. }
  cbn [predict m_lp]. unfold lsure, lhit, lpred, lexit, lent. rewrite E2. cbn [le_valid le_tag le_conf le_lim le_cnt le_dir].
  rewrite Z.eqb_refl. replace (5 <=? cf) with true by lia. cbn [andb]. replace (Z.of_nat n =? 0) with false by lia. cbn [negb andb].
  destruct (Nat.eqb_spec (c + 1) n) as [X|X].
  - replace (Z.of_nat c + 1 =? Z.of_nat n) with true by lia. reflexivity.
  - replace (Z.of_nat c + 1 =? Z.of_nat n) with false by lia. reflexivity.
Qed.

(** *** Examples *)
(** A branch taken every time, trained as shipped, from the empty predictor: the
    predictions made before each training. *)
Definition c64_rq : preq := PReq 4660 (fun _ => true) (fun k i => Z.of_nat (k + i)) 77.
Fixpoint c64_run (n : nat) (s : tg) : list bool :=
  match n with O => [] | S n => m_pred (predict s c64_rq) :: c64_run n (update s (Train (rq_pc c64_rq) true (shipped (predict s c64_rq)))) end.
Example c64_learns_ex : c64_run 5 tg0 = [false; true; true; true; true].
Proof. vm_compute. reflexivity. Qed.
Example c64_learns_reached : exists s', lessons c64_rq true shipped 8 tg0 s' /\ in_range tg0.
Proof. eexists. split; [do 8 eapply ls_own; apply ls_none|apply tg0_range]. Qed.
Example c64_tag_origin_ex : t_tag (update tg0 (Train (rq_pc c64_rq) true (shipped (predict tg0 c64_rq)))) 0 (tn_idx c64_rq 0) = tn_tag c64_rq 0
  /\ tn_tag c64_rq 0 <> 0.
Proof. split; [vm_compute; reflexivity|vm_compute; discriminate]. Qed.
Example c64_loop_ex : map (fun c => m_lp (predict (Tg (t_lfsr tg0) 0 7 (t_base tg0) (t_tag tg0) (t_cnt tg0) (t_use tg0) (t_sc tg0) (t_scl tg0) 18
    (fun _ => trained_loop (LEntry false 0 0 0 0 0 false) (loop_tag 4660) (rounds 3 6 ++ repeat true c))) c64_rq)) [0; 1; 2; 3]%nat
  = [true; true; false; true].
Proof. vm_compute. reflexivity. Qed.

Print Assumptions c64_ranges.
Print Assumptions c64_lfsr_alive.
Print Assumptions c64_provider.
Print Assumptions c64_direction.
Print Assumptions c64_written.
Print Assumptions c64_trained.
Print Assumptions c64_learns.
Print Assumptions c64_tag_origin.
Print Assumptions c64_empty_entry_refuted.
Print Assumptions c64_corrector_inert.
Print Assumptions c64_loop_shipped_refuted.
Print Assumptions c64_loop_counts.
Print Assumptions c64_loop_exit_refuted.
