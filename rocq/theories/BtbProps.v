(** C66: the target predictor. *)
From Verif Require Import Base BaseLemmas BpModel BtbModel BtbSpec BtbProofs.
From Coq Require Import Lia.
Local Open Scope Z_scope.

(** *** Which writes the tables have seen *)
Definition btb_writes (h : list btr) : list (Z * Z * Z) :=
  map (fun u => (btb_idx (br_pc u), btb_tag (br_pc u), br_tgt u)) (filter jumped h).
Fixpoint tc_writes (h : list btr) : list (Z * Z * Z) :=
  match h with [] => [] | u :: h => if jumped_ind u then (r_wi (after h) u, tc_tag (br_pc u), br_tgt u) :: tc_writes h else tc_writes h end.
Fixpoint pre_writes (h : list btr) : list (Z * Z * Z) :=
  match h with [] => [] | u :: h => if jumped_ind u then (r_pi (after h) u, tc_tag (br_pc u), br_tgt u) :: pre_writes h else pre_writes h end.

Lemma jumped_writes u : 0 <= br_type u <= 5 -> br_dir u && writes_btb u = jumped u.
Proof.
  intros R. unfold jumped, writes_btb, is_direct, BR_DIRECT, BR_CALL, BR_JAL, BR_RET, BR_IDIRECT, BR_NONCTL.
  destruct (br_dir u); [cbn [andb]|reflexivity].
  assert (C: br_type u = 0 \/ br_type u = 1 \/ br_type u = 2 \/ br_type u = 3 \/ br_type u = 4 \/ br_type u = 5) by lia.
  destruct C as [-> | [-> | [-> | [-> | [-> | -> ] ] ] ] ]; reflexivity.
Qed.
Lemma btb_written h : known h -> written BTBW (btb_writes h) (bt_btb (after h)).
Proof.
  induction h as [|u h IH]; intros K; [constructor|]. cbn [after fold_right]. fold (after h). unfold btb_train. cbn [bt_btb].
  rewrite jumped_writes by (apply K; now left). unfold btb_writes. cbn [filter].
  assert (IH': written BTBW (btb_writes h) (bt_btb (after h))) by (apply IH; intros v I; apply K; now right).
  destruct (jumped u); [|exact IH']. cbn [map]. now constructor.
Qed.
Lemma tc_written h : written TCW (tc_writes h) (bt_tc (after h)).
Proof.
  induction h as [|u h IH]; [constructor|]. cbn [after fold_right tc_writes]. fold (after h). unfold btb_train. cbn [bt_tc].
  change (r_tc u) with (jumped_ind u). destruct (jumped_ind u); [now constructor|exact IH].
Qed.
Lemma pre_written h : written TCW (pre_writes h) (bt_pre (after h)).
Proof.
  induction h as [|u h IH]; [constructor|]. cbn [after fold_right pre_writes]. fold (after h). unfold btb_train. cbn [bt_pre].
  change (r_tc u) with (jumped_ind u). destruct (jumped_ind u); [now constructor|exact IH].
Qed.
Lemma latest_last h p : latest (btb_writes h) (btb_idx p) (btb_tag p) = last_target h p.
Proof.
  unfold latest, last_target, btb_writes. induction h as [|u h IH]; [reflexivity|]. cbn [filter find].
  destruct (jumped u); cbn [andb]; [|exact IH]. cbn [map find fst snd]. unfold same_place. destruct (_ && _); [reflexivity|exact IH].
Qed.
Lemma tc_source h i k a : latest (tc_writes h) i k = Some a -> exists u, In u h /\ jumped_ind u = true /\ tc_tag (br_pc u) = k /\ br_tgt u = a.
Proof.
  unfold latest. induction h as [|u h IH]; [discriminate|]. cbn [tc_writes].
  assert (G: (exists v, In v h /\ jumped_ind v = true /\ tc_tag (br_pc v) = k /\ br_tgt v = a) ->
             exists v, In v (u :: h) /\ jumped_ind v = true /\ tc_tag (br_pc v) = k /\ br_tgt v = a) by (intros (v & I & J); exists v; split; [now right|exact J]).
  destruct (jumped_ind u) eqn:J; [|intros H; apply G, IH, H]. cbn [find fst snd].
  destruct ((_ =? i) && (tc_tag (br_pc u) =? k)) eqn:M; [|intros H; apply G, IH, H].
  intros H. injection H as H. apply andb_true_iff in M. destruct M as [_ M]. apply Z.eqb_eq in M. exists u. split; [now left|]. now repeat split.
Qed.
Lemma pre_source h i k a : latest (pre_writes h) i k = Some a -> exists u, In u h /\ jumped_ind u = true /\ tc_tag (br_pc u) = k /\ br_tgt u = a.
Proof.
  unfold latest. induction h as [|u h IH]; [discriminate|]. cbn [pre_writes].
  assert (G: (exists v, In v h /\ jumped_ind v = true /\ tc_tag (br_pc v) = k /\ br_tgt v = a) ->
             exists v, In v (u :: h) /\ jumped_ind v = true /\ tc_tag (br_pc v) = k /\ br_tgt v = a) by (intros (v & I & J); exists v; split; [now right|exact J]).
  destruct (jumped_ind u) eqn:J; [|intros H; apply G, IH, H]. cbn [find fst snd].
  destruct ((_ =? i) && (tc_tag (br_pc u) =? k)) eqn:M; [|intros H; apply G, IH, H].
  intros H. injection H as H. apply andb_true_iff in M. destruct M as [_ M]. apply Z.eqb_eq in M. exists u. split; [now left|]. now repeat split.
Qed.
Lemma pos4 : (0 < BTBW)%nat. Proof. unfold BTBW. lia. Qed.
Lemma pos2 : (0 < TCW)%nat. Proof. unfold TCW. lia. Qed.

Lemma direct_look s p ty : is_direct ty = true ->
  btb_predict s p ty = match look BTBW (bt_btb s (btb_idx p)) (btb_tag p) with Some c => c | None => w32 (p + 4) end.
Proof.
  intros D. unfold btb_predict. rewrite D. destruct (Z.eqb_spec ty BR_IDIRECT) as [->|]; [discriminate D|reflexivity].
Qed.

(** *** Direct transfers, calls and returns *)
(** The target given is that of the latest taken transfer at this place, or the
    fall-back. *)
Theorem c66_direct_origin h p ty : known h -> is_direct ty = true ->
  last_target h p = Some (btb_predict (after h) p ty) \/ btb_predict (after h) p ty = w32 (p + 4).
Proof.
  intros K D. rewrite direct_look by exact D. destruct (look _ _ _) as [c|] eqn:E; [left|now right].
  rewrite <- latest_last. exact (written_latest BTBW pos4 _ _ _ _ _ (btb_written h K) E).
Qed.
(** With at most four branches in a set nothing is forgotten. *)
Theorem c66_direct_exact h p ty qs : known h -> is_direct ty = true -> (length qs <= 4)%nat ->
  (forall u, In u h -> jumped u = true -> btb_idx (br_pc u) = btb_idx p -> exists q, In q qs /\ same_place (br_pc u) q = true) ->
  btb_predict (after h) p ty = match last_target h p with Some a => a | None => w32 (p + 4) end.
Proof.
  intros K D L H. rewrite direct_look by exact D.
  rewrite (written_exact BTBW pos4 _ _ _ _ (map btb_tag qs) (btb_written h K)); [now rewrite latest_last|now rewrite map_length|].
  intros k v I. unfold btb_writes in I. apply in_map_iff in I. destruct I as (u & E & I). injection E as E1 E2 _.
  apply filter_In in I. destruct I as [I J]. destruct (H u I J E1) as (q & Q & S). apply in_map_iff. exists q. split; [|exact Q].
  apply andb_true_iff in S. destruct S as [_ S]. apply Z.eqb_eq in S. congruence.
Qed.
(** A taken transfer is remembered at once. *)
Theorem c66_learned h u p ty : known (u :: h) -> jumped u = true -> same_place (br_pc u) p = true -> is_direct ty = true ->
  btb_predict (after (u :: h)) p ty = br_tgt u.
Proof.
  intros K J S D. rewrite direct_look by exact D. apply andb_true_iff in S. destruct S as [S1 S2]. apply Z.eqb_eq in S1, S2.
  cbn [after fold_right]. fold (after h). unfold btb_train. cbn [bt_btb]. rewrite jumped_writes, J by (apply K; now left).
  rewrite <- S1, <- S2. rewrite wr_look_same; [reflexivity|exact pos4|].
  apply (written_one BTBW pos4 (btb_writes h)), btb_written. intros v I. apply K. now right.
Qed.
(** Branches within 256 KiB (of one bank) do not share a place. *)
Theorem c66_told_apart p q : 0 <= p -> 0 <= q -> p / 2 ^ 16 = q / 2 ^ 16 -> same_place p q = true -> p / 4 = q / 4.
Proof.
  intros P Q H S. apply andb_true_iff in S. destruct S as [S1 S2]. apply Z.eqb_eq in S1, S2.
  unfold btb_tag in S2. change 255 with (Z.ones 8) in S2. rewrite !Z.land_ones, !Z.shiftr_div_pow2 in S2 by lia.
  change (2 ^ 2) with 4 in S2. change (2 ^ 6) with 64 in S2. change (2 ^ 8) with 256 in S2. change (2 ^ 16) with 65536 in H.
  unfold btb_idx, hash in S1. rewrite !(Z.shiftr_div_pow2 _ 2) in S1 by lia. change (2 ^ 2) with 4 in S1.
  assert (W: (p / 4) / 64 = (q / 4) / 64).
  { assert (A: ((p / 4) / 64) / 256 = ((q / 4) / 64) / 256) by (rewrite !Z.div_div by lia; exact H).
    rewrite (Z.div_mod ((p / 4) / 64) 256), (Z.div_mod ((q / 4) / 64) 256) by lia. now rewrite A, S2. }
  set (x := p / 4) in *. set (y := q / 4) in *.
  assert (SH: forall k, 6 <= k -> Z.shiftr x k = Z.shiftr y k).
  { intros k Hk. replace k with (6 + (k - 6)) by lia. rewrite <- !Z.shiftr_shiftr by lia. f_equal.
    rewrite !Z.shiftr_div_pow2 by lia. exact W. }
  rewrite (SH 6), (SH (2 * 6)), (SH (3 * 6)) in S1 by lia.
  assert (M: x mod 64 = y mod 64).
  { change 64 with (2 ^ 6). rewrite <- !Z.land_ones by lia. apply Z.bits_inj'. intros i Hi.
    apply (f_equal (fun z => Z.testbit z i)) in S1. change 63 with (Z.ones 6) in S1.
    rewrite !Z.land_spec, !Z.lxor_spec in S1. rewrite !Z.land_spec. destruct (Z.testbit (Z.ones 6) i); [|now rewrite !andb_false_r].
    rewrite !andb_true_r in *. destruct (Z.testbit x i), (Z.testbit y i); try reflexivity; exfalso;
      destruct (Z.testbit (Z.shiftr y 6) i), (Z.testbit (Z.shiftr y (2 * 6)) i), (Z.testbit (Z.shiftr y (3 * 6)) i), (Z.testbit 2654435769 i); discriminate S1. }
  rewrite (Z.div_mod x 64), (Z.div_mod y 64) by lia. now rewrite W, M.
Qed.

(** *** Ranges, replacement *)
Definition ranges (s : btb) : Prop :=
  (forall i w, 0 <= be_use (bt_btb s i w) <= 7) /\ (forall i w, 0 <= be_use (bt_tc s i w) <= 7) /\
  (forall i w, 0 <= be_use (bt_pre s i w) <= 7) /\ (forall i, 0 <= bt_mode s i <= 6) /\ (forall i, 0 <= bt_bht s i < 256).
Lemma use_rng n e k v : (forall w, 0 <= be_use (e w) <= 7) -> 0 <= as_use n e k v <= 7.
Proof.
  intros H. unfold as_use. destruct (as_hit n e k) as [w|]; [|lia]. pose proof (H w). unfold use_next.
  destruct (_ =? v); [destruct (Z.ltb_spec (be_use (e w)) 7)|destruct (Z.ltb_spec 0 (be_use (e w)))]; lia.
Qed.
Lemma write_rng n t i k v u : (forall i w, 0 <= be_use (t i w) <= 7) -> 0 <= u <= 7 -> forall j w, 0 <= be_use (as_write n t i k v u j w) <= 7.
Proof. intros H U j w. unfold as_write. destruct (_ && _); [exact U|apply H]. Qed.
Lemma land255 x : 0 <= Z.land x 255 < 256.
Proof. change 255 with (Z.ones 8). rewrite Z.land_ones by lia. change (2 ^ 8) with 256. apply Z.mod_pos_bound. lia. Qed.
Theorem c66_ranges h : ranges (after h).
Proof.
  induction h as [|u h (A & B & C & M & H)]; [repeat split; cbn; lia|]. cbn [after fold_right]. fold (after h). set (s := after h) in *.
  unfold btb_train, ranges. cbn [bt_btb bt_tc bt_pre bt_mode bt_bht]. split; [|split; [|split; [|split]]].
  - destruct (_ && _); [|exact A]. apply write_rng; [exact A|]. unfold btb_use. destruct (_ =? _); [lia|]. apply use_rng, A.
  - destruct (r_tc u); [|exact B]. apply write_rng; [exact B|]. apply use_rng, B.
  - destruct (r_tc u); [|exact C]. apply write_rng; [exact C|]. apply use_rng, C.
  - intros i. destruct (_ && _); [|apply M]. pose proof (M (r_bi u)). unfold mode_next.
    destruct (says u (bt_pre s (r_pi s u))); [destruct (Z.ltb_spec (bt_mode s (r_bi u)) 6)|destruct (Z.ltb_spec 0 (bt_mode s (r_bi u)))]; lia.
  - intros i. destruct (_ && _); [|apply H]. unfold r_nbht. destruct (negb _); [|apply H]. unfold bht_next. destruct (_ =? BR_IDIRECT); apply land255.
Qed.
(** A branch is forgotten only for another one of its set, when all four ways are
    in use and none is less useful. *)
Theorem c66_evicted h u p a : known (u :: h) ->
  let t := bt_btb (after h) (btb_idx p) in
  look BTBW t (btb_tag p) = Some a -> look BTBW (bt_btb (after (u :: h)) (btb_idx p)) (btb_tag p) = None ->
  jumped u = true /\ btb_idx (br_pc u) = btb_idx p /\
  exists w, (w < 4)%nat /\ be_tag (t w) = btb_tag p /\
    forall w', (w' < 4)%nat -> be_valid (t w') = true /\ be_tag (t w') <> btb_tag (br_pc u) /\ be_use (t w) <= be_use (t w').
Proof.
  intros K t HL HN. assert (K': known h) by (intros v I; apply K; now right).
  pose proof (written_one BTBW pos4 _ _ (btb_written h K')) as U.
  cbn [after fold_right] in HN. fold (after h) in HN. unfold btb_train in HN. cbn [bt_btb] in HN.
  rewrite jumped_writes in HN by (apply K; now left). destruct (jumped u) eqn:J; [|fold t in HN; congruence].
  destruct (Z.eq_dec (btb_idx p) (btb_idx (br_pc u))) as [E|N]; [|rewrite wr_other in HN by exact N; fold t in HN; congruence].
  split; [reflexivity|]. split; [now symmetry|].
  destruct (Z.eq_dec (btb_tag p) (btb_tag (br_pc u))) as [ET|NT]; [rewrite E, ET, wr_look_same in HN by (exact pos4 || exact U); discriminate|].
  destruct (look_some BTBW pos4 _ _ _ HL) as (w & L & M & _).
  destruct (Nat.eq_dec w (as_way BTBW t (btb_tag (br_pc u)))) as [EW|NW].
  - rewrite EW in M. destruct (way_other BTBW pos4 _ _ _ M NT) as [HH F]. exists w. split; [exact L|]. rewrite EW. split; [exact (proj2 M)|].
    intros w' L'. split; [exact (F w' L')|]. split; [intros X; apply (hit_none BTBW pos4 t _ w' HH L'); split; [exact (F w' L')|exact X]|].
    unfold as_way. rewrite HH. apply victim_least; [exact pos4| |exact L']. intros w0 L0. split; [exact (F w0 L0)|].
    apply (proj1 (c66_ranges h)).
  - exfalso. unfold t in NW. rewrite E in NW. unfold t in M. rewrite E in M, HN.
    assert (M2: forall v x, mat (as_write BTBW (bt_btb (after h)) (btb_idx (br_pc u)) (btb_tag (br_pc u)) v x (btb_idx (br_pc u))) w (btb_tag p)).
    { intros v x. unfold mat. rewrite wr_at. rewrite (proj2 (Nat.eqb_neq _ _) NW). exact M. }
    rewrite (look_is BTBW pos4 _ _ w) in HN; [discriminate|apply wr_one; [exact pos4|exact U]|exact L|apply M2].
Qed.

(** *** Indirect jumps *)
Lemma indirect_cases h p : let s := after h in let i := tc_idx p (bt_bht s (bht_idx p)) in
  let r := btb_predict s p BR_IDIRECT in
  (look TCW (bt_pre s i) (tc_tag p) = Some r /\ (look TCW (bt_tc s i) (tc_tag p) = None \/ 3 <= bt_mode s (bht_idx p))) \/
  look TCW (bt_tc s i) (tc_tag p) = Some r \/
  (look TCW (bt_tc s i) (tc_tag p) = None /\ look TCW (bt_pre s i) (tc_tag p) = None /\
   (look BTBW (bt_btb s (btb_idx p)) (btb_tag p) = Some r \/ r = w32 (p + 4))).
Proof.
  intros s i r. unfold r, btb_predict. rewrite Z.eqb_refl. fold i.
  destruct (look TCW (bt_pre s i) (tc_tag p)) as [a|], (look TCW (bt_tc s i) (tc_tag p)) as [b|].
  - destruct (Z.leb_spec 3 (bt_mode s (bht_idx p))); [left; split; [reflexivity|now right]|right; now left].
  - left. split; [reflexivity|now left].
  - right; now left.
  - right; right. split; [reflexivity|]. split; [reflexivity|]. destruct (look BTBW _ _) as [c|]; [now left|now right].
Qed.
(** The target given was taken before by an indirect jump with this tag, or is the
    last one of the place, or the fall-back. *)
Theorem c66_indirect_origin h p : known h -> let r := btb_predict (after h) p BR_IDIRECT in
  (exists u, In u h /\ jumped_ind u = true /\ tc_tag (br_pc u) = tc_tag p /\ br_tgt u = r) \/
  last_target h p = Some r \/ r = w32 (p + 4).
Proof.
  intros K r. destruct (indirect_cases h p) as [[A _]|[A|(_ & _ & [A|A])]].
  - left. exact (pre_source _ _ _ _ (written_latest TCW pos2 _ _ _ _ _ (pre_written h) A)).
  - left. exact (tc_source _ _ _ _ (written_latest TCW pos2 _ _ _ _ _ (tc_written h) A)).
  - right; left. rewrite <- latest_last. exact (written_latest BTBW pos4 _ _ _ _ _ (btb_written h K) A).
  - now right; right.
Qed.
(** Straight after an indirect jump the same target is given again, unless the other
    cache, preferred, holds the one that followed this history before. *)
Theorem c66_indirect_again h u : jumped_ind u = true ->
  let p := br_pc u in let s := after (u :: h) in let r := btb_predict s p BR_IDIRECT in
  r = br_tgt u \/
  (3 <= bt_mode s (bht_idx p) /\ exists v, In v h /\ jumped_ind v = true /\ tc_tag (br_pc v) = tc_tag p /\ br_tgt v = r).
Proof.
  intros J p s r.
  assert (T: look TCW (bt_tc s (tc_idx p (bt_bht s (bht_idx p)))) (tc_tag p) = Some (br_tgt u)).
  { unfold s. cbn [after fold_right]. fold (after h). unfold btb_train. cbn [bt_tc bt_bht]. change (r_tc u) with (jumped_ind u). rewrite J.
    assert (NC: br_type u =? BR_NONCTL = false).
    { apply andb_true_iff in J. destruct J as [_ J]. apply Z.eqb_eq in J. now rewrite J. }
    rewrite NC. unfold r_bi. fold p. rewrite Z.eqb_refl. cbn [negb andb]. change (tc_idx p (r_nbht (after h) u)) with (r_wi (after h) u).
    change (r_tt u) with (tc_tag p). apply wr_look_same; [exact pos2|]. exact (written_one TCW pos2 _ _ (tc_written h)). }
  destruct (indirect_cases (u :: h) p) as [[A B]|[A|(A & _)]]; fold s in A; try fold s in B.
  - destruct B as [B|B]; [rewrite T in B; discriminate|]. fold r in A.
    destruct (pre_source _ _ _ _ (written_latest TCW pos2 _ _ _ _ _ (pre_written (u :: h)) A)) as (v & [<-|I] & V1 & V2 & V3); [now left|].
    right. split; [exact B|]. now exists v.
  - left. fold r in A. rewrite T in A. now injection A.
  - rewrite T in A. discriminate.
Qed.
(** A jump that always goes to [a] is predicted so from its second time on, and
    never to another jump's target afterwards. *)
Theorem c66_one_target h u a : jumped_ind u = true -> br_tgt u = a ->
  (forall v, In v h -> jumped_ind v = true -> tc_tag (br_pc v) = tc_tag (br_pc u) -> br_tgt v = a) ->
  btb_predict (after (u :: h)) (br_pc u) BR_IDIRECT = a.
Proof.
  intros J E H. destruct (c66_indirect_again h u J) as [R|(_ & v & I & V1 & V2 & V3)]; [now rewrite R|].
  rewrite <- V3. now apply H.
Qed.
Theorem c66_one_target_later h p a : known h ->
  (forall v, In v h -> jumped v = true -> tc_tag (br_pc v) = tc_tag p \/ same_place (br_pc v) p = true -> br_tgt v = a) ->
  btb_predict (after h) p BR_IDIRECT = a \/ btb_predict (after h) p BR_IDIRECT = w32 (p + 4).
Proof.
  intros K H. destruct (c66_indirect_origin h p K) as [(v & I & V1 & V2 & V3)|[L|F]]; [left|left|now right].
  - rewrite <- V3. apply H; [exact I| |now left]. unfold jumped. apply andb_true_iff in V1. destruct V1 as [D T]. apply Z.eqb_eq in T.
    rewrite D, T. reflexivity.
  - unfold last_target in L. destruct (find _ h) as [v|] eqn:F; [|discriminate]. injection L as L. rewrite <- L.
    apply find_some in F. destruct F as [I F]. apply andb_true_iff in F. destruct F as [F1 F2]. apply H; [exact I|exact F1|now right].
Qed.
(** The choice between the caches moves towards the one that was right. *)
Theorem c66_choice s u : let p := br_pc u in let i := tc_idx p (bt_bht s (bht_idx p)) in
  let right_tc := look TCW (bt_tc s i) (tc_tag p) = Some (br_tgt u) in
  let right_pre := look TCW (bt_pre s i) (tc_tag p) = Some (br_tgt u) in
  let m := bt_mode s (bht_idx p) in let m' := bt_mode (btb_train s u) (bht_idx p) in
  (jumped_ind u = false -> m' = m) /\ (right_tc <-> right_pre -> m' = m) /\
  (jumped_ind u = true -> right_pre -> ~ right_tc -> m <= 6 -> m' = Z.min 6 (m + 1)) /\
  (jumped_ind u = true -> right_tc -> ~ right_pre -> 0 <= m -> m' = Z.max 0 (m - 1)) /\
  forall j, j <> bht_idx p -> bt_mode (btb_train s u) j = bt_mode s j.
Proof.
  intros p i right_tc right_pre m m'.
  assert (S: forall e, says u e = true <-> look TCW e (tc_tag p) = Some (br_tgt u)).
  { intros e. unfold says. change (r_tt u) with (tc_tag p). destruct (look TCW e (tc_tag p)) as [a|].
    - rewrite Z.eqb_eq. split; [now intros ->|now intros [= ->]].
    - split; discriminate. }
  assert (E: m' = if jumped_ind u && xorb (says u (bt_tc s i)) (says u (bt_pre s i)) then mode_next m (says u (bt_pre s i)) else m).
  { unfold m', btb_train. cbn [bt_mode]. unfold r_bi. fold p. rewrite Z.eqb_refl, andb_true_r. reflexivity. }
  pose proof (S (bt_tc s i)) as ST. pose proof (S (bt_pre s i)) as SP. fold right_tc in ST. fold right_pre in SP.
  assert (NT: ~ right_tc -> says u (bt_tc s i) = false) by (intros X; destruct (says u (bt_tc s i)); [destruct (X (proj1 ST eq_refl))|reflexivity]).
  assert (NP: ~ right_pre -> says u (bt_pre s i) = false) by (intros X; destruct (says u (bt_pre s i)); [destruct (X (proj1 SP eq_refl))|reflexivity]).
  split; [|split; [|split; [|split]]].
  - intros J. now rewrite E, J.
  - intros Q. replace (says u (bt_tc s i)) with (says u (bt_pre s i)) in E; [now rewrite xorb_nilpotent, andb_false_r in E|].
    destruct (says u (bt_tc s i)), (says u (bt_pre s i)); try reflexivity.
    + apply SP, Q, ST. reflexivity.
    + symmetry. apply ST, Q, SP. reflexivity.
  - intros J P N L. rewrite E, J, (NT N), (proj2 SP P). cbn [andb xorb]. unfold mode_next. destruct (Z.ltb_spec m 6); lia.
  - intros J T N L. rewrite E, J, (NP N), (proj2 ST T). cbn [andb xorb]. unfold mode_next. destruct (Z.ltb_spec 0 m); lia.
  - intros j N. unfold btb_train. cbn [bt_mode]. unfold r_bi. fold p. rewrite (proj2 (Z.eqb_neq _ _) N), andb_false_r. reflexivity.
Qed.

(** *** What does not hold *)
(** The history of an indirect jump is a bijection of the one before: a difference
    in the past is never forgotten, however many equal targets follow. *)
Lemma land_lxor a b c : Z.land (Z.lxor a b) c = Z.lxor (Z.land a c) (Z.land b c).
Proof. apply Z.bits_inj'. intros i _. rewrite !Z.land_spec, !Z.lxor_spec, !Z.land_spec. now destruct (Z.testbit a i), (Z.testbit b i), (Z.testbit c i). Qed.
Definition hist_mix (b : Z) : Z := Z.land (Z.lxor (Z.lxor b (Z.shiftl b 5)) (Z.shiftr b 2)) 255.
Lemma hist_mix_8 b : 0 <= b < 256 -> Nat.iter 8 hist_mix b = b.
Proof.
  intros R. assert (A: forallb (fun b => Nat.iter 8 hist_mix b =? b) (map Z.of_nat (seq 0 256)) = true) by (vm_compute; reflexivity).
  rewrite forallb_forall in A. apply Z.eqb_eq, A, in_map_iff. exists (Z.to_nat b). split; [lia|]. apply in_seq. lia.
Qed.
Lemma hist_mix_inj a b : 0 <= a < 256 -> 0 <= b < 256 -> hist_mix a = hist_mix b -> a = b.
Proof. intros A B E. rewrite <- (hist_mix_8 a A), <- (hist_mix_8 b B). cbn [Nat.iter nat_rect]. now rewrite E. Qed.
Lemma lxor_cancel x y k : Z.lxor x k = Z.lxor y k -> x = y.
Proof. intros E. apply (f_equal (fun z => Z.lxor z k)) in E. now rewrite !Z.lxor_assoc, !Z.lxor_nilpotent, !Z.lxor_0_r in E. Qed.
Definition hist_run (b : Z) (ts : list Z) : Z := fold_left (fun b t => bht_next b BR_IDIRECT true t) ts b.
Theorem c66_history_forgets_refuted ts b b' : 0 <= b < 256 -> 0 <= b' < 256 -> b <> b' -> hist_run b ts <> hist_run b' ts.
Proof.
  revert b b'. induction ts as [|t ts IH]; intros b b' B B' N; [exact N|]. unfold hist_run. cbn [fold_left].
  apply IH; try apply land255. intros E. apply N, (hist_mix_inj b b' B B'). unfold bht_next in E.
  rewrite Z.eqb_refl in E. rewrite !(land_lxor _ 2654435769) in E. apply lxor_cancel in E. rewrite !(land_lxor _ (Z.lxor (Z.lxor _ _) _)) in E.
  exact (lxor_cancel _ _ _ E).
Qed.
(** Without an entry the next instruction is meant, but the bank pc is used: the
    address given is a quarter of it. *)
Theorem c66_fallthrough_refuted pc ty : 0 < pc < 2 ^ 32 -> pc mod 4 = 0 ->
  btb_predict btb0 (bank_pc pc) ty = pc / 4 + 4 /\ btb_predict btb0 (bank_pc pc) ty <> pc + 4.
Proof.
  intros R M. assert (E: btb_predict btb0 (bank_pc pc) ty = w32 (bank_pc pc + 4)).
  { unfold btb_predict. cbn [btb0 bt_btb bt_tc bt_pre bt_bht bt_mode].
    assert (L: forall n k, (0 < n)%nat -> look n (fun _ => bent0) k = None).
    { intros n k P. apply look_none; [exact P|]. intros w _ [X _]. discriminate X. }
    rewrite !L by (exact pos4 || exact pos2). destruct (ty =? BR_IDIRECT); [reflexivity|]. now destruct (is_direct ty). }
  rewrite E. unfold bank_pc. rewrite Z.shiftr_div_pow2 by lia. change (2 ^ 2) with 4. change (2 ^ 32) with 4294967296 in R.
  pose proof (Z.div_mod pc 4 ltac:(lia)). unfold w32, wrap. change (2 ^ 32) with 4294967296. rewrite Z.mod_small by lia. split; lia.
Qed.

Definition c66_p : Z := 536870976.
Definition c66_alt (n : nat) : list btr := map (fun i => Btr c66_p (if Nat.even i then 2147487744 else 2147491840) BR_IDIRECT true) (rev (seq 0 n)).
(** The predictor as far as it is read *)
Definition same (s s' : btb) : Prop := forall i, 0 <= i < 64 ->
  (forall w, (w < BTBW)%nat -> bt_btb s i w = bt_btb s' i w) /\ (forall w, (w < TCW)%nat -> bt_tc s i w = bt_tc s' i w) /\
  (forall w, (w < TCW)%nat -> bt_pre s i w = bt_pre s' i w) /\ bt_bht s i = bt_bht s' i /\ bt_mode s i = bt_mode s' i.
Definition sameb (s s' : btb) : bool :=
  let eqe a b := Bool.eqb (be_valid a) (be_valid b) && (be_tag a =? be_tag b) && (be_tgt a =? be_tgt b) && (be_use a =? be_use b) in
  forallb (fun i => let i := Z.of_nat i in
    forallb (fun w => eqe (bt_btb s i w) (bt_btb s' i w)) (seq 0 BTBW) && forallb (fun w => eqe (bt_tc s i w) (bt_tc s' i w)) (seq 0 TCW) &&
    forallb (fun w => eqe (bt_pre s i w) (bt_pre s' i w)) (seq 0 TCW) && (bt_bht s i =? bt_bht s' i) && (bt_mode s i =? bt_mode s' i)) (seq 0 64).
Lemma sameb_same s s' : sameb s s' = true -> same s s'.
Proof.
  intros H i R. unfold sameb in H. rewrite forallb_forall in H. specialize (H (Z.to_nat i)). rewrite Z2Nat.id in H by lia.
  specialize (H ltac:(apply in_seq; lia)). cbv zeta in H. rewrite !andb_true_iff in H. destruct H as ((((A & B) & C) & D) & E).
  assert (Q: forall a b, Bool.eqb (be_valid a) (be_valid b) && (be_tag a =? be_tag b) && (be_tgt a =? be_tgt b) && (be_use a =? be_use b) = true -> a = b).
  { intros [a1 a2 a3 a4] [b1 b2 b3 b4] X. cbn [be_valid be_tag be_tgt be_use] in X. rewrite !andb_true_iff in X.
    destruct X as (((X1 & X2) & X3) & X4). apply Bool.eqb_prop in X1. apply Z.eqb_eq in X2, X3, X4. now subst. }
  rewrite forallb_forall in A, B, C. apply Z.eqb_eq in D, E. repeat split; try assumption;
    intros w L; apply Q; [apply A|apply B|apply C]; apply in_seq; unfold BTBW, TCW in *; lia.
Qed.
Lemma find_ext {A} (f g : A -> bool) l : (forall x, In x l -> f x = g x) -> find f l = find g l.
Proof.
  induction l as [|x l IH]; intros H; [reflexivity|]. cbn [find]. rewrite (H x) by now left. destruct (g x); [reflexivity|].
  apply IH. intros y I. apply H. now right.
Qed.
Lemma fold_ext {A B} (f g : A -> B -> A) l a : (forall x y, In y l -> f x y = g x y) -> fold_left f l a = fold_left g l a.
Proof.
  revert a. induction l as [|x l IH]; intros a H; [reflexivity|]. cbn [fold_left]. rewrite (H a x) by now left.
  apply IH. intros z y I. apply H. now right.
Qed.
Section EXT.
  Variables (n : nat) (e e' : nat -> bent).
  Hypothesis npos : (0 < n)%nat.
  Hypothesis E : forall w, (w < n)%nat -> e w = e' w.
  Lemma hit_ext k : as_hit n e k = as_hit n e' k.
  Proof. apply find_ext. intros w I. apply in_seq in I. now rewrite E by lia. Qed.
  Lemma look_ext k : look n e k = look n e' k.
  Proof. unfold look. rewrite hit_ext. destruct (as_hit n e' k) as [w|] eqn:H; [|reflexivity]. apply hit_some in H; [|exact npos]. now rewrite E by apply H. Qed.
  Lemma use_ext k v : as_use n e k v = as_use n e' k v.
  Proof. unfold as_use. rewrite hit_ext. destruct (as_hit n e' k) as [w|] eqn:H; [|reflexivity]. apply hit_some in H; [|exact npos]. now rewrite E by apply H. Qed.
  Lemma way_ext k : as_way n e k = as_way n e' k.
  Proof.
    unfold as_way. rewrite hit_ext. destruct (as_hit n e' k); [reflexivity|]. unfold as_victim.
    rewrite (find_ext _ (fun w => negb (be_valid (e' w)))) by (intros w I; apply in_seq in I; now rewrite E by lia).
    destruct (find _ _); [reflexivity|]. f_equal. apply fold_ext. intros a w I. apply in_seq in I. now rewrite E by lia.
  Qed.
End EXT.
Lemma write_ext n t t' i k v x : (0 < n)%nat -> (forall w, (w < n)%nat -> t i w = t' i w) ->
  forall j w, (w < n)%nat -> t j w = t' j w -> as_write n t i k v x j w = as_write n t' i k v x j w.
Proof. intros P E j w L Q. unfold as_write. rewrite (way_ext n (t i) (t' i) P E). now destruct (_ && _). Qed.
Lemma hash63 w n salt : 0 <= hash w 63 n salt < 64.
Proof. unfold hash. change 63 with (Z.ones 6). rewrite Z.land_ones by lia. change (2 ^ 6) with 64. apply Z.mod_pos_bound. lia. Qed.
Lemma predict_same s s' p ty : same s s' -> btb_predict s p ty = btb_predict s' p ty.
Proof.
  intros S. unfold btb_predict. destruct (S (bht_idx p) (hash63 _ _ _)) as (_ & _ & _ & -> & ->).
  destruct (S (btb_idx p) (hash63 _ _ _)) as (A & _). rewrite (look_ext _ _ _ pos4 A).
  destruct (S (tc_idx p (bt_bht s' (bht_idx p))) (hash63 _ _ _)) as (_ & B & C & _). now rewrite (look_ext _ _ _ pos2 B), (look_ext _ _ _ pos2 C).
Qed.
Lemma train_same s s' u : same s s' -> same (btb_train s u) (btb_train s' u).
Proof.
  intros S. pose proof (S (r_bi u) (hash63 _ _ _)) as (_ & _ & _ & B1 & B2).
  assert (NB: r_nbht s u = r_nbht s' u) by (unfold r_nbht, r_bht; now rewrite B1).
  assert (PI: r_pi s u = r_pi s' u) by (unfold r_pi, r_bht; now rewrite B1).
  assert (WI: r_wi s u = r_wi s' u) by (unfold r_wi; now rewrite NB).
  pose proof (S (r_pi s' u) (hash63 _ _ _)) as (_ & P1 & P2 & _). pose proof (S (r_wi s' u) (hash63 _ _ _)) as (_ & W1 & _).
  pose proof (S (btb_idx (br_pc u)) (hash63 _ _ _)) as (T1 & _).
  intros i R. destruct (S i R) as (A & B & C & D & E). unfold btb_train. cbn [bt_btb bt_tc bt_pre bt_bht bt_mode]. rewrite NB, PI, WI.
  split; [|split; [|split; [|split]]].
  - intros w L. destruct (_ && _); [|now apply A]. unfold btb_use. rewrite (use_ext _ _ _ pos4 T1). apply write_ext; [exact pos4|exact T1|exact L|now apply A].
  - intros w L. destruct (r_tc u); [|now apply B]. rewrite (use_ext _ _ _ pos2 W1). apply write_ext; [exact pos2|exact W1|exact L|now apply B].
  - intros w L. destruct (r_tc u); [|now apply C]. rewrite (use_ext _ _ _ pos2 P2). apply write_ext; [exact pos2|exact P2|exact L|now apply C].
  - now rewrite D.
  - unfold says. rewrite (look_ext _ _ _ pos2 P1), (look_ext _ _ _ pos2 P2), B2, E. reflexivity.
Qed.
Definition c66_jump (i : nat) : btr := Btr c66_p (if Nat.even i then 2147487744 else 2147491840) BR_IDIRECT true.
Lemma alt_S n : after (c66_alt (S n)) = btb_train (after (c66_alt n)) (c66_jump n).
Proof. unfold c66_alt. rewrite seq_S, rev_app_distr. reflexivity. Qed.
Lemma alt_period n : (112 <= n)%nat -> same (after (c66_alt (16 + n))) (after (c66_alt n)).
Proof.
  induction 1 as [|n L IH]; [apply sameb_same; vm_compute; reflexivity|].
  replace (16 + S n)%nat with (S (16 + n)) by lia. rewrite !alt_S.
  change (c66_jump (16 + n)) with (c66_jump n). now apply train_same.
Qed.
(** A jump whose two targets alternate is mispredicted for ever, four times in 16:
    different histories share a line of the cache that the tag does not tell apart. *)
Theorem c66_alternating_refuted k j : (1 <= k)%nat -> In j [19; 21; 22; 28]%nat ->
  let i := (16 * k + j)%nat in btb_predict (after (c66_alt i)) c66_p BR_IDIRECT <> br_tgt (c66_jump i).
Proof.
  intros K J. cbv zeta.
  assert (F: forallb (fun k => forallb (fun j => negb (btb_predict (after (c66_alt (16 * k + j))) c66_p BR_IDIRECT =? br_tgt (c66_jump (16 * k + j))))
    [19; 21; 22; 28]%nat) (seq 1 7) = true) by (vm_compute; reflexivity).
  rewrite forallb_forall in F.
  assert (G: (k <= 7)%nat -> btb_predict (after (c66_alt (16 * k + j))) c66_p BR_IDIRECT <> br_tgt (c66_jump (16 * k + j))).
  { intros L. specialize (F k ltac:(apply in_seq; lia)). rewrite forallb_forall in F. specialize (F j J). apply negb_true_iff, Z.eqb_neq in F. exact F. }
  destruct (le_lt_dec k 7) as [L|L]; [exact (G L)|]. clear G.
  induction k as [|k IH]; [lia|]. replace (16 * S k + j)%nat with (16 + (16 * k + j))%nat by lia.
  rewrite (predict_same _ _ _ _ (alt_period (16 * k + j) ltac:(lia))).
  change (c66_jump (16 + (16 * k + j))) with (c66_jump (16 * k + j)).
  destruct (Nat.eq_dec k 7) as [->|N]; [|apply IH; lia].
  specialize (F 7%nat ltac:(apply in_seq; lia)). rewrite forallb_forall in F. specialize (F j J). apply negb_true_iff, Z.eqb_neq in F. exact F.
Qed.

(** *** Examples *)
Example c66_direct_ex : let h := [Btr 1024 9000 BR_JAL true; Btr 512 8000 BR_DIRECT true; Btr 512 7000 BR_DIRECT true; Btr 512 0 BR_DIRECT false] in
  map (fun p => btb_predict (after h) p BR_DIRECT) [512; 1024; 2048] = [8000; 9000; 2052] /\
  map (last_target h) [512; 1024; 2048] = [Some 8000; Some 9000; None].
Proof. split; vm_compute; reflexivity. Qed.
Definition c66_five : list Z := [0; 260; 520; 780; 1040].
Example c66_evicted_ex : forallb (fun p => btb_idx p =? btb_idx 0) c66_five = true /\
  map (fun p => btb_predict (after (map (fun p => Btr p (p + 100) BR_JAL true) (rev c66_five))) p BR_JAL) c66_five = [4; 360; 620; 880; 1140].
Proof. split; vm_compute; reflexivity. Qed.

Print Assumptions c66_direct_origin.
Print Assumptions c66_direct_exact.
Print Assumptions c66_learned.
Print Assumptions c66_told_apart.
Print Assumptions c66_ranges.
Print Assumptions c66_evicted.
Print Assumptions c66_indirect_origin.
Print Assumptions c66_indirect_again.
Print Assumptions c66_one_target.
Print Assumptions c66_one_target_later.
Print Assumptions c66_choice.
Print Assumptions c66_fallthrough_refuted.
Print Assumptions c66_alternating_refuted.
Print Assumptions c66_history_forgets_refuted.
