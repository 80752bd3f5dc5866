(** The store side of a whole cycle. *)
From Coq Require Import Permutation.
From Verif Require Import Base BaseLemmas Ring MemModel MemSpec MemProofs LsuModel LsuStq LsuQ LsuRun LsuSpec LsuHist.
Local Open Scope nat_scope.
Ltac Zify.zify_post_hook ::= Z.div_mod_to_equations.

(** Length of the leading run of [true]. *)
Fixpoint lead (f : nat -> bool) (n : nat) : nat := match n with O => 0 | S n' => if f 0 then S (lead (fun k => f (S k)) n') else 0 end.
Lemma lead_le f n : lead f n <= n. Proof. revert f. induction n as [|n IH]; intros f; cbn; [lia|]. destruct (f 0); [specialize (IH (fun k => f (S k))); lia|lia]. Qed.
Lemma lead_ext f g n : (forall k, k < n -> f k = g k) -> lead f n = lead g n.
Proof. revert f g. induction n as [|n IH]; intros f g H; [reflexivity|]. cbn. rewrite (H 0) by lia. destruct (g 0); [|reflexivity]. f_equal. apply IH. intros k K. apply H. lia. Qed.
Definition taken (s : stqs) (n : nat) : nat := lead (fun k => sst_eqb (s_st (ent s (scc s + k))) SWaitCommit) n.
Definition cslots (s : stqs) (n : nat) : list nat := map (fun k => (sh s + (scc s + k)) mod STQ_SIZE) (seq 0 n).

Lemma rejects fl ks : forall s, (forall x, In x ks -> x <> scm s) -> let s' := fold_left (commit_one fl) ks s in
  sq s' = sq s /\ ptrs s s' /\ wms s' = wms s /\ dns s' = dns s.
Proof.
  induction ks as [|a t IH]; intros s H; [repeat split|]. cbn [fold_left]. assert (C : commit_one fl s a = set_sbad true s).
  { unfold commit_one. assert (N : (a =? scm s) = false) by (apply Nat.eqb_neq; apply H; now left). now rewrite N. }
  rewrite C. destruct (IH (set_sbad true s)) as (X & Y & Z & W); [intros x I; apply H; now right|]. cbv zeta. auto.
Qed.
Lemma HI_same b hist acc pend s s' : sq s' = sq s -> sh s' = sh s -> scc s' = scc s -> HI b hist acc pend s -> HI b hist acc pend s'.
Proof. intros A B C. apply HI_frame; auto. intros k K. unfold ent. rewrite A, B. split; [reflexivity|now left]. Qed.
Lemma SInv_same b s s' : sq s' = sq s -> ptrs s s' -> SInv b s -> SInv b s'.
Proof.
  intros E (P1 & P2 & P3 & P4 & P5) V. assert (SH : shape s s').
  { constructor; [repeat split; assumption|intros k; rewrite E; apply ent_le_refl|intros k; rewrite E; split; tauto]. }
  eapply SInv_shape; [exact SH| |exact V]. intros k. rewrite E. apply V.
Qed.
Lemma commits_spec b fl acc pend n : forall s hist, SInv b s -> HI b hist acc pend s -> scc s + n <= sn s ->
  (forall k, k < n -> s_pf (ent s (scc s + k)) = true -> fl = true) ->
  let s' := comb_stq_commit (cslots s n) fl s in let t := taken s n in
  SInv b s' /\ HI b (hist ++ map (fun k => hcommit fl (ent s (scc s + k))) (seq 0 t)) acc pend s' /\ order s' = order s /\ sn s' = sn s /\ scc s' = scc s + t /\ sh s' = sh s /\
  (forall k, k < sn s -> ~ (scc s <= k < scc s + t) -> ent s' k = ent s k) /\ wms s' = wms s /\ dns s' = dns s.
Proof.
  induction n as [|n IH]; intros s hist V H L PF; cbv zeta.
  - cbn. rewrite app_nil_r, Nat.add_0_r. repeat (split; [first [assumption|reflexivity]|]). split; reflexivity.
  - pose proof (v_C _ _ V) as (C1 & C2 & C3). unfold STQ_SIZE in C2. unfold cslots, comb_stq_commit. cbn [seq map fold_left]. rewrite Nat.add_0_r.
    set (idx := (sh s + scc s) mod STQ_SIZE). assert (IX : idx = scm s) by (unfold idx; rewrite (v_scm _ _ V), (v_sh _ _ V); unfold STQ_SIZE; lia).
    assert (EI : sq s idx = ent s (scc s)) by reflexivity.
    unfold taken. cbn [lead]. rewrite Nat.add_0_r. destruct (sst_eqb (s_st (ent s (scc s))) SWaitCommit) eqn:W.
    + assert (AC : accepts s idx = true) by (unfold accepts; rewrite <- IX, Nat.eqb_refl; exact W).
      assert (PF0 : s_pf (sq s idx) = true -> fl = true) by (rewrite EI; intros X; apply (PF 0 ltac:(lia)); now rewrite Nat.add_0_r).
      assert (LT : scc s < sn s) by lia.
      pose proof (commit_one_spec b s fl idx V (fun _ => conj LT PF0)) as (V1 & O1 & N1 & S1 & _ & _). rewrite AC in S1.
      pose proof (HI_commit b hist acc pend s fl idx V AC ltac:(lia) PF0 H) as H1. set (s1 := commit_one fl s idx) in *.
      assert (SH1 : sh s1 = sh s) by (unfold s1, commit_one; fold (accepts s idx); now rewrite AC).
      assert (WD : wms s1 = wms s /\ dns s1 = dns s) by (unfold s1, commit_one; fold (accepts s idx); rewrite AC; split; reflexivity).
      assert (EN : forall k, k < STQ_SIZE -> k <> scc s -> ent s1 k = ent s k).
      { intros k K N. unfold ent. rewrite SH1. unfold s1, commit_one. fold (accepts s idx). rewrite AC. cbn [set_scc set_scm upd_s set_sq sq]. apply fupd_ne. unfold idx. intros X. apply (slot_inj STQ_SIZE) in X; unfold STQ_SIZE in *; lia. }
      specialize (IH s1 _ V1 H1 ltac:(lia)). destruct IH as (X1 & X2 & X3 & X4 & X5 & X6 & X7 & X8 & X9).
      { intros k K Q. rewrite EN in Q by (unfold STQ_SIZE; lia). apply (PF (S k)); [lia|]. replace (scc s + S k) with (scc s1 + k) by lia. exact Q. }
      assert (CS : cslots s1 n = map (fun k => (sh s + (scc s + k)) mod STQ_SIZE) (seq 1 n)).
      { unfold cslots. rewrite <- seq_shift, map_map. apply map_ext. intros k. rewrite SH1, S1. f_equal. lia. }
      rewrite CS in *. assert (TE : taken s1 n = lead (fun k => sst_eqb (s_st (ent s (scc s + S k))) SWaitCommit) n).
      { apply lead_ext. intros k K. rewrite EN by (unfold STQ_SIZE; lia). do 3 f_equal. lia. }
      rewrite TE in *. set (t := lead _ n) in *. pose proof (lead_le (fun k => sst_eqb (s_st (ent s (scc s + S k))) SWaitCommit) n) as TL. fold t in TL. fold s1. unfold comb_stq_commit in *.
      split; [exact X1|]. split.
      { assert (HE : (hist ++ [hcommit fl (sq s idx)]) ++ map (fun k => hcommit fl (ent s1 (scc s1 + k))) (seq 0 t) = hist ++ map (fun k => hcommit fl (ent s (scc s + k))) (seq 0 (S t))).
        { rewrite <- app_assoc. f_equal. cbn [seq map app]. rewrite Nat.add_0_r. f_equal. rewrite <- seq_shift, map_map. apply map_ext_in. intros k K. apply in_seq in K. rewrite EN by (unfold STQ_SIZE; lia). do 2 f_equal. lia. }
        rewrite HE in X2. exact X2. }
      split; [congruence|]. split; [congruence|]. split; [rewrite X5; lia|]. split; [congruence|]. split; [|split; [destruct WD; congruence|destruct WD; congruence]].
      intros k K N. rewrite X7 by lia. apply EN; unfold STQ_SIZE; lia.
    + assert (C0 : commit_one fl s idx = set_sbad true s).
      { unfold commit_one. fold (accepts s idx). unfold accepts, is_s. rewrite EI, W, andb_false_r. reflexivity. }
      rewrite C0. destruct (rejects fl (map (fun k => (sh s + (scc s + k)) mod STQ_SIZE) (seq 1 n)) (set_sbad true s)) as (R1 & R2 & R3 & R4).
      { intros x X. apply in_map_iff in X as (k & <- & K). apply in_seq in K. change (scm (set_sbad true s)) with (scm s). rewrite <- IX. unfold idx. intros Y. apply (slot_inj STQ_SIZE) in Y; unfold STQ_SIZE in *; lia. }
      set (s' := fold_left _ _ _) in *. change (sq (set_sbad true s)) with (sq s) in R1. destruct R2 as (P1 & P2 & P3 & P4 & P5).
      assert (PT : ptrs s s') by (repeat split; assumption). cbn [seq map]. rewrite app_nil_r, Nat.add_0_r.
      assert (ENT : forall k, ent s' k = ent s k) by (intros k; unfold ent; rewrite R1, P1; reflexivity).
      split; [exact (SInv_same _ _ _ R1 PT V)|]. split; [exact (HI_same _ _ _ _ _ _ R1 P1 P4 H)|]. split.
      { apply order_ext; [exact P1|exact P5|]. intros k _. now rewrite ENT. }
      split; [exact P5|]. split; [exact P4|]. split; [exact P1|]. split; [intros k _ _; apply ENT|]. split; [exact R3|exact R4].
Qed.

(** *** What the surroundings guarantee *)
Definition galloc (r : salloc) : gst := GS (sl_rob r) (sl_robf r) (sl_brm r).
Record senv (b : nat) (cur : stqs) (i : lin) (n : nat) : Prop := {
  (* the re-order buffer commits the oldest uncommitted stores, in order; a faulting one only with a flush *)
  se_n : scc cur + n <= sn cur;
  se_c : i_commit i = cslots cur n;
  se_pf : forall k, k < n -> s_pf (ent cur (scc cur + k)) = true -> i_flush i = true;
  (* data and address requests name queued, uncommitted stores; the address comes once *)
  se_std : forall r, In r (i_std i) -> exists k, scc cur + n <= k < sn cur /\ sd_idx r = (sh cur + k) mod STQ_SIZE;
  se_sta : forall r, In r (i_sta i) -> exists k, k < sn cur /\ sa_idx r = (sh cur + k) mod STQ_SIZE /\ s_st (ent cur k) = SAllocated;
  se_nd : NoDup (map sa_idx (i_sta i));
  (* dispatch respects the free count and numbers the stores consecutively *)
  se_sa : sn cur + length (i_sa i) <= STQ_SIZE;
  se_fl : forall j r, nth_error (i_sa i) j = Some r -> sl_flag r = Nat.odd ((b + (sn cur + j)) / STQ_SIZE);
  (* branch masks: younger stores depend on every branch older ones depend on; committed stores depend on none that mispredicts; cleared bits are not handed out in the same cycle *)
  se_mono : i_mispred i = true -> mono (i_brm i) (order cur ++ map galloc (i_sa i));
  se_old : i_mispred i = true -> forall k, k < scc cur + n -> hits (s_brm (ent cur k)) (i_brm i) = false;
  se_clr : forall r, In r (i_sa i) -> Z.ldiff (sl_brm r) (i_clear i) = sl_brm r }.

Lemma allocs_spec b rs : forall s, SInv b s -> sn s + length rs <= STQ_SIZE -> (forall j r, nth_error rs j = Some r -> sl_flag r = Nat.odd ((b + (sn s + j)) / STQ_SIZE)) ->
  let s' := fold_left alloc_stq rs s in SInv b s' /\ scc s' = scc s /\ sh s' = sh s /\ sn s' = sn s + length rs /\ order s' = order s ++ map galloc rs /\
  (forall k, k < sn s -> ent s' k = ent s k) /\ wms s' = wms s /\ dns s' = dns s /\ sbad s' = sbad s.
Proof.
  induction rs as [|r t IH]; intros s V L FL; cbv zeta.
  - cbn. rewrite app_nil_r, Nat.add_0_r. repeat (split; [first [assumption|reflexivity]|]). reflexivity.
  - cbn [fold_left length] in *. pose proof (alloc_stq_spec b s r V) as (V1 & S1 & O1 & B1).
    assert (OK : (sn s <? STQ_SIZE) && Bool.eqb (sl_flag r) (Nat.odd ((b + sn s) / STQ_SIZE)) = true).
    { apply andb_true_iff. split; [apply Nat.ltb_lt; lia|]. rewrite (FL 0 r eq_refl), Nat.add_0_r. apply Bool.eqb_reflx. }
    rewrite OK in *.
    assert (SN : sn (alloc_stq s r) = S (sn s)) by (rewrite <- (order_len (alloc_stq s r)), O1, app_length, order_len; cbn; lia).
    assert (SH : sh (alloc_stq s r) = sh s) by (rewrite (v_sh _ _ V1), (v_sh _ _ V); reflexivity).
    assert (WD : wms (alloc_stq s r) = wms s /\ dns (alloc_stq s r) = dns s) by (unfold alloc_stq; destruct (STQ_SIZE <=? sn s); [split; reflexivity|]; destruct (negb (Bool.eqb _ _)); split; reflexivity).
    destruct (IH (alloc_stq s r) V1 ltac:(lia)) as (X1 & X2 & X3 & X4 & X5 & X6 & X7 & X8 & X9).
    { intros j r' J. specialize (FL (S j) r' J). rewrite FL. do 2 f_equal. lia. }
    split; [exact X1|]. split; [congruence|]. split; [congruence|]. split; [lia|]. split; [rewrite X5, O1, <- app_assoc; reflexivity|]. split.
    + intros k K. rewrite X6 by lia. now apply (alloc_stq_calm b).
    + destruct WD. rewrite X7, X8, X9, B1. cbn [negb]. rewrite orb_false_r. auto.
Qed.
Lemma HI_ents b hist acc pend s s' : sh s' = sh s -> scc s' = scc s -> (forall k, k < scc s -> ent s' k = ent s k) -> HI b hist acc pend s -> HI b hist acc pend s'.
Proof. intros A B C. apply HI_frame; auto. intros k K. rewrite (C k K). split; [reflexivity|now left]. Qed.

(** What a squash leaves. *)
Definition squash (i : lin) (committed : nat) (l : list gst) : list gst :=
  let l := if i_flush i then firstn committed l else l in
  let l := if i_mispred i then filter (spared (i_brm i)) l else l in
  if nz (i_clear i) then map (clear_g (i_clear i)) l else l.
Lemma mono_firstn m n l : mono m l -> mono m (firstn n l).
Proof.
  intros M i j d IJ JL H. rewrite firstn_length in JL. assert (N : forall k, k <= j -> nth k (firstn n l) d = nth k l d).
  { intros k K. rewrite <- (firstn_skipn n l) at 2. symmetry. apply app_nth1. rewrite firstn_length. lia. }
  rewrite N in * by lia. apply (M i j d IJ); [lia|exact H].
Qed.
Lemma nz_ldiff b m : nz m = false -> Z.ldiff b m = b.
Proof. unfold nz. intros H. apply negb_false_iff, Z.eqb_eq in H. subst. apply Z.ldiff_0_r. Qed.
Lemma flush_spec b i cur l hist acc pend nc : SInv b (st l) -> HI b hist acc pend (st l) -> sh (st cur) = sh (st l) -> sn (st cur) <= STQ_SIZE ->
  (i_mispred i = true -> mono (i_brm i) (order (st l))) -> (i_mispred i = true -> forall k, k < scc (st l) -> hits (s_brm (ent (st l) k)) (i_brm i) = false) ->
  (forall k, sn (st cur) <= k -> k < sn (st l) -> Z.ldiff (s_brm (ent (st l) k)) (i_clear i) = s_brm (ent (st l) k)) -> nc = scc (st l) ->
  let s' := st (comb_flush i cur l) in SInv b s' /\ HI b hist acc pend s' /\ order s' = squash i nc (order (st l)) /\ scc s' = scc (st l) /\ sh s' = sh (st l) /\ sbad s' = sbad (st l) /\ sn s' <= sn (st l).
Proof.
  intros V H SH SN MO OLD CLR ->. cbv zeta. unfold comb_flush, squash.
  assert (F1 : exists l1, l1 = (if i_flush i then flush_global l else l) /\ SInv b (st l1) /\ HI b hist acc pend (st l1) /\ order (st l1) = (if i_flush i then firstn (scc (st l)) (order (st l)) else order (st l)) /\
    scc (st l1) = scc (st l) /\ sh (st l1) = sh (st l) /\ sq (st l1) = sq (st l) /\ sbad (st l1) = sbad (st l) /\ sn (st l1) <= sn (st l)).
  { eexists. split; [reflexivity|]. destruct (i_flush i); [|repeat (split; [first [assumption|reflexivity]|]); lia].
    destruct (flush_global_spec b l V) as (X1 & X2 & X3 & X4). split; [exact X1|]. split.
    - apply (HI_same b hist acc pend (st l)); [reflexivity|reflexivity|exact X3|exact H].
    - split; [exact X2|]. split; [exact X3|]. split; [reflexivity|]. split; [reflexivity|]. split; [exact X4|]. pose proof (f_equal (@length _) X2) as Y. rewrite firstn_length, !order_len in Y. lia. }
  destruct F1 as (l1 & E1 & V1 & H1 & O1 & S1 & SH1 & Q1 & B1 & N1). rewrite <- E1. clear E1.
  assert (F2 : exists l2, l2 = (if i_mispred i then flush_mispred (i_brm i) l1 else l1) /\ SInv b (st l2) /\ HI b hist acc pend (st l2) /\ order (st l2) = (if i_mispred i then filter (spared (i_brm i)) (order (st l1)) else order (st l1)) /\
    scc (st l2) = scc (st l) /\ sh (st l2) = sh (st l) /\ sq (st l2) = sq (st l) /\ sbad (st l2) = sbad (st l) /\ sn (st l2) <= sn (st l)).
  { eexists. split; [reflexivity|]. destruct (i_mispred i); [|repeat (split; [first [assumption|reflexivity]|]); assumption].
    assert (M1 : mono (i_brm i) (order (st l1))) by (rewrite O1; destruct (i_flush i); [apply mono_firstn|]; now apply MO).
    destruct (flush_mispred_spec b (i_brm i) l1 V1 M1) as (X1 & X2 & X3 & X4). rewrite X2 in X3. rewrite mispred_committed in X3; [|exact (v_C _ _ V1)|exact M1|].
    2:{ intros k K. rewrite S1 in K. unfold ent. rewrite Q1, SH1. now apply OLD. }
    split; [exact X1|]. split.
    - apply (HI_same b hist acc pend (st l1)); [reflexivity|reflexivity|exact X3|exact H1].
    - split; [exact X2|]. split; [congruence|]. split; [exact SH1|]. split; [exact Q1|]. split; [congruence|]. pose proof (f_equal (@length _) X2) as Y. rewrite order_len in Y. rewrite Y.
      etransitivity; [apply filter_len|]. rewrite order_len. exact N1. }
  destruct F2 as (l2 & E2 & V2 & H2 & O2 & S2 & SH2 & Q2 & B2 & N2). rewrite <- E2. clear E2. rewrite <- O1, <- O2.
  destruct (nz (i_clear i)) eqn:NZ; [|repeat (split; [first [assumption|reflexivity]|]); assumption].
  assert (HC : forall k, sn (st cur) <= k -> k < sn (st l2) -> Z.ldiff (s_brm (ent (st l2) k)) (i_clear i) = s_brm (ent (st l2) k)).
  { intros k K1 K2. unfold ent. rewrite Q2, SH2. apply CLR; lia. }
  destruct (flush_clear_spec b cur (i_clear i) l2 V2 ltac:(congruence) SN HC) as (X1 & X2 & X3 & X4 & X5). split; [exact X1|].
  assert (SHC : sh (st (flush_clear cur (i_clear i) l2)) = sh (st l2)) by (rewrite (v_sh _ _ X1), (v_sh _ _ V2); reflexivity).
  split.
  - apply (HI_frame b hist acc pend (st l2)); [exact SHC|congruence| |exact H2]. intros k K. unfold ent. rewrite SHC. split; [|left; apply X5].
    unfold flush_clear. cbn [st]. set (f := fun e => set_s_brm (Z.ldiff (s_brm e) (i_clear i)) e). destruct (fold_upd f (stq_slots (st cur) (sn (st cur))) (slots_NoDup _ _ SN) (st l2)) as (_ & _ & _ & _ & Q). fold f.
    rewrite Q. destruct (existsb _ _); reflexivity.
  - split; [exact X2|]. split; [congruence|]. split; [congruence|]. split; [congruence|]. pose proof (f_equal (@length _) X2) as Y. rewrite map_length, !order_len in Y. lia.
Qed.

(** *** The cycle *)
Record gs := Gh { g_b : nat; g_ord : list gst; g_hist : list hst; g_pend : pending; g_log : list dsreq }.
Definition g0 : gs := Gh 0 [] [] (fun _ => None) [].
(** Stores committed in this cycle, as the program sees them. *)
Definition newly (cur : stqs) (i : lin) (n : nat) : list hst := map (fun k => hcommit (i_flush i) (ent cur (scc cur + k))) (seq 0 (taken cur n)).
Definition gstep (cur : stqs) (i : lin) (n : nat) (o : lout) (g : gs) (r : nat) : gs :=
  let al := fold_left answer (i_ds i) (g_pend g, g_log g) in
  Gh (g_b g + r) (skipn r (squash i (scc cur + taken cur n) (g_ord g ++ map galloc (i_sa i)))) (g_hist g ++ newly cur i n) (fold_left ask (o_ds o) (fst al)) (snd al).
Record GI (g : gs) (s : stqs) : Prop := {
  gi_inv : SInv (g_b g) s; gi_ord : g_ord g = order s;
  gi_hist : exists acc, HI (g_b g) (g_hist g) acc (g_pend g) s /\ g_log g = map (reqat (g_hist g)) acc }.

Lemma stlf_st head l : st (comb_stlf head l) = st l.
Proof. unfold comb_stlf. destruct (stlf_loop _ _ _ _ _ _ _) as [[[d u] np] rt]. reflexivity. Qed.
Lemma reqat_app hist x acc : (forall p, In p acc -> p < length hist) -> map (reqat (hist ++ x)) acc = map (reqat hist) acc.
Proof. intros H. apply map_ext_in. intros p P. unfold reqat. now rewrite app_nth1 by now apply H. Qed.
(** The phases between the answers of the cache and allocation. *)
Lemma store_datas b cur i n s hist acc pend : SInv b s -> HI b hist acc pend s -> ptrs cur s \/ (sh s = sh cur /\ sn s = sn cur) -> scc s <= scc cur + n ->
  (forall r, In r (i_std i) -> exists k, scc cur + n <= k < sn cur /\ sd_idx r = (sh cur + k) mod STQ_SIZE) ->
  let s' := fold_left handle_store_data (i_std i) s in SInv b s' /\ HI b hist acc pend s' /\ shape s s' /\ keepA s s'.
Proof.
  intros V H PT SC. assert (PP : sh s = sh cur /\ sn s = sn cur) by (destruct PT as [(A & _ & _ & _ & B)|]; [now split|assumption]). clear PT. destruct PP as [P1 P2]. cbv zeta.
  generalize (i_std i) as rs. intros rs. revert s V H SC P1 P2. induction rs as [|r t IH]; intros s V H SC P1 P2 ST; [cbn; repeat (split; [first [assumption|apply shape_refl]|]); apply keepA_refl|].
  cbn [fold_left]. destruct (ST r (or_introl eq_refl)) as (k & K & KE). pose proof (v_C _ _ V) as (C1 & C2 & C3).
  assert (NC : com (s_st (sq s (sd_idx r))) = false).
  { rewrite KE, <- P1. fold (ent s k). rewrite C3 by lia. apply Nat.ltb_ge. lia. }
  pose proof (store_data_shape s r (fun _ _ _ => NC)) as SH. pose proof (store_data_good s r (fun _ _ _ => NC) (v_good _ _ V)) as GD. pose proof (store_data_calm s r (fun _ => NC)) as CA.
  pose proof (SInv_shape b _ _ SH GD V) as V1. pose proof (sh_ptrs _ _ SH) as PT. pose proof (HI_calm b hist acc pend _ _ (v_C _ _ V) PT CA H) as H1. destruct PT as (Q1 & Q2 & Q3 & Q4 & Q5).
  destruct (IH (handle_store_data s r) V1 H1) as (X1 & X2 & X3 & X4); try congruence; try lia.
  { intros r' R. apply ST. now right. }
  split; [exact X1|]. split; [exact X2|]. split; [exact (shape_trans _ _ _ SH X3)|]. eapply keepA_trans; [apply store_data_keepA|exact X4].
Qed.
Lemma store_addrs b rs hist acc pend : forall s, SInv b s -> HI b hist acc pend s -> NoDup (map sa_idx rs) -> (forall r, In r rs -> sa_idx r < STQ_SIZE -> s_st (sq s (sa_idx r)) = SAllocated) ->
  let s' := fold_left handle_store_addr rs s in SInv b s' /\ HI b hist acc pend s' /\ shape s s'.
Proof.
  induction rs as [|r t IH]; intros s V H ND AL; cbv zeta; [cbn; repeat (split; [assumption|]); apply shape_refl|]. cbn [fold_left map] in *. inversion ND as [|? ? N1 N2]; subst.
  assert (NC : sa_idx r < STQ_SIZE -> com (s_st (sq s (sa_idx r))) = false) by (intros L; now rewrite (AL r (or_introl eq_refl) L)).
  pose proof (store_addr_shape s r (fun L _ _ => NC L)) as SH. pose proof (store_addr_good s r (AL r (or_introl eq_refl)) (v_good _ _ V)) as GD. pose proof (store_addr_calm s r NC) as CA.
  pose proof (SInv_shape b _ _ SH GD V) as V1. pose proof (sh_ptrs _ _ SH) as PT. pose proof (HI_calm b hist acc pend _ _ (v_C _ _ V) PT CA H) as H1.
  destruct (IH (handle_store_addr s r) V1 H1 N2) as (X1 & X2 & X3).
  { intros r' R L. assert (NE : sa_idx r' <> sa_idx r) by (intros X; apply N1; rewrite <- X; now apply in_map). rewrite <- (AL r' (or_intror R) L).
    unfold handle_store_addr. destruct (_ <=? _); [reflexivity|]. destruct (_ || _); [reflexivity|]. cbv zeta. cbn [set_wms upd_s set_sq sq]. now rewrite fupd_ne. }
  split; [exact X1|]. split; [exact X2|]. exact (shape_trans _ _ _ SH X3).
Qed.

Theorem store_cycle g cur i n : GI g (st cur) -> senv (g_b g) (st cur) i n -> let '(l', o) := lsu_cycle cur i in
  exists r, GI (gstep (st cur) i n o g r) (st l') /\ r + sn (st l') = length (squash i (scc (st cur) + taken (st cur) n) (g_ord g ++ map galloc (i_sa i))) /\
    r <= scc (st cur) + taken (st cur) n /\ scc (st l') = scc (st cur) + taken (st cur) n - r.
Proof.
  intros [V OR (acc & H & LG)] [N1 CM PF STD STA ND SA FL MO OLD CLR]. set (b := g_b g) in *. destruct (lsu_cycle cur i) as [l' o] eqn:LC. unfold lsu_cycle in LC. cbv zeta in LC. rewrite CM in LC.
  pose proof (v_C _ _ V) as (C1 & C2 & C3). unfold STQ_SIZE in C2.
  destruct (commits_spec b (i_flush i) acc (g_pend g) n (st cur) (g_hist g) V H N1 PF) as (V1 & H1 & O1 & SN1 & S1 & SH1 & E1 & _ & _).
  pose proof (commit_keepA (i_flush i) (cslots (st cur) n) (st cur)) as K1.
  set (s1 := comb_stq_commit (cslots (st cur) n) (i_flush i) (st cur)) in *. set (t := taken (st cur) n) in *. fold (newly (st cur) i n) in H1. set (hist := g_hist g ++ newly (st cur) i n) in *.
  assert (TN : t <= n) by apply lead_le.
  set (l1 := Lsu s1 (ld cur) (un cur) (lr cur)) in *.
  (* mmio_in *)
  pose proof (mmio_in_shape (i_mmio i) (un cur) l1) as SH2. pose proof (SInv_shape b _ _ SH2 (mmio_in_good (i_mmio i) (un cur) l1 (v_good _ _ V1)) V1) as V2.
  pose proof (HI_mmio b hist acc (g_pend g) (i_mmio i) (un cur) l1 V1 H1) as H2. pose proof (mmio_in_keepA (i_mmio i) (un cur) l1) as K2.
  set (l2 := comb_mmio_in (i_mmio i) (un cur) l1) in *. change (st l1) with s1 in SH2, K2.
  (* cache answers *)
  assert (LG2 : g_log g = map (reqat hist) acc).
  { unfold hist. rewrite reqat_app; [exact LG|]. intros p P. destruct (hi_in _ _ _ _ _ H p P) as [X _]. rewrite (hi_len _ _ _ _ _ H). exact X. }
  destruct (HI_dcache b hist (i_ds i) (i_fill i) acc (g_pend g) (g_log g) (st l2) V2 H2 LG2) as (acc3 & H3 & LG3).
  pose proof (dcache2lsu_stq_shape (i_ds i) (i_fill i) (st l2)) as SH3. pose proof (SInv_shape b _ _ SH3 (dcache2lsu_stq_good (i_ds i) (i_fill i) (st l2) (v_good _ _ V2)) V2) as V3.
  pose proof (dcache_keepA (i_ds i) (i_fill i) (st l2)) as K3. set (al := fold_left answer (i_ds i) (g_pend g, g_log g)) in *.
  set (s3 := comb_dcache2lsu_stq (i_ds i) (i_fill i) (st l2)) in *.
  set (l3 := Lsu s3 (comb_dcache2lsu_ldq (i_dl i) (i_fill i) (ld l2)) (un l2) (lr l2)) in *.
  (* write-back *)
  pose proof (lsu2exe_shape (lr cur) l3) as SH4. pose proof (SInv_shape b _ _ SH4 (lsu2exe_good (lr cur) l3 (v_good _ _ V3)) V3) as V4.
  pose proof (HI_calm b hist acc3 (fst al) _ _ (v_C _ _ V3) (sh_ptrs _ _ SH4) (lsu2exe_calm (lr cur) l3) H3) as H4. pose proof (lsu2exe_keepA (lr cur) l3) as K4.
  destruct (comb_lsu2exe (lr cur) l3) as [l4 wbs]. cbn [fst] in SH4, V4, H4, K4. change (st l3) with s3 in SH4, K4.
  assert (SH14 : shape s1 (st l4)) by (eapply shape_trans; [exact SH2|eapply shape_trans; [exact SH3|exact SH4]]).
  pose proof (sh_ptrs _ _ SH14) as (P1 & P2 & P3 & P4 & P5).
  (* execution requests *)
  destruct (store_datas b (st cur) i n (st l4) hist acc3 (fst al) V4 H4) as (V5 & H5 & SH5 & K5); [right; split; congruence|lia|exact STD|].
  set (s5 := fold_left handle_store_data (i_std i) (st l4)) in *.
  assert (KA : keepA (st cur) s5).
  { eapply keepA_trans; [exact K1|]. eapply keepA_trans; [exact K2|]. eapply keepA_trans; [exact K3|]. eapply keepA_trans; [exact K4|exact K5]. }
  destruct (store_addrs b (i_sta i) hist acc3 (fst al) s5 V5 H5 ND) as (V6 & H6 & SH6).
  { intros r R _. destruct (STA r R) as (k & K & X & Y). apply KA. rewrite X. exact Y. }
  set (s6 := fold_left handle_store_addr (i_sta i) s5) in *.
  destruct (comb_tlb_in_ldq (i_ml i) (fold_left handle_load_req (i_ldr i) (ld l4)) (lr l4)) as [d7 r7].
  pose proof (tlb_in_stq_shape (i_ms i) s6 r7) as SH7. pose proof (SInv_shape b _ _ SH7 (tlb_in_stq_good (i_ms i) s6 r7 (v_good _ _ V6)) V6) as V7.
  pose proof (HI_calm b hist acc3 (fst al) _ _ (v_C _ _ V6) (sh_ptrs _ _ SH7) (tlb_in_stq_calm (i_ms i) s6 r7) H6) as H7.
  destruct (comb_tlb_in_stq (i_ms i) s6 r7) as [s7 r7']. cbn [fst] in SH7, V7, H7.
  assert (SH17 : shape s1 s7) by (eapply shape_trans; [exact SH14|eapply shape_trans; [exact SH5|eapply shape_trans; [exact SH6|exact SH7]]]).
  clear P1 P2 P3 P4 P5. pose proof (sh_ptrs _ _ SH17) as (P1 & P2 & P3 & P4 & P5).
  set (l8 := comb_stlf (i_head i) (Lsu s7 d7 (un l4) r7')) in *. assert (ST8 : st l8 = s7) by apply stlf_st. rewrite ST8 in LC.
  (* allocation *)
  destruct (allocs_spec b (i_sa i) s7 V7) as (V9 & S9 & SH9 & SN9 & O9 & E9 & _); [rewrite P5, SN1; exact SA| |].
  { intros j r J. rewrite (FL j r J), P5, SN1. reflexivity. }
  set (s9 := fold_left alloc_stq (i_sa i) s7) in *.
  assert (H9 : HI b hist acc3 (fst al) s9).
  { apply (HI_ents b hist acc3 (fst al) s7); auto. intros k K. apply E9. pose proof (v_C _ _ V7) as (D1 & _). lia. }
  assert (O17 : order s7 = order (st cur)) by (rewrite <- O1; apply order_shape; [exact (sh_ptrs _ _ SH17)|exact (sh_ent _ _ SH17)]).
  set (l9 := Lsu s9 (fold_left alloc_ldq (i_la i) (ld l8)) (un l8) (lr l8)) in *.
  (* squash *)
  assert (BR : forall k, k < sn (st cur) -> s_brm (ent s9 k) = s_brm (ent (st cur) k)).
  { intros k K. rewrite E9 by lia. pose proof (f_equal (fun l => nth k l (key stqe0)) O17) as Y. cbv beta in Y. rewrite !order_nth in Y by lia. unfold key in Y. congruence. }
  destruct (flush_spec b i cur l9 hist acc3 (fst al) (scc (st cur) + t)) as (V10 & H10 & O10 & S10 & SH10 & _ & SN10); change (st l9) with s9; auto.
  { congruence. }
  { intros M. rewrite O9, O17. now apply MO. }
  { intros M k K. rewrite BR; [apply OLD; [exact M|]|]; lia. }
  { intros k K1' K2'. assert (X : exists j r, k = sn (st cur) + j /\ nth_error (i_sa i) j = Some r /\ s_brm (ent s9 k) = sl_brm r).
    { assert (JL : k - sn (st cur) < length (i_sa i)) by lia. apply nth_error_Some in JL. destruct (nth_error (i_sa i) (k - sn (st cur))) as [r|] eqn:NE; [|congruence].
      exists (k - sn (st cur)), r. split; [lia|]. split; [exact NE|]. pose proof (order_nth s9 k (key stqe0) K2') as Y. rewrite O9, app_nth2 in Y by (rewrite order_len; lia). rewrite order_len in Y.
      rewrite P5, SN1 in Y. rewrite (nth_indep _ _ (galloc r)) in Y by (rewrite map_length; lia). rewrite map_nth in Y. rewrite (nth_error_nth _ _ r NE) in Y.
      unfold key, galloc in Y. congruence. }
    destruct X as (j & r & _ & NE & ->). apply CLR. eapply nth_error_In. exact NE. }
  { lia. }
  change (st l9) with s9 in O10, S10, SH10, SN10. set (l10 := comb_flush i cur l9) in *. destruct (comb_lsu2dcache_ldq (ld cur) (ld l10)) as [d11 dlq].
  (* issue *)
  destruct (comb_lsu2dcache_stq (st cur) (st l10) (un l10)) as [[s11 u11] dsq] eqn:IS.
  pose proof (HI_issue b hist acc3 (fst al) _ _ _ _ _ _ IS V10 H10) as H11.
  destruct (lsu2dcache_stq_spec _ _ _ _ _ _ IS (v_good _ _ V10) (v_C _ _ V10) (v_J _ _ V10)) as (ISS & _ & _). pose proof (SInv_iss b _ _ ISS V10) as V11.
  assert (O11 : order s11 = order (st l10)) by (apply order_shape; [exact (is_p _ _ ISS)|exact (is_e _ _ ISS)]).
  assert (S11 : scc s11 = scc (st l10)) by (destruct (is_p _ _ ISS) as (_ & _ & _ & X & _); exact X).
  (* retire *)
  injection LC as <- <-. cbn [st o_ds gstep]. unfold comb_check. set (m := Nat.min (Nat.min (scc s11) (sn s11)) WINDOW).
  destruct (retire_spec m b s11 V11 ltac:(unfold m; lia)) as (r & R & V12 & O12 & S12 & Q12 & SN12 & _ & _ & _ & DN & _).
  assert (RS : r <= scc s11) by (unfold m in R; lia).
  assert (SN11 : sn s11 = length (squash i (scc (st cur) + t) (g_ord g ++ map galloc (i_sa i)))) by (rewrite <- (order_len s11), O11, O10, O9, O17, OR; reflexivity).
  pose proof (v_C _ _ V11) as (CC1 & _).
  exists r. split; [|split; [fold t; lia|split; [fold t; lia|rewrite S12; fold t; lia]]]. constructor; cbn [g_b g_ord g_hist g_pend g_log gstep o_ds].
  - exact V12.
  - rewrite O12, O11, O10, O9, O17, OR. reflexivity.
  - exists acc3. fold al hist. split; [|exact LG3]. apply HI_retire; auto. exact (v_sh _ _ V12).
Qed.

(** *** Executions *)
Inductive sreach : lsu -> gs -> Prop :=
| sreach0 : sreach lsu0 g0
| sreach_step l g i n l' o r : sreach l g -> senv (g_b g) (st l) i n -> lsu_cycle l i = (l', o) ->
    r + sn (st l') = length (squash i (scc (st l) + taken (st l) n) (g_ord g ++ map galloc (i_sa i))) ->
    sreach l' (gstep (st l) i n o g r).
Lemma GI0 : GI g0 (st lsu0).
Proof.
  constructor; cbn [g_b g_ord g_hist g_pend g_log g0].
  - constructor; try reflexivity.
    + split; [cbn; lia|]. split; [cbn; unfold STQ_SIZE; lia|]. intros k K. cbn in K. lia.
    + intros k K. cbn in K. lia.
    + intros k. exact Logic.I.
    + intros a b _ K. cbn in K. lia.
  - reflexivity.
  - exists []. split; [|reflexivity]. constructor; cbn; try (intros; lia); try discriminate; try tauto. constructor.
Qed.
Lemma sreach_GI l g : sreach l g -> GI g (st l).
Proof.
  induction 1 as [|l g i n l' o r R IH E LC LN]; [apply GI0|]. pose proof (store_cycle g l i n IH E) as X. rewrite LC in X. destruct X as (r0 & X & RL & _).
  assert (r = r0) by lia. now subst.
Qed.

(** *** Order of effects *)
Definition covers (h : hst) (x : Z) : bool := ((h_pa h <=? x) && (x <? h_pa h + size (h_f3 h)))%Z.
Lemma do_store_at m h x : do_store m (pst_of h) x = if covers h x then ((h_data h / 256 ^ (x - h_pa h)) mod 256)%Z else m x.
Proof. reflexivity. Qed.
Lemma run_stores_app a b m : run_stores (a ++ b) m = run_stores b (run_stores a m). Proof. apply fold_left_app. Qed.
(** The last store covering a byte decides it. *)
Lemma run_last (H : nat -> hst) l m x : (forall p, In p l -> covers (H p) x = false) /\ run_stores (map H l) m x = m x \/
  exists l1 p l2, l = l1 ++ p :: l2 /\ covers (H p) x = true /\ (forall q, In q l2 -> covers (H q) x = false) /\ run_stores (map H l) m x = ((h_data (H p) / 256 ^ (x - h_pa (H p))) mod 256)%Z.
Proof.
  induction l as [|p l IH] using rev_ind; [left; split; [intros p []|reflexivity]|]. rewrite map_app, run_stores_app. cbn [map run_stores fold_left]. rewrite do_store_at. fold (run_stores (map H l) m).
  destruct (covers (H p) x) eqn:C.
  - right. exists l, p, []. repeat split; [exact C|]. intros q [].
  - destruct IH as [[A B]|(l1 & q & l2 & A & B & D & E)].
    + left. split; [|exact B]. intros q Q. apply in_app_iff in Q as [Q|[<-|[]]]; auto.
    + right. exists l1, q, (l2 ++ [p]). split; [now rewrite A, <- app_assoc|]. split; [exact B|]. split; [|exact E]. intros z Z. apply in_app_iff in Z as [Z|[<-|[]]]; auto.
Qed.
Lemma in_order_in acc n p : In p (in_order acc n) <-> In p acc /\ p < n.
Proof.
  unfold in_order. rewrite filter_In, in_seq. split.
  - intros [A B]. apply existsb_exists in B as (q & Q & E). apply Nat.eqb_eq in E. subst. split; [exact Q|lia].
  - intros [A B]. split; [lia|]. apply existsb_exists. exists p. split; [exact A|apply Nat.eqb_refl].
Qed.
Lemma in_order_sorted acc n l1 (p : nat) l2 : in_order acc n = l1 ++ p :: l2 -> (forall q, In q l2 -> p < q) /\ (forall q, In q l1 -> q < p).
Proof.
  unfold in_order. generalize 0 as s. revert l1. induction n as [|n IH]; intros l1 s E; [destruct l1; discriminate|]. cbn [seq filter] in E.
  assert (T : forall s' q, In q (filter (fun p => existsb (Nat.eqb p) acc) (seq s' n)) -> s' <= q) by (intros s' q Q; apply filter_In in Q as [Q _]; apply in_seq in Q; lia).
  destruct (existsb (Nat.eqb s) acc); [|exact (IH l1 (S s) E)]. destruct l1 as [|a l1]; cbn in E; injection E as E1 E2.
  - subst. split; [|intros q []]. intros q Q. apply (T (S p)) in Q. lia.
  - destruct (IH l1 (S s) E2) as [A B]. split; [exact A|]. intros q [<-|Q]; [|now apply B]. subst a. assert (PI : In p (filter (fun p => existsb (Nat.eqb p) acc) (seq (S s) n))) by (rewrite E2; apply in_app_iff; right; now left).
    apply T in PI. lia.
Qed.
(** If stores sharing a byte keep their program order, the whole list has the
    effect of program order. *)
Lemma reorder (H : nat -> hst) acc n m x : NoDup acc -> (forall p, In p acc -> p < n) ->
  (forall i j, i < j -> j < length acc -> covers (H (nth i acc 0)) x = true -> covers (H (nth j acc 0)) x = true -> nth i acc 0 < nth j acc 0) ->
  run_stores (map H acc) m x = run_stores (map H (in_order acc n)) m x.
Proof.
  intros ND LT OR. assert (IO : forall p, In p (in_order acc n) <-> In p acc) by (intros p; rewrite in_order_in; split; [tauto|auto]).
  destruct (run_last H acc m x) as [[A B]|(l1 & p & l2 & A & B & C & D)]; destruct (run_last H (in_order acc n) m x) as [[A' B']|(k1 & q & k2 & A' & B' & C' & D')].
  - congruence.
  - rewrite A in B'; [discriminate|]. apply IO. rewrite A'. apply in_app_iff. right. now left.
  - rewrite A' in B; [discriminate|]. apply IO. rewrite A. apply in_app_iff. right. now left.
  - rewrite D, D'. assert (p = q); [|now subst]. destruct (in_order_sorted acc n k1 q k2 A') as [S1 S2].
    assert (QI : In q acc) by (apply IO; rewrite A'; apply in_app_iff; right; now left). assert (PI : In p (in_order acc n)) by (apply IO; rewrite A; apply in_app_iff; right; now left).
    rewrite A' in PI. apply in_app_iff in PI as [PI|[PI|PI]]; [|now symmetry|].
    + (* p before q in program order, but after it in the list: impossible *)
      exfalso. apply S2 in PI. rewrite A in QI. apply in_app_iff in QI as [QI|[QI|QI]]; [|lia|rewrite (C q QI) in B'; discriminate].
      destruct (In_nth _ _ 0 QI) as (i & I1 & I2). assert (X : nth i acc 0 < nth (length l1) acc 0).
      { apply OR; [exact I1|rewrite A, app_length; cbn; lia| |].
        - rewrite A, app_nth1 by exact I1. now rewrite I2.
        - rewrite A, app_nth2, Nat.sub_diag by lia. exact B. }
      rewrite A, (app_nth1 _ _ _ I1), I2, app_nth2, Nat.sub_diag in X by lia. cbn in X. lia.
    + exfalso. rewrite (C' p PI) in B. discriminate.
Qed.
Lemma perform_req W k h : perform W (req k h) = word_store W (h_pa h) (h_f3 h) (h_data h). Proof. reflexivity. Qed.
Lemma perform_bytes (H : nat -> hst) (k : nat -> nat) l : (forall p, In p l -> h_wf (H p)) -> forall W x, bytes_of (fold_left perform (map (fun p => req (k p) (H p)) l) W) x = run_stores (map H l) (bytes_of W) x.
Proof.
  induction l as [|p l IH] using rev_ind; intros WF W x; [reflexivity|]. rewrite !map_app, fold_left_app, run_stores_app. cbn [map fold_left run_stores]. rewrite perform_req.
  assert (WP : h_wf (H p)) by (apply WF; apply in_app_iff; right; now left). destruct WP as (F & Wd & AL). rewrite word_store_spec by assumption. rewrite do_store_at. unfold store_bytes. fold (covers (H p) x).
  destruct (covers (H p) x); [reflexivity|]. apply IH. intros q Q. apply WF. apply in_app_iff. now left.
Qed.
Lemma covers_ovh a b x : h_wf a -> h_wf b -> covers a x = true -> covers b x = true -> ovh a b = true.
Proof.
  intros (A1 & A2 & A3) (B1 & B2 & B3) CA CB. unfold ovh. apply check_addr_spec; auto. unfold covers in *. apply andb_true_iff in CA, CB. exists x. lia.
Qed.
Theorem effects l g : sreach l g -> (forall h, In h (g_hist g) -> plain h = true -> h_wf h) -> exists acc,
  (forall p, In p acc -> p < length (g_hist g) /\ plain (nth p (g_hist g) h0) = true) /\ NoDup acc /\ length acc = length (g_log g) /\
  (forall p, p < g_b g -> plain (nth p (g_hist g) h0) = true -> In p acc) /\
  (forall W x, bytes_of (fold_left perform (g_log g) W) x = run_stores (map (fun p => nth p (g_hist g) h0) (in_order acc (length (g_hist g)))) (bytes_of W) x).
Proof.
  intros R WF. apply sreach_GI in R. destruct R as [V OR (acc & H & LG)]. exists acc. destruct H as [A B C D E F G I J]. rewrite A.
  assert (W1 : forall p, In p acc -> h_wf (nth p (g_hist g) h0)).
  { intros p P. destruct (F p P) as [F1 F2]. apply WF; [apply nth_In; lia|exact F2]. }
  split; [exact F|]. split; [exact E|]. split; [rewrite LG, map_length; reflexivity|]. split; [exact G|]. intros W x. rewrite LG. unfold reqat.
  rewrite (perform_bytes (fun p => nth p (g_hist g) h0) (fun p => p mod STQ_SIZE) acc W1). apply reorder; [exact E|intros p P; now apply F|].
  intros i j IJ JL CI CJ. apply J; [exact IJ|exact JL|]. eapply covers_ovh; [| |exact CI|exact CJ]; apply W1; apply nth_In; lia.
Qed.
Lemma seq_snoc n : seq 0 (S n) = seq 0 n ++ [n]. Proof. now rewrite seq_S. Qed.
Lemma filter_hist hist : map (fun p => nth p hist h0) (filter (fun p => plain (nth p hist h0)) (seq 0 (length hist))) = filter plain hist.
Proof.
  induction hist as [|h t IH] using rev_ind; [reflexivity|]. rewrite app_length. cbn [length]. rewrite Nat.add_1_r, seq_snoc, !filter_app, map_app. f_equal.
  - rewrite <- IH. rewrite (filter_ext_in _ (fun p => plain (nth p t h0))).
    + apply map_ext_in. intros p P. apply filter_In in P as [P _]. apply in_seq in P. now rewrite app_nth1 by lia.
    + intros p P. apply in_seq in P. now rewrite app_nth1 by lia.
  - cbn [filter]. rewrite app_nth2, Nat.sub_diag by lia. cbn [nth]. destruct (plain h); [|reflexivity]. cbn [map]. now rewrite app_nth2, Nat.sub_diag by lia.
Qed.
Theorem drained l g : sreach l g -> (forall h, In h (g_hist g) -> plain h = true -> h_wf h) -> scc (st l) = 0 ->
  forall W x, bytes_of (fold_left perform (g_log g) W) x = run_stores (filter plain (g_hist g)) (bytes_of W) x.
Proof.
  intros R WF Z W x. destruct (effects l g R WF) as (acc & A & _ & _ & D & E). rewrite E. apply sreach_GI in R. destruct R as [_ _ (a' & H & _)]. pose proof (hi_len _ _ _ _ _ H) as L. rewrite Z, Nat.add_0_r in L.
  rewrite <- filter_hist. f_equal. f_equal. unfold in_order. apply filter_ext_in. intros p P. apply in_seq in P. destruct (plain (nth p (g_hist g) h0)) eqn:PL.
  - apply existsb_exists. exists p. split; [apply D; [lia|exact PL]|apply Nat.eqb_refl].
  - destruct (existsb _ acc) eqn:X; [|reflexivity]. apply existsb_exists in X as (q & Q & Y). apply Nat.eqb_eq in Y. subst q. apply A in Q. destruct Q. congruence.
Qed.
(** What is in flight is the head part of the committed stores. *)
Theorem in_flight l g x q : sreach l g -> g_pend g x = Some q -> exists p, g_b g <= p < length (g_hist g) /\ x = p mod STQ_SIZE /\ plain (nth p (g_hist g) h0) = true /\ q = req x (nth p (g_hist g) h0).
Proof.
  intros R P. apply sreach_GI in R. destruct R as [V _ (acc & H & _)]. destruct (hi_p2 _ _ _ _ _ H x q P) as (k & K & X & S0). exists (g_b g + k). rewrite (hi_len _ _ _ _ _ H).
  split; [lia|]. assert (XX : x = (g_b g + k) mod STQ_SIZE) by (rewrite X, (v_sh _ _ V); unfold STQ_SIZE; lia). split; [exact XX|].
  rewrite (hi_at _ _ _ _ _ H k K). pose proof (v_good _ _ V ((sh (st l) + k) mod STQ_SIZE)) as G. fold (ent (st l) k) in G. unfold good in G. rewrite S0 in G. destruct G as (_ & G2 & G3).
  split; [unfold plain, hof; cbn; now rewrite G2, G3|]. pose proof (hi_p1 _ _ _ _ _ H k K S0) as Y. rewrite <- X, P in Y. congruence.
Qed.

(** *** Checking the assumptions on a concrete run *)
Fixpoint monob (m : Z) (gs : list gst) : bool := match gs with [] => true | g :: t => (negb (hits (g_brm g) m) || forallb (fun x => hits (g_brm x) m) t) && monob m t end.
Lemma monob_ok m gs : monob m gs = true -> mono m gs.
Proof.
  induction gs as [|g t IH]; intros H i j d IJ JL HI; [cbn in JL; lia|]. cbn [monob] in H. apply andb_true_iff in H as [H1 H2]. destruct i as [|i].
  - destruct j as [|j]; [exact HI|]. cbn [nth] in *. rewrite HI in H1. cbn in H1. rewrite forallb_forall in H1. apply H1. apply nth_In. cbn in JL. lia.
  - destruct j as [|j]; [lia|]. cbn [nth] in *. apply (IH H2 i j d); [lia|cbn in JL; lia|exact HI].
Qed.
Fixpoint nodupb (l : list nat) : bool := match l with [] => true | a :: t => negb (existsb (Nat.eqb a) t) && nodupb t end.
Lemma nodupb_ok l : nodupb l = true -> NoDup l.
Proof.
  induction l as [|a t IH]; intros H; [constructor|]. cbn in H. apply andb_true_iff in H as [H1 H2]. constructor; [|auto]. intros X. apply negb_true_iff in H1.
  apply eq_true_false_abs with (2 := H1). apply existsb_exists. exists a. split; [exact X|apply Nat.eqb_refl].
Qed.
Fixpoint nats_eqb (a b : list nat) : bool := match a, b with [], [] => true | x :: a, y :: b => (x =? y) && nats_eqb a b | _, _ => false end.
Lemma nats_eqb_ok a : forall b, nats_eqb a b = true -> a = b.
Proof. induction a as [|x a IH]; intros [|y b] H; cbn in H; try discriminate; [reflexivity|]. apply andb_true_iff in H as [H1 H2]. apply Nat.eqb_eq in H1. f_equal; auto. Qed.
Definition senvb (b : nat) (cur : stqs) (i : lin) (n : nat) : bool :=
  (scc cur + n <=? sn cur) && nats_eqb (i_commit i) (cslots cur n) &&
  forallb (fun k => negb (s_pf (ent cur (scc cur + k))) || i_flush i) (seq 0 n) &&
  forallb (fun r => existsb (fun k => sd_idx r =? (sh cur + k) mod STQ_SIZE) (seq (scc cur + n) (sn cur - (scc cur + n)))) (i_std i) &&
  forallb (fun r => existsb (fun k => (sa_idx r =? (sh cur + k) mod STQ_SIZE) && sst_eqb (s_st (ent cur k)) SAllocated) (seq 0 (sn cur))) (i_sta i) &&
  nodupb (map sa_idx (i_sta i)) && (sn cur + length (i_sa i) <=? STQ_SIZE) &&
  forallb (fun p => Bool.eqb (sl_flag (snd p)) (Nat.odd ((b + (sn cur + fst p)) / STQ_SIZE))) (combine (seq 0 (length (i_sa i))) (i_sa i)) &&
  (negb (i_mispred i) || monob (i_brm i) (order cur ++ map galloc (i_sa i)) && forallb (fun k => negb (hits (s_brm (ent cur k)) (i_brm i))) (seq 0 (scc cur + n))) &&
  forallb (fun r => Z.ldiff (sl_brm r) (i_clear i) =? sl_brm r)%Z (i_sa i).
Lemma nth_error_combine {A} (l : list A) : forall s j r, nth_error l j = Some r -> In (s + j, r) (combine (seq s (length l)) l).
Proof.
  induction l as [|a t IH]; intros s [|j] r H; cbn in *; try discriminate.
  - injection H as ->. left. f_equal. lia.
  - right. replace (s + S j) with (S s + j) by lia. now apply IH.
Qed.
Lemma senvb_ok b cur i n : senvb b cur i n = true -> senv b cur i n.
Proof.
  unfold senvb. intros H. repeat (apply andb_true_iff in H as [H ?]). repeat match goal with X : forallb _ _ = true |- _ => rewrite forallb_forall in X end. constructor.
  - now apply Nat.leb_le.
  - now apply nats_eqb_ok.
  - intros k K P. specialize (H7 k ltac:(apply in_seq; lia)). rewrite P in H7. exact H7.
  - intros r R. specialize (H6 r R). apply existsb_exists in H6 as (k & K & E). apply in_seq in K. apply Nat.eqb_eq in E. exists k. split; [lia|exact E].
  - intros r R. specialize (H5 r R). apply existsb_exists in H5 as (k & K & E). apply in_seq in K. apply andb_true_iff in E as [E1 E2]. apply Nat.eqb_eq in E1. apply sst_eqb_eq in E2. exists k. split; [lia|]. now split.
  - now apply nodupb_ok.
  - now apply Nat.leb_le.
  - intros j r J. specialize (H2 _ (nth_error_combine _ 0 j r J)). cbn [fst snd] in H2. now apply Bool.eqb_prop in H2.
  - intros M. rewrite M in H1. cbn [negb orb] in H1. apply andb_true_iff in H1 as [H1 _]. now apply monob_ok.
  - intros M k K. rewrite M in H1. cbn [negb orb] in H1. apply andb_true_iff in H1 as [_ H1]. rewrite forallb_forall in H1. specialize (H1 k ltac:(apply in_seq; lia)). now apply negb_true_iff.
  - intros r R. now apply Z.eqb_eq, H0.
Qed.
(** A run with its ghost state; [None] if an assumption fails. *)
Fixpoint sruns (l : lsu) (g : gs) (is : list (lin * nat)) : option (lsu * gs) :=
  match is with
  | [] => Some (l, g)
  | (i, n) :: t =>
    if senvb (g_b g) (st l) i n then
      let '(l', o) := lsu_cycle l i in
      let q := squash i (scc (st l) + taken (st l) n) (g_ord g ++ map galloc (i_sa i)) in
      if sn (st l') <=? length q then sruns l' (gstep (st l) i n o g (length q - sn (st l'))) t else None
    else None
  end.
Lemma sruns_reach is : forall l g l' g', sreach l g -> sruns l g is = Some (l', g') -> sreach l' g'.
Proof.
  induction is as [|[i n] t IH]; intros l g l' g' R E; cbn [sruns] in E; [injection E as <- <-; exact R|].
  destruct (senvb (g_b g) (st l) i n) eqn:S0; [|discriminate]. destruct (lsu_cycle l i) as [l1 o] eqn:LC. cbv zeta in E.
  destruct (_ <=? _) eqn:LE; [|discriminate]. apply Nat.leb_le in LE. eapply IH; [|exact E]. eapply sreach_step; [exact R|now apply senvb_ok|exact LC|lia].
Qed.
