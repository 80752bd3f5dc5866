(** Proofs about the MMIO bridge. *)
From Verif Require Import Base BaseLemmas MemModel MemSpec PeriphModel LsuModel PaxModel PaxSpec.
Local Open Scope Z_scope.
Ltac Zify.zify_post_hook ::= Z.div_mod_to_equations.
#[local] Opaque Z.pow Z.land Z.lor Z.lxor Z.shiftl Z.shiftr Z.ldiff read_load.

(** *** Access sizes and data *)
Lemma lor_high a k m : 0 <= a < 2 ^ k -> 0 <= k -> m mod 2 ^ k = 0 -> Z.lor a m = a + m.
Proof.
  intros H K M. assert (D : Z.land a m = 0).
  { apply Z.bits_inj'. intros n N. rewrite Z.land_spec, Z.bits_0.
    destruct (Z.ltb_spec n k) as [L|L].
    - apply andb_false_intro2. rewrite <- (Z.mod_pow2_bits_low m k n) by lia. rewrite M. apply Z.bits_0.
    - apply andb_false_intro1. rewrite <- (Z.mod_small a (2 ^ k)) by lia. apply Z.mod_pow2_bits_high. lia. }
  symmetry. rewrite Z.add_nocarry_lxor by exact D. apply Z.lxor_lor. exact D.
Qed.
Lemma land_ones255 x : Z.land x 255 = x mod 256. Proof. change 255 with (Z.ones 8). rewrite Z.land_ones by lia. reflexivity. Qed.
Lemma land_ones65535 x : Z.land x 65535 = x mod 65536. Proof. change 65535 with (Z.ones 16). rewrite Z.land_ones by lia. reflexivity. Qed.
Lemma land_top x k : 0 <= k -> 0 <= x < 2 ^ (k + 1) -> nz (Z.land x (2 ^ k)) = negb (x <? 2 ^ k).
Proof.
  intros K H. assert (E : Z.land x (2 ^ k) = if Z.testbit x k then 2 ^ k else 0).
  { apply Z.bits_inj'. intros n N. rewrite Z.land_spec, Z.pow2_bits_eqb by lia. destruct (Z.testbit x k) eqn:T.
    - rewrite Z.pow2_bits_eqb by lia. destruct (Z.eqb_spec k n); [subst; rewrite T; reflexivity|apply andb_false_r].
    - rewrite Z.bits_0. destruct (Z.eqb_spec k n); [subst; rewrite T; reflexivity|apply andb_false_r]. }
  rewrite E. rewrite Z.pow_add_r in H by lia. change (2 ^ 1) with 2 in H. assert (P : 0 < 2 ^ k) by (apply Z.pow_pos_nonneg; lia).
  assert (T : Z.testbit x k = negb (x <? 2 ^ k)).
  { rewrite Z.testbit_eqb by lia. destruct (Z.ltb_spec x (2 ^ k)).
    - rewrite Z.div_small by lia. reflexivity.
    - replace (x / 2 ^ k) with 1; [reflexivity|]. apply Z.div_unique with (x - 2 ^ k); lia. }
  rewrite T. destruct (Z.ltb_spec x (2 ^ k)); cbn [negb]; unfold nz; [reflexivity|]. destruct (Z.eqb_spec (2 ^ k) 0); [lia|reflexivity].
Qed.
Lemma extract_read_spec raw f3 : is_w 32 raw -> load_f3 f3 -> extract_read raw f3 = loaded f3 raw.
Proof.
  unfold is_w, load_f3. intros W F. unfold loaded, extend, size. cbn [In] in F.
  destruct F as [<-|[<-|[<-|[<-|[<-|[]]]]]]; cbn [Z.eqb Pos.eqb orb]; unfold extract_read.
  - change (8 * 1) with 8. change (2 ^ 8) with 256. rewrite land_ones255. change 128 with (2 ^ 7) at 1. rewrite land_top by (change (2 ^ (7 + 1)) with 256; lia).
    change (2 ^ 7) with 128. destruct (Z.ltb_spec (raw mod 256) 128); cbn [negb]; [reflexivity|].
    rewrite lor_high with (k := 8); [reflexivity|change (2 ^ 8) with 256; lia|lia|reflexivity].
  - change (8 * 2) with 16. change (2 ^ 16) with 65536. rewrite land_ones65535. change 32768 with (2 ^ 15) at 1. rewrite land_top by (change (2 ^ (15 + 1)) with 65536; lia).
    change (2 ^ 15) with 32768. destruct (Z.ltb_spec (raw mod 65536) 32768); cbn [negb]; [reflexivity|].
    rewrite lor_high with (k := 16); [reflexivity|change (2 ^ 16) with 65536; lia|lia|reflexivity].
  - change (8 * 4) with 32. rewrite Z.mod_small by exact W. reflexivity.
  - change (8 * 1) with 8. change (2 ^ 8) with 256. apply land_ones255.
  - change (8 * 2) with 16. change (2 ^ 16) with 65536. apply land_ones65535.
Qed.
(** The request the bridge drives for [q]. *)
Definition drive (w : bool) (a d f3 : Z) : axout :=
  if w then AWrite a (access_size f3 - 1) (pack_strb f3) (pack_data d f3) else ARead a (access_size f3 - 1).
Lemma f3_cases f3 : load_f3 f3 \/ store_f3 f3 -> In f3 [0; 1; 2; 4; 5].
Proof. unfold load_f3, store_f3. cbn [In]. tauto. Qed.
Lemma drive_spec q : req_ok q -> drive (q_wen q) (q_maddr q) (q_mdata q) (q_mf3 q) = transaction q.
Proof.
  intros [_ [D F]]. unfold is_w in D. assert (G : In (q_mf3 q) [0; 1; 2; 4; 5]) by (destruct (q_wen q); apply f3_cases; tauto).
  unfold drive, transaction, access_size, pack_strb, pack_data, size. cbn [In] in G.
  destruct G as [<-|[<-|[<-|[<-|[<-|[]]]]]].
  all: match goal with |- context[Z.land ?x 3] => let v := eval vm_compute in (Z.land x 3) in change (Z.land x 3) with v end; cbn [Z.eqb Pos.eqb orb]; destruct (q_wen q); try reflexivity; f_equal.
  all: try (apply land_ones255); try (apply land_ones65535); try (rewrite Z.mod_small; [reflexivity|exact D]).
Qed.

(** *** The serving order *)
Definition busread (x : taken) : bool := bused x && negb (q_wen (fst x)).
Lemma busread_eq q v : busread (q, v) = negb (is_modeled_mmio (q_maddr q)) && negb (q_wen q). Proof. reflexivity. Qed.
Definition nread (ops : list taken) : nat := length (filter busread ops).
Lemma serve_len ops : forall raws, length raws = nread ops -> length (serve ops raws) = length ops.
Proof.
  unfold nread. induction ops as [|[q v] t IH]; intros raws H; [reflexivity|]. cbn [serve filter] in *. rewrite busread_eq in H.
  destruct (q_wen q); cbn [negb] in H; [rewrite andb_false_r in H; cbn [length]; rewrite IH by exact H; reflexivity|].
  destruct (is_modeled_mmio (q_maddr q)); cbn [negb andb] in H; [cbn [length]; rewrite IH by exact H; reflexivity|].
  destruct raws as [|r raws]; [discriminate H|]. cbn [length] in *. rewrite IH by lia. reflexivity.
Qed.
Lemma serve_app a b r2 : forall raws, length raws = nread a -> serve (a ++ b) (raws ++ r2) = serve a raws ++ serve b r2.
Proof.
  unfold nread. induction a as [|[q v] t IH]; intros raws H.
  - cbn [filter length] in H. destruct raws; [reflexivity|discriminate H].
  - cbn [app serve filter] in *. rewrite busread_eq in H.
    destruct (q_wen q); cbn [negb] in H; [rewrite andb_false_r in H; rewrite IH by exact H; reflexivity|].
    destruct (is_modeled_mmio (q_maddr q)); cbn [negb andb] in H; [rewrite IH by exact H; reflexivity|].
    destruct raws as [|r raws]; [discriminate H|]. cbn [length] in H. cbn [app]. rewrite IH by lia. reflexivity.
Qed.
Lemma nread_one q v : nread [(q, v)] = if negb (is_modeled_mmio (q_maddr q)) && negb (q_wen q) then 1%nat else 0%nat.
Proof. unfold nread. cbn [filter]. rewrite busread_eq. destruct (_ && _); reflexivity. Qed.
Lemma transactions_one q v : transactions [(q, v)] = if is_modeled_mmio (q_maddr q) then [] else [transaction q].
Proof. unfold transactions. cbn [filter]. unfold bused. cbn [fst]. destruct (is_modeled_mmio _); reflexivity. Qed.
Lemma nread_app a b : nread (a ++ b) = (nread a + nread b)%nat. Proof. unfold nread. rewrite filter_app, app_length. reflexivity. Qed.
Lemma transactions_app a b : transactions (a ++ b) = transactions a ++ transactions b. Proof. unfold transactions. rewrite filter_app, map_app. reflexivity. Qed.

Inductive PINV : pax -> hist -> Prop :=
| PI_idle s h : p_busy s = false -> p_rv s = false -> length (h_raws h) = nread (h_ops h) ->
    h_ans h = serve (h_ops h) (h_raws h) -> h_txs h = transactions (h_ops h) -> PINV s h
| PI_ans s h : p_busy s = false -> p_rv s = true -> length (h_raws h) = nread (h_ops h) ->
    h_ans h ++ [p_rd s] = serve (h_ops h) (h_raws h) -> h_txs h = transactions (h_ops h) -> PINV s h
| PI_busy s h ops q v : p_busy s = true -> p_rv s = false -> h_ops h = ops ++ [(q, v)] -> req_ok q -> is_modeled_mmio (q_maddr q) = false ->
    p_write s = q_wen q -> p_addr s = q_maddr q -> p_wd s = q_mdata q -> p_f3 s = q_mf3 q ->
    length (h_raws h) = nread ops -> h_ans h = serve ops (h_raws h) -> h_txs h = transactions ops ++ opt (p_acc s) (transaction q) -> PINV s h.

Lemma pax_out_busy s : p_busy s = true -> pax_out s = if p_acc s then (if p_write s then AWWait else ARWait) else drive (p_write s) (p_addr s) (p_wd s) (p_f3 s).
Proof. intros B. unfold pax_out, drive. rewrite B. cbn [negb]. destruct (p_acc s); reflexivity. Qed.

Lemma accept_inv s h i : pin_ok i -> p_busy s = false ->
  length (h_raws h) = nread (h_ops h) -> h_ans h ++ match pr_ans (pax_resp s) with Some d => [d] | None => [] end = serve (h_ops h) (h_raws h) ->
  h_txs h = transactions (h_ops h) -> PINV (p_step s i) (h_step s i h).
Proof.
  intros [_ Q] B L A T. unfold p_step, pax_cycle, pax_in, h_step. cbn [fst]. unfold pax_out, ax_accepted. rewrite B.
  cbn [negb]. unfold pax_out. rewrite B. cbn [negb opt]. rewrite !app_nil_r.
  destruct (pi_req i) as [q|] eqn:E.
  - specialize (Q q eq_refl). change (pr_ready (pax_resp s)) with (negb (p_busy s)). rewrite B. cbn [negb opt].
    destruct (is_modeled_mmio (q_maddr q)) eqn:M.
    + apply PI_ans; try reflexivity; cbn [h_ops h_txs h_raws h_ans p_rd].
      * rewrite nread_app, L. rewrite nread_one. rewrite M. cbn [negb andb length]. lia.
      * rewrite A, <- (app_nil_r (h_raws h)), serve_app by exact L. rewrite app_nil_r. f_equal. cbn [serve]. rewrite M. unfold read_of. destruct (q_wen q); reflexivity.
      * rewrite T, transactions_app. rewrite transactions_one. rewrite M. cbn [negb map]. rewrite app_nil_r. reflexivity.
    + eapply (PI_busy _ _ (h_ops h) q (read_load (pi_dev i) (pi_t i) (q_maddr q) (q_mf3 q))); try reflexivity; cbn [h_ops h_txs h_raws h_ans p_acc opt]; try assumption. rewrite app_nil_r. exact T.
  - rewrite app_nil_r. apply PI_idle; try reflexivity; cbn [h_ops h_txs h_raws h_ans p_busy p_rv]; try assumption. destruct (p_rv s); reflexivity.
Qed.
Lemma pinv_step s h i : pin_ok i -> PINV s h -> PINV (p_step s i) (h_step s i h).
Proof.
  intros K I. destruct I as [s h B R L A T | s h B R L A T | s h ops q v B R O Q M W Ad Wd F L A T].
  - apply accept_inv; try assumption. unfold pax_resp. rewrite R. cbn [pr_ans]. rewrite app_nil_r. exact A.
  - apply accept_inv; try assumption. unfold pax_resp. rewrite R. cbn [pr_ans]. exact A.
  - unfold p_step, pax_cycle, pax_in, h_step, ax_accepted. cbn [fst].
    rewrite (pax_out_busy s B). rewrite B. cbn [negb]. unfold pax_resp. rewrite B, R. cbn [negb pr_ready pr_ans opt].
    match goal with |- context[h_ops h ++ ?m] => replace (h_ops h ++ m) with (ops ++ [(q, v)]) by (destruct (pi_req i); rewrite app_nil_r; symmetry; exact O) end.
    rewrite W, Ad, Wd, F. destruct (p_acc s) eqn:C; cbn [negb opt] in *.
    + destruct (q_wen q) eqn:QW.
      * destruct (a_wrv (pi_ax i)) eqn:V.
        -- apply PI_ans; try reflexivity; cbn [h_ops h_txs h_raws h_ans p_rd]; rewrite ?app_nil_r.
           ++ rewrite nread_app, L. rewrite nread_one. rewrite QW. cbn [negb]. rewrite andb_false_r. cbn [length]. lia.
           ++ rewrite A, <- (app_nil_r (h_raws h)), serve_app by exact L. rewrite app_nil_r. cbn [serve]. rewrite QW. reflexivity.
           ++ rewrite T, transactions_app. rewrite transactions_one. rewrite M. reflexivity.
        -- apply (PI_busy _ _ ops q v); cbn [h_ops h_txs h_raws h_ans p_busy p_rv p_write p_acc p_addr p_wd p_f3]; try assumption; try reflexivity; rewrite ?app_nil_r; auto.
      * destruct (a_rrv (pi_ax i)) eqn:V.
        -- assert (SV : loaded (q_mf3 q) (a_rdata (pi_ax i)) = extract_read (a_rdata (pi_ax i)) (q_mf3 q)).
           { symmetry. apply extract_read_spec; [exact (proj1 K)|]. destruct Q as [_ [_ G]]. rewrite QW in G. exact G. }
           apply PI_ans; try reflexivity; cbn [h_ops h_txs h_raws h_ans p_rd]; rewrite ?app_nil_r.
           ++ rewrite nread_app, app_length, L. rewrite nread_one. rewrite QW, M. cbn [negb andb length]. reflexivity.
           ++ rewrite A, serve_app by exact L. cbn [serve]. rewrite QW, M. cbn [opt]. rewrite SV. reflexivity.
           ++ rewrite T, transactions_app. rewrite transactions_one. rewrite M. reflexivity.
        -- apply (PI_busy _ _ ops q v); cbn [h_ops h_txs h_raws h_ans p_busy p_rv p_write p_acc p_addr p_wd p_f3]; try assumption; try reflexivity; rewrite ?app_nil_r; auto.
    + rewrite (drive_spec q Q). destruct (q_wen q) eqn:QW; cbn [negb andb orb].
      * destruct (a_wacc (pi_ax i)) eqn:V; apply (PI_busy _ _ ops q v); cbn [h_ops h_txs h_raws h_ans p_busy p_rv p_write p_acc p_addr p_wd p_f3]; try assumption; try reflexivity; rewrite ?app_nil_r; auto.
        all: unfold transaction; rewrite QW; cbn [opt]; rewrite ?app_nil_r; auto.
        all: rewrite T, app_nil_r; try reflexivity; rewrite ?app_nil_r; reflexivity.
      * destruct (a_racc (pi_ax i)) eqn:V; apply (PI_busy _ _ ops q v); cbn [h_ops h_txs h_raws h_ans p_busy p_rv p_write p_acc p_addr p_wd p_f3]; try assumption; try reflexivity; rewrite ?app_nil_r; auto.
        all: unfold transaction; rewrite QW; cbn [opt]; rewrite ?app_nil_r; auto.
        all: rewrite T, app_nil_r; try reflexivity; rewrite ?app_nil_r; reflexivity.
Qed.
Lemma preach_inv s h : preach s h -> PINV s h.
Proof. induction 1 as [|s h i R IH K]; [apply PI_idle; reflexivity|apply pinv_step; assumption]. Qed.
