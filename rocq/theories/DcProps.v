(** Properties of the data-cache domain. *)
From Coq Require Import Permutation.
From Verif Require Import Base BaseLemmas MemSpec MemModel MemProofs DcModel DcSpec DcLemmas DcInv DcStage DcMiss DcFill DcTick DcReach DcLoad DcRound DcTrace.
Ltac Zify.zify_post_hook ::= Z.div_mod_to_equations.
#[local] Opaque Z.pow Z.land Z.lor Z.shiftl Z.shiftr.

(** ** C26: address fields and the replacement choice *)
Theorem c26_decode_exact a : is_w 32 a ->
  let f := decode a in
  0 <= f_tag f < 2 ^ 18 /\ 0 <= f_set f < 256 /\ 0 <= f_word f < 16 /\ f_bank f = f_set f mod 16 /\
  a = f_tag f * 2 ^ 14 + f_set f * 2 ^ 6 + f_word f * 4 + a mod 4.
Proof.
  intros A. cbv zeta. rewrite f_tag_eq, f_set_eq, f_word_eq, f_bank_eq. unfold is_w in A. rewrite p32 in A. rewrite p14, p6.
  change (2 ^ 18) with 262144. sp; lia.
Qed.
Theorem c26_encode_exact s t w : 0 <= s < 256 -> 0 <= t < 2 ^ 18 -> 0 <= w < 16 ->
  let f := decode (get_addr s t w) in is_w 32 (get_addr s t w) /\ f_set f = s /\ f_tag f = t /\ f_word f = w.
Proof.
  intros S T W. cbv zeta. rewrite f_tag_eq, f_set_eq, f_word_eq, get_addr_eq by auto. unfold is_w. rewrite p32. change (2 ^ 18) with 262144 in T. sp; lia.
Qed.
Example c26_fields : let f := decode 0x80001234 in (f_tag f, f_set f, f_bank f, f_word f) = (0x20000, 0x48, 8, 13) /\ get_addr 0x48 0x20000 13 = 0x80001234.
Proof. vm_compute. auto. Qed.

(** Tree replacement, from the history of touched ways (latest first): the
    victim lies in the pair of ways not touched last, and in that pair it is the
    way not touched last there. *)
Definition other (w : nat) : nat := match w with 0 => 1 | 1 => 0 | 2 => 3 | _ => 2 end%nat.
Definition pair_of (w : nat) : nat := Nat.div w 2.
Definition last_in (p : nat) (h : list nat) : option nat := find (fun w => Nat.eqb (pair_of w) p) h.
Definition plru_spec (h : list nat) : nat :=
  let p := match h with w :: _ => Nat.sub 1 (pair_of w) | [] => 0%nat end in
  match last_in p h with Some w => other w | None => Nat.mul 2 p end.
Definition plru_run (h : list nat) : nat -> bool := fold_right plru_touch_tree (fun _ => false) h.

Lemma touch_bits w t : (w < 4)%nat -> let t' := plru_touch_tree w t in
  t' 0%nat = Nat.eqb (pair_of w) 0 /\
  t' 1%nat = (if Nat.eqb (pair_of w) 0 then Nat.eqb w 0 else t 1%nat) /\ t' 2%nat = (if Nat.eqb (pair_of w) 1 then Nat.eqb w 2 else t 2%nat).
Proof. intros W. destruct w as [|[|[|[|w]]]]; [| | | |lia]; vm_compute; auto. Qed.
Lemma run_bits h : Forall (fun w => (w < 4)%nat) h ->
  plru_run h 0%nat = (match h with w :: _ => Nat.eqb (pair_of w) 0 | [] => false end) /\
  plru_run h 1%nat = (match last_in 0 h with Some w => Nat.eqb w 0 | None => false end) /\
  plru_run h 2%nat = (match last_in 1 h with Some w => Nat.eqb w 2 | None => false end).
Proof.
  induction 1 as [|w h W F IH]; [vm_compute; auto|]. destruct IH as (I0 & I1 & I2). cbn [plru_run fold_right]. fold (plru_run h).
  destruct (touch_bits w (plru_run h) W) as (B0 & B1 & B2). rewrite B0, B1, B2, I1, I2. cbn [last_in find]. sp; auto.
  - destruct (Nat.eqb (pair_of w) 0); reflexivity.
  - destruct (Nat.eqb (pair_of w) 1); reflexivity.
Qed.
Lemma last_in_pair p h w : Forall (fun w => (w < 4)%nat) h -> last_in p h = Some w -> (w < 4)%nat /\ pair_of w = p.
Proof. intros F E. apply find_some in E. destruct E as [I E]. apply Nat.eqb_eq in E. rewrite Forall_forall in F. auto. Qed.
Theorem c26_victim_exact h valid : Forall (fun w => (w < 4)%nat) h -> (forall w, (w < 4)%nat -> valid w = true) ->
  choose_plru_tree_victim (plru_run h) valid = plru_spec h.
Proof.
  intros F V. unfold choose_plru_tree_victim.
  assert (N : first_way (fun w => negb (valid w)) = None). { apply find_seq_not. intros x X. rewrite V by exact X. reflexivity. }
  rewrite N. destruct (run_bits h F) as (B0 & B1 & B2). unfold WAYS. cbn [plru_victim_loop Nat.leb Nat.div Nat.divmod fst Nat.sub Nat.mul Nat.add].
  rewrite B0. unfold plru_spec. destruct h as [|w h]; [reflexivity|].
  assert (W : (w < 4)%nat) by (inversion F; auto).
  destruct (Nat.eqb_spec (pair_of w) 0) as [P|P].
  - rewrite P. cbn [Nat.sub Nat.add Nat.mul]. rewrite B2. destruct (last_in 1 (w :: h)) as [x|] eqn:L; [|reflexivity].
    destruct (last_in_pair _ _ _ F L) as [X1 X2]. destruct x as [|[|[|[|x]]]]; try lia; try discriminate X2; reflexivity.
  - assert (pair_of w = 1%nat) as -> by (destruct w as [|[|[|[|w]]]]; try lia; try reflexivity; exfalso; apply P; reflexivity).
    cbn [Nat.sub Nat.add Nat.mul]. rewrite B1. destruct (last_in 0 (w :: h)) as [x|] eqn:L; [|reflexivity].
    destruct (last_in_pair _ _ _ F L) as [X1 X2]. destruct x as [|[|[|[|x]]]]; try lia; try discriminate X2; reflexivity.
Qed.
(** An empty way is taken first, and the way touched last is never the victim. *)
Theorem c26_empty_way_first t valid w : (w < 4)%nat -> valid w = false ->
  let v := choose_plru_tree_victim t valid in valid v = false /\ (v <= w)%nat.
Proof.
  intros W V. unfold choose_plru_tree_victim, first_way, WAYS. cbn [seq find].
  destruct w as [|[|[|[|w]]]]; [| | | |lia]; rewrite V; cbn [negb]; destruct (valid 0%nat) eqn:V0; cbn [negb]; auto;
    destruct (valid 1%nat) eqn:V1; cbn [negb]; auto; try (destruct (valid 2%nat) eqn:V2; cbn [negb]; auto); cbn; sp; auto; lia.
Qed.
Theorem c26_last_touched_kept t valid w : (forall x, (x < 4)%nat -> valid x = true) -> (w < 4)%nat -> choose_plru_tree_victim (plru_touch_tree w t) valid <> w.
Proof.
  intros V W. unfold choose_plru_tree_victim.
  assert (N : first_way (fun x => negb (valid x)) = None). { apply find_seq_not. intros x X. rewrite V by exact X. reflexivity. }
  rewrite N. destruct w as [|[|[|[|w]]]]; [| | | |lia]; vm_compute; first [destruct (t 2%nat); discriminate | destruct (t 1%nat); discriminate].
Qed.
Example c26_victims : map (fun h => choose_plru_tree_victim (plru_run h) (fun _ => true)) [[]; [0]; [3; 0]; [1; 2; 0]; [2; 1; 0; 3]]%nat = [0; 2; 1; 3; 0]%nat.
Proof. vm_compute. reflexivity. Qed.

(** ** C27: the miss registers *)
Definition entry (y : sys) (i : nat) : mse := ms_ent (d_ms (y_d y)) i.
Theorem c27_one_entry_per_line m0 y i j : reach m0 y -> (i < 8)%nat -> (j < 8)%nat ->
  me_valid (entry y i) = true -> me_valid (entry y j) = true -> me_addr (entry y i) / 64 = me_addr (entry y j) / 64 -> i = j.
Proof.
  intros R I J VI VJ E. pose proof (k_m _ _ _ _ _ _ (i_core _ _ (reach_inv _ _ R))) as K.
  destruct (mo_a _ _ K i I VI) as (l & L & A). destruct (mo_a _ _ K j J VJ) as (l' & L' & A'). unfold entry in *. rewrite A, A' in E.
  apply (mo_u _ _ K l); repeat split; auto. lia.
Qed.
Theorem c27_count_exact m0 y : reach m0 y -> ms_count (d_ms (y_d y)) = length (filter (fun i => me_valid (entry y i)) (seq 0 8)).
Proof. intros R. apply (mo_c _ _ (k_m _ _ _ _ _ _ (i_core _ _ (reach_inv _ _ R)))). Qed.
(** Merged stores over main memory give the program's view of the line, byte by byte. *)
Theorem c27_merged_stores_exact m0 y i x : reach m0 y -> (i < 8)%nat -> me_valid (entry y i) = true ->
  ~ (ms_hold (d_ms (y_d y)) = true /\ ms_hid (d_ms (y_d y)) = i) -> x / 64 = me_addr (entry y i) / 64 ->
  view m0 y x = if Z.testbit (me_strb (entry y i) ((x / 4) mod 16)) (x mod 4)
                then (me_data (entry y i) ((x / 4) mod 16) / 256 ^ (x mod 4)) mod 256 else bytes_of (y_mem y) x.
Proof.
  intros R I V NH E. pose proof (reach_inv _ _ R) as II. pose proof (i_core _ _ II) as K. destruct (mo_a _ _ (k_m _ _ _ _ _ _ K) i I V) as (l & L & A). unfold entry in *.
  rewrite A in E. replace (l * 64 / 64) with l in E by lia.
  pose proof (v_m _ _ _ _ _ _ (k_v _ _ _ _ _ _ K) l i L) as VM. specialize (VM ltac:(repeat split; auto)).
  assert (NF : ~ (fw_valid (s_fill (d_s (y_d y))) = true /\ ms_hid (d_ms (y_d y)) = i)). { rewrite (i_hold _ _ II). exact NH. }
  specialize (VM NF ((x / 4) mod 16) (x mod 4)). rewrite bsel_ovl in VM by lia. unfold Bl, Ml, bsel in VM.
  replace (l * 64 + (x / 4) mod 16 * 4 + x mod 4) with x in VM by lia. rewrite <- VM by (split; lia).
  destruct (Z.testbit _ _); [reflexivity|]. unfold bytes_of. replace (l * 16 + (x / 4) mod 16) with (x / 4) by lia. reflexivity.
Qed.
(** An entry is requested once: while a read of it is outstanding or its line is
    held, it is not presented again. *)
Theorem c27_requested_once m0 y i a : reach m0 y -> ms_axi_req (d_ms (y_d y)) = Some (i, a) ->
  me_valid (entry y i) = true /\ a = me_addr (entry y i) /\ y_rd y i = None /\ ~ (ms_hold (d_ms (y_d y)) = true /\ ms_hid (d_ms (y_d y)) = i).
Proof.
  intros R E. pose proof (reach_inv _ _ R) as II. pose proof (k_m _ _ _ _ _ _ (i_core _ _ II)) as K. unfold ms_axi_req in E.
  destruct (find _ _) as [j|] eqn:F; [|discriminate]. injection E as <- <-. apply find_seq_some in F. destruct F as [J F]. apply andb_true_iff in F. destruct F as [V NI]. apply negb_true_iff in NI.
  unfold entry. sp; auto.
  - destruct (y_rd y j) as [b|] eqn:RD; auto. destruct (i_renv _ _ II j b RD) as (_ & _ & X & _). congruence.
  - intros [H1 H2]. destruct (mo_h _ _ K H1) as (_ & _ & X). congruence.
Qed.

(** ** C28: the write buffer *)
Definition wbent (y : sys) (k : nat) : wbe := wb_buf (d_wb (y_d y)) (Nat.modulo (wb_head (d_wb (y_d y)) + k) 8).
Theorem c28_entries_exact m0 y k : reach m0 y -> (k < wb_count (d_wb (y_d y)))%nat ->
  (wb_count (d_wb (y_d y)) <= 8)%nat /\ (exists l, 0 <= l < 2 ^ 26 /\ we_addr (wbent y k) = l * 64) /\
  (forall j, (j < wb_count (d_wb (y_d y)))%nat -> we_addr (wbent y j) = we_addr (wbent y k) -> j = k) /\
  (forall x, x / 64 = we_addr (wbent y k) / 64 -> view m0 y x = (we_data (wbent y k) ((x / 4) mod 16) / 256 ^ (x mod 4)) mod 256).
Proof.
  intros R Hk. pose proof (reach_inv _ _ R) as II. pose proof (i_core _ _ II) as K. pose proof (k_w _ _ _ _ _ _ K) as W.
  destruct (wo_a _ W k Hk) as (l & L & A). assert (HW : hasW (d_wb (y_d y)) l k) by (split; auto). sp.
  - apply W.
  - exists l. split; [exact L|exact A].
  - intros j J E. apply (wo_u _ W l); auto. split; auto. transitivity (we_addr (wbent y k)); [exact E|exact A].
  - intros x X. change (wbent y k) with (went (d_wb (y_d y)) k) in *. rewrite A in X. replace (l * 64 / 64) with l in X by lia.
    pose proof (v_w _ _ _ _ _ _ (k_v _ _ _ _ _ _ K) l k L HW ((x / 4) mod 16) (x mod 4)) as V. unfold Bl, bsel in V. rewrite V by (split; lia). f_equal. lia.
Qed.
(** Lines leave oldest first, and the line in flight is the one accepted. *)
Theorem c28_oldest_first m0 y : reach m0 y ->
  (forall e, wb_axi_req (d_wb (y_d y)) = Some e -> e = wbent y 0 /\ y_wr y = None) /\
  (forall a d, y_wr y = Some (a, d) -> (0 < wb_count (d_wb (y_d y)))%nat /\ a = we_addr (wbent y 0) /\ d = we_data (wbent y 0)).
Proof.
  intros R. pose proof (reach_inv _ _ R) as II. destruct (i_wenv _ _ II) as [E1 E2]. pose proof (k_w _ _ _ _ _ _ (i_core _ _ II)) as W. split.
  - intros e H. unfold wb_axi_req in H. destruct (wb_send (d_wb (y_d y))); [discriminate|]. destruct (Nat.eqb _ _); [discriminate|]. injection H as <-. split; [|auto].
    unfold wbent. rewrite Nat.add_0_r, Nat.mod_small by apply W. reflexivity.
  - intros a d H. destruct (wb_send (d_wb (y_d y))); [|rewrite E2 in H by auto; discriminate]. destruct (E1 eq_refl) as [P Q]. rewrite Q in H. injection H as <- <-. auto.
Qed.
(** Each tick the buffer loses its oldest line if that line's write is answered,
    and nothing else; a newly evicted line goes to the end.  With
    [c28_oldest_first] no line is sent twice. *)
Definition wblines (y : sys) : list Z := map (fun k => we_addr (wbent y k)) (seq 0 (wb_count (d_wb (y_d y)))).
Definition addrs (wb : wbst) : list Z := map (fun k => we_addr (went wb k)) (seq 0 (wb_count wb)).
Lemma addrs_axi a r wb : addrs (wb_inputs_axi a r wb) = if r then tl (addrs wb) else addrs wb.
Proof.
  unfold wb_inputs_axi, addrs. destruct r; [|destruct a; reflexivity].
  set (wbs := if a then _ else wb). assert (E : wb_buf wbs = wb_buf wb /\ wb_head wbs = wb_head wb /\ wb_count wbs = wb_count wb) by (unfold wbs; destruct a; auto).
  destruct E as (-> & -> & ->). destruct (wb_count wb) as [|n] eqn:C; cbn [Nat.ltb Nat.leb].
  - reflexivity.
  - cbn [wb_count seq map tl]. rewrite Nat.sub_succ, Nat.sub_0_r, <- seq_shift, map_map. apply map_ext. intros k. unfold went. cbn [wb_buf]. f_equal. f_equal.
    unfold wslot at 1. cbn [wb_head]. apply wslot_pop.
Qed.
Lemma addrs_merge wb q : addrs (snd (wb_merge wb q)) = addrs wb.
Proof.
  unfold wb_merge. destruct q as [q|]; [|reflexivity]. destruct (find_wb_entry wb _) as [i|]; [|reflexivity]. destruct (_ && _); [reflexivity|].
  unfold addrs. cbn [snd wb_count]. apply map_ext. intros k. unfold went, wslot. cbn [wb_buf wb_head]. unfold fupd. destruct (Nat.eqb_spec (Nat.modulo (wb_head wb + k) 8) i) as [->|]; reflexivity.
Qed.
Lemma addrs_push d wb : exists l, addrs (wb_push d wb) = addrs wb ++ l /\ (length l <= 1)%nat.
Proof.
  unfold wb_push. destruct d as [e|]; [|exists []; rewrite app_nil_r; auto]. unfold WBS. destruct (Nat.ltb_spec (wb_count wb) 8) as [L|]; [|exists []; rewrite app_nil_r; auto].
  exists [we_addr e]. split; [|auto]. unfold addrs. cbn [wb_count]. rewrite Nat.add_1_r, seq_S, map_app. cbn [map Nat.add]. f_equal.
  - apply map_ext_in. intros k K. apply in_seq in K. unfold went, wslot. cbn [wb_buf wb_head]. unfold fupd.
    destruct (Nat.eqb_spec (Nat.modulo (wb_head wb + k) 8) (Nat.modulo (wb_head wb + wb_count wb) 8)) as [E|]; [|reflexivity].
    apply (wslot_inj wb k (wb_count wb)) in E; lia.
  - unfold went, wslot. cbn [wb_buf wb_head]. unfold fupd. rewrite Nat.eqb_refl. reflexivity.
Qed.
Lemma comb_addrs i s : addrs (x_wb (comb_outputs i s)) = if ti_wresp i then tl (addrs (d_wb s)) else addrs (d_wb s).
Proof.
  unfold comb_outputs. cbv zeta. destruct (ms_inputs_axi _ _ _) as [acc ms1]. rewrite <- (addrs_axi (ti_wacc i) (ti_wresp i) (d_wb s)).
  pose proof (addrs_merge (wb_inputs_axi (ti_wacc i) (ti_wresp i) (d_wb s)) (w_mg0 (d_w s))) as M0. destruct (wb_merge _ (w_mg0 (d_w s))) as [mg0 wb2]. cbn [snd] in M0.
  pose proof (addrs_merge wb2 (w_mg1 (d_w s))) as M1. destruct (wb_merge wb2 _) as [mg1 wb3]. cbn [snd] in M1. destruct (s2_fill _ _ _) as [[fw0 dirty] done]. cbn [x_wb]. congruence.
Qed.
Theorem c28_queue_exact y i o y' : step y i o y' ->
  exists l, wblines y' = (if ti_wresp i then tl (wblines y) else wblines y) ++ l /\ (length l <= 1)%nat.
Proof.
  intros ST. inversion ST as [m' s' o' AX RQ TK E1 E2]. subst. unfold tick in TK. cbv zeta in TK.
  destruct (forward _ _) as [p2 fr]. destruct (stage1 _ _ _ _ _ _) as [s12 w]. injection TK as <- <-. change (wblines ?z) with (addrs (d_wb (y_d z))). cbn [y_d d_wb].
  rewrite <- comb_addrs. apply addrs_push.
Qed.
(** A line is in at most one of the cache, the write buffer and the miss registers. *)
Theorem c28_one_place m0 y a : reach m0 y -> is_w 32 a ->
  let inC := exists v, (v < 4)%nat /\ c_valid (d_cache (y_d y)) (f_set (decode a)) v = true /\ c_tag (d_cache (y_d y)) (f_set (decode a)) v = f_tag (decode a) in
  let inW := exists k, (k < wb_count (d_wb (y_d y)))%nat /\ we_addr (wbent y k) = a / 64 * 64 in
  let inM := exists i, (i < 8)%nat /\ me_valid (entry y i) = true /\ me_addr (entry y i) = a / 64 * 64 in
  ~ (inC /\ inW) /\ ~ (inC /\ inM) /\ ~ (inW /\ inM) /\
  (forall v v', (v < 4)%nat -> (v' < 4)%nat -> c_valid (d_cache (y_d y)) (f_set (decode a)) v = true -> c_valid (d_cache (y_d y)) (f_set (decode a)) v' = true ->
     c_tag (d_cache (y_d y)) (f_set (decode a)) v = f_tag (decode a) -> c_tag (d_cache (y_d y)) (f_set (decode a)) v' = f_tag (decode a) -> v = v').
Proof.
  intros R A. cbv zeta. rewrite f_set_eq, f_tag_eq. pose proof (i_core _ _ (reach_inv _ _ R)) as K. pose proof (line_range _ A) as L. destruct (k_x _ _ _ _ _ _ K) as [X1 X2 X3]. sp.
  - intros [(v & V1 & V2 & V3) (k & K1 & K2)]. apply (X1 (a / 64) v k L); repeat split; auto.
  - intros [(v & V1 & V2 & V3) (k & K1 & K2 & K3)]. apply (X2 (a / 64) v k L); repeat split; auto.
  - intros [(v & V1 & V2) (k & K1 & K2 & K3)]. apply (X3 (a / 64) v k L); repeat split; auto.
  - intros v v' V V' C C' T T'. apply (co_u _ (k_c _ _ _ _ _ _ K) (a / 64)); repeat split; auto.
Qed.
Example c28_full : reach (fun _ => 0) y13 /\ wb_count (d_wb (y_d y13)) = 8%nat /\ map (fun k => we_addr (wbent y13 k) / 16384) (seq 0 8) = [0; 2; 1; 3; 4; 5; 6; 7] /\
  map (fun k => c_tag (d_cache (y_d y13)) 0 k) (seq 0 4) = [8; 10; 9; 11] /\ ms_count (d_ms (y_d y13)) = 1%nat.
Proof.
  split; [|vm_compute; repeat split]. apply (cycles_reach (fun _ => 0) 15 lines (sys0 (fun _ => 0))); [constructor|reflexivity|].
  unfold lines. apply Forall_forall. intros r H. apply in_map_iff in H. destruct H as (k & <- & H). apply in_seq in H. repeat split; cbn -[Z.mul]; unfold is_w; rewrite ?p32; lia.
Qed.

(** ** C49: loads *)
(** Answered in stage 2: the memory as of the stores acknowledged so far. *)
Theorem c49_stage2_load_current m0 y i o y' k q b p : reach m0 y -> step y i o y' -> (k < 2)%nat ->
  slotL k (d_s (y_d y)) = Some (q, b) -> rawL k o = Some p -> lp_replay p = HIT -> is_word (view m0 y) (lq_addr q) (lp_data p).
Proof.
  intros R ST Hk S P H. destruct (tick_load m0 y i o y' k (reach_inv _ _ R) ST Hk) as (_ & T & _). rewrite S in T. destruct T as (p' & T1 & _ & T3).
  rewrite P in T1. injection T1 as <-. auto.
Qed.
(** Published answers: the memory as of some point between the presentation and
    the publication, unless the line was already waiting in the fill register
    when the load was presented; then some earlier point. *)
Theorem c49_published_load_partial m0 y0 i0 o0 y1 n y2 i o y3 k q p : reach m0 y0 -> step y0 i0 o0 y1 -> ti_clear i0 = true -> fast y1 (S n) y2 -> step y2 i o y3 -> (k < 2)%nat ->
  reqL k (ti_rq i0) = Some q -> latL k (to_pend o) = Some p -> lp_replay p = HIT ->
  exists j, (j <= length (y_hist y3))%nat /\ is_word (after_stores (bytes_of m0) (firstn j (y_hist y3))) (lq_addr q) (lp_data p) /\
    ((length (y_hist y1) <= j)%nat \/
     (ms_hold (d_ms (y_d y1)) = true /\ me_addr (entry y1 (ms_hid (d_ms (y_d y1)))) / 64 = lq_addr q / 64)).
Proof.
  intros R S0 C F S1 Hk Q P H. pose proof (wi_l _ _ _ _ _ (round m0 _ _ _ _ _ _ _ _ _ R S0 C F S1) k Hk) as W. unfold loadW in W. rewrite Q in W.
  destruct W as (r & W1 & _ & _ & W4). rewrite P in W1. injection W1 as <-. destruct (W4 H) as (j & J1 & J2 & J3). exists j. sp; auto.
  destruct J3 as [J3|[J3 J4]]; [auto|right]. split; auto. unfold entry. rewrite J4. lia.
Qed.
(** With no line waiting there, the answer is current. *)
Theorem c49_published_load_current m0 y0 i0 o0 y1 n y2 i o y3 k q p : reach m0 y0 -> step y0 i0 o0 y1 -> ti_clear i0 = true -> fast y1 (S n) y2 -> step y2 i o y3 -> (k < 2)%nat ->
  reqL k (ti_rq i0) = Some q -> latL k (to_pend o) = Some p -> lp_replay p = HIT -> ms_hold (d_ms (y_d y1)) = false ->
  exists j, (length (y_hist y1) <= j <= length (y_hist y3))%nat /\ is_word (after_stores (bytes_of m0) (firstn j (y_hist y3))) (lq_addr q) (lp_data p).
Proof.
  intros R S0 C F S1 Hk Q P H NH. destruct (c49_published_load_partial m0 y0 i0 o0 y1 n y2 i o y3 k q p R S0 C F S1 Hk Q P H) as (j & J1 & J2 & [J3|[J3 _]]); [|congruence].
  exists j. auto.
Qed.
Lemma lines_ok : Forall rq_ok (lines ++ [st_rq (12 * 16384) 2]).
Proof.
  apply Forall_app. split.
  - unfold lines. apply Forall_forall. intros r H. apply in_map_iff in H. destruct H as (k & <- & H). apply in_seq in H. repeat split; cbn -[Z.mul]; unfold is_w; rewrite ?p32; lia.
  - constructor; [|constructor]. repeat split; cbn -[Z.mul]; unfold is_w; rewrite ?p32; lia.
Qed.
Lemma cycles_app n l l' y : cycles n (l ++ l') y = cycles n l' (cycles n l y).
Proof. revert y. induction l as [|r l IH]; intros y; [reflexivity|]. cbn [app cycles]. apply IH. Qed.
Lemma cycles_one n r y : cycles n [r] y = cycle n r y.
Proof. reflexivity. Qed.
Lemma y14_reach : reach (fun _ => 0) y14 /\ y_wr y14 = None.
Proof.
  assert (E : y14 = cycles 15 (lines ++ [st_rq (12 * 16384) 2]) (sys0 (fun _ => 0))). { rewrite cycles_app, cycles_one. unfold y14, y13. apply eq_refl. }
  rewrite E. apply cycles_reach; [constructor|reflexivity|exact lines_ok].
Qed.
(** A line waits in the fill register because the write buffer is full.  A store
    to it is acknowledged; a load presented afterwards is answered HIT with the
    old word. *)
Theorem c49_load_current_refuted : exists m0 y0 i0 o0 y1 n y2 i o y3 k q p,
  reach m0 y0 /\ step y0 i0 o0 y1 /\ ti_clear i0 = true /\ fast y1 (S n) y2 /\ step y2 i o y3 /\ (k < 2)%nat /\
  reqL k (ti_rq i0) = Some q /\ latL k (to_pend o) = Some p /\ lp_replay p = HIT /\
  forall j, (length (y_hist y1) <= j)%nat -> ~ is_word (after_stores (bytes_of m0) (firstn j (y_hist y3))) (lq_addr q) (lp_data p).
Proof.
  destruct y14_reach as [R W].
  destruct (auto_step (ld_rq (12 * 16384)) true y14 W) as [S0 W0]; [repeat split; cbn -[Z.mul]; unfold is_w; rewrite ?p32; lia|].
  destruct (auto_fast_ok 15 y15 W0) as [F W1]. destruct (auto_step no_request true y16 W1) as [S1 _]; [repeat split|].
  exists (fun _ => 0), y14, (auto_in (ld_rq (12 * 16384)) true y14), (fst (auto (ld_rq (12 * 16384)) true y14)), y15, 14%nat, y16,
    (auto_in no_request true y16), (fst (auto no_request true y16)), (snd (auto no_request true y16)), 0%nat, (mklr (12 * 16384) 9), (mklp 1 HIT 9).
  split; [exact R|]. split; [exact S0|]. split; [reflexivity|]. split; [exact F|]. split; [exact S1|]. split; [lia|]. split; [reflexivity|]. split; [vm_compute; reflexivity|]. split; [reflexivity|].
  intros j J X. specialize (X 0 ltac:(lia)).
  assert (L : length (y_hist y15) = 14%nat) by (vm_compute; reflexivity). assert (L3 : length (y_hist (snd (auto no_request true y16))) = 14%nat) by (vm_compute; reflexivity).
  rewrite firstn_all2 in X by lia. vm_compute in X. discriminate X.
Qed.

(** ** C50: one answer per request; acknowledged stores performed once and in order *)
Theorem c50_one_answer m0 y0 i0 o0 y1 n y2 i o y3 k : reach m0 y0 -> step y0 i0 o0 y1 -> ti_clear i0 = true -> fast y1 (S n) y2 -> step y2 i o y3 -> (k < 2)%nat ->
  match reqL k (ti_rq i0) with None => latL k (to_pend o) = None | Some q => exists p, latL k (to_pend o) = Some p /\ lp_id p = lq_id q end /\
  match reqT k (ti_rq i0) with None => latT k (to_pend o) = None | Some q => exists p, latT k (to_pend o) = Some p /\ sp_id p = sq_id q end.
Proof.
  intros R S0 C F S1 Hk. pose proof (round m0 _ _ _ _ _ _ _ _ _ R S0 C F S1) as W. pose proof (wi_l _ _ _ _ _ W k Hk) as L. pose proof (wi_s _ _ _ _ _ W k Hk) as T.
  unfold loadW in L. unfold storeW in T. split.
  - destruct (reqL k (ti_rq i0)); [|auto]. destruct L as (r & L1 & L2 & _). eauto.
  - destruct (reqT k (ti_rq i0)); [|auto]. destruct T as (r & T1 & T2 & _). eauto.
Qed.
(** The stores performed from presentation to publication are exactly those
    published HIT, each once; stores to one line keep port order. *)
Theorem c50_stores_once m0 y0 i0 o0 y1 n y2 i o y3 : reach m0 y0 -> step y0 i0 o0 y1 -> ti_clear i0 = true -> fast y1 (S n) y2 -> step y2 i o y3 ->
  let d0 := done_by (rq_st0 (ti_rq i0)) (la_st0 (to_pend o)) in let d1 := done_by (rq_st1 (ti_rq i0)) (la_st1 (to_pend o)) in
  exists l, y_hist y3 = y_hist y1 ++ l /\ Permutation l (d0 ++ d1) /\ (one_line (ti_rq i0) -> l = d0 ++ d1 /\ (d1 <> [] -> d0 <> [])).
Proof.
  intros R S0 C F S1. cbv zeta. pose proof (round m0 _ _ _ _ _ _ _ _ _ R S0 C F S1) as W. destruct (wi_h _ _ _ _ _ W) as (l & E & HL). cbv zeta in HL. exists l. sp; auto.
  - destruct HL as [-> | [-> _]]; [apply Permutation_refl|apply Permutation_app_comm].
  - intros OL. destruct HL as [-> | [_ N]]; [|contradiction]. split; auto. pose proof (wi_o _ _ _ _ _ W OL) as O. unfold one_line in OL.
    pose proof (wi_s _ _ _ _ _ W 0%nat ltac:(lia)) as T0. pose proof (wi_s _ _ _ _ _ W 1%nat ltac:(lia)) as T1. unfold storeW in T0, T1. cbn [reqT latT] in T0, T1.
    unfold done_by. destruct (rq_st0 (ti_rq i0)) as [q0|]; [|contradiction]. destruct (rq_st1 (ti_rq i0)) as [q1|]; [|contradiction].
    destruct T0 as (r0 & X0 & _). destruct T1 as (r1 & X1 & _). rewrite X0, X1 in *. cbn [ordered] in O. destruct O as [O1 O2].
    destruct (sp_replay r0); cbn [waits] in *; try discriminate; [rewrite (O1 eq_refl); congruence| |]; specialize (O2 eq_refl); destruct (sp_replay r1); try discriminate O2; congruence.
Qed.
Example c50_two_stores :
  let rq := mkrq (Some (mklr 64 1)) None (Some (mksr 128 7 15 2)) (Some (mksr 132 8 3 3)) 2 in
  let y1 := snd (auto rq true (sys0 (fun x => x))) in let o := fst (auto no_request true (auto_fast 15 y1)) in let y3 := snd (auto no_request true (auto_fast 15 y1)) in
  la_ld0 (to_pend o) = Some (mklp 16 HIT 1) /\ la_st0 (to_pend o) = Some (mksp HIT 2) /\ la_st1 (to_pend o) = Some (mksp HIT 3) /\
  y_hist y3 = [mkds 128 7 15; mkds 132 8 3] /\ ms_count (d_ms (y_d y3)) = 0%nat.
Proof. vm_compute. repeat split. Qed.

(** ** C51: nothing is lost *)
(** A byte whose line is nowhere in the domain is up to date in main memory; so
    is one whose line is only in a clean way. *)
Theorem c51_absent_line_in_memory m0 y x : reach m0 y -> is_w 32 x ->
  (forall v, (v < 4)%nat -> c_valid (d_cache (y_d y)) (f_set (decode x)) v = true -> c_tag (d_cache (y_d y)) (f_set (decode x)) v = f_tag (decode x) -> c_dirty (d_cache (y_d y)) (f_set (decode x)) v = false) ->
  (forall k, (k < wb_count (d_wb (y_d y)))%nat -> we_addr (wbent y k) <> x / 64 * 64) ->
  (forall i, (i < 8)%nat -> me_valid (entry y i) = true -> me_addr (entry y i) <> x / 64 * 64) ->
  bytes_of (y_mem y) x = view m0 y x.
Proof.
  intros R A NC NW NM. rewrite f_set_eq, f_tag_eq in NC. pose proof (i_core _ _ (reach_inv _ _ R)) as K. pose proof (line_range _ A) as L. pose proof (k_v _ _ _ _ _ _ K) as V.
  assert (G : bsel (Ml (y_mem y) (x / 64) ((x / 4) mod 16)) (x mod 4) = Bl (view m0 y) (x / 64) ((x / 4) mod 16) (x mod 4)).
  { assert (WK : wk ((x / 4) mod 16) (x mod 4)) by (split; lia).
    destruct (hasC_dec (d_cache (y_d y)) (x / 64)) as [[v HC]|N].
    - apply (v_cc _ _ _ _ _ _ V (x / 64) v); auto. destruct HC as (H1 & H2 & H3). auto.
    - apply (v_0 _ _ _ _ _ _ V); auto.
      + intros j [J E]. exact (NW j J E).
      + intros i (I & VI & E). exact (NM i I VI E). }
  unfold Ml, Bl, bsel in G. replace (x / 64 * 16 + (x / 4) mod 16) with (x / 4) in G by lia. replace (x / 64 * 64 + (x / 4) mod 16 * 4 + x mod 4) with x in G by lia. exact G.
Qed.
(** With no dirty way, no miss and an empty write buffer, main memory is the
    initial memory with every acknowledged store applied, in order. *)
Theorem c51_drained_memory m0 y : reach m0 y ->
  (forall s v, c_dirty (d_cache (y_d y)) s v = false) -> wb_count (d_wb (y_d y)) = 0%nat -> ms_count (d_ms (y_d y)) = 0%nat ->
  forall x, is_w 32 x -> bytes_of (y_mem y) x = after_stores (bytes_of m0) (y_hist y) x.
Proof.
  intros R D W M x A. apply (c51_absent_line_in_memory m0 y x R A); auto.
  - intros k K. lia.
  - intros i I V. rewrite (c27_count_exact m0 y R) in M. apply length_zero_iff_nil in M.
    exfalso. assert (In i []) as []. rewrite <- M. apply filter_In. split; auto. apply in_seq. lia.
Qed.
(** Cached lines, and the line in the fill register, hold the program's view. *)
Theorem c51_cached_line_exact m0 y x v : reach m0 y -> is_w 32 x -> (v < 4)%nat ->
  c_valid (d_cache (y_d y)) (f_set (decode x)) v = true -> c_tag (d_cache (y_d y)) (f_set (decode x)) v = f_tag (decode x) ->
  (c_data (d_cache (y_d y)) (f_set (decode x)) v (f_word (decode x)) / 256 ^ (x mod 4)) mod 256 = view m0 y x.
Proof.
  intros R A HV V T. rewrite f_set_eq, f_tag_eq in *. rewrite f_word_eq. pose proof (i_core _ _ (reach_inv _ _ R)) as K. pose proof (line_range _ A) as L.
  pose proof (v_c _ _ _ _ _ _ (k_v _ _ _ _ _ _ K) (x / 64) v L ltac:(repeat split; auto) ((x / 4) mod 16) (x mod 4) ltac:(split; lia)) as G.
  unfold Bl, bsel in G. replace (x / 64 * 64 + (x / 4) mod 16 * 4 + x mod 4) with x in G by lia. exact G.
Qed.
Example c51_drained : let y := cycles 15 [ld_rq 4096; ld_rq 8192] (sys0 (fun x => x)) in
  forallb (fun s => forallb (fun v => negb (c_dirty (d_cache (y_d y)) (Z.of_nat s) v)) (seq 0 4)) (seq 0 256) = true /\ wb_count (d_wb (y_d y)) = 0%nat /\ ms_count (d_ms (y_d y)) = 0%nat /\
  c_valid (d_cache (y_d y)) 64 0%nat = true /\ c_data (d_cache (y_d y)) 64 0%nat 3 = 1027.
Proof. vm_compute. repeat split. Qed.

Print Assumptions c26_decode_exact.
Print Assumptions c26_encode_exact.
Print Assumptions c26_victim_exact.
Print Assumptions c26_empty_way_first.
Print Assumptions c26_last_touched_kept.
Print Assumptions c27_one_entry_per_line.
Print Assumptions c27_count_exact.
Print Assumptions c27_merged_stores_exact.
Print Assumptions c27_requested_once.
Print Assumptions c28_entries_exact.
Print Assumptions c28_oldest_first.
Print Assumptions c28_queue_exact.
Print Assumptions c28_one_place.
Print Assumptions c49_stage2_load_current.
Print Assumptions c49_published_load_partial.
Print Assumptions c49_published_load_current.
Print Assumptions c49_load_current_refuted.
Print Assumptions c50_one_answer.
Print Assumptions c50_stores_once.
Print Assumptions c51_absent_line_in_memory.
Print Assumptions c51_drained_memory.
Print Assumptions c51_cached_line_exact.
