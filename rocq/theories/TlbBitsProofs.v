(** Round trips through the bit vectors, and calls through them. *)
From Verif Require Import Base BaseLemmas PtwModel TlbModel TlbBits.
Ltac Zify.zify_post_hook ::= Z.div_mod_to_equations.
#[local] Opaque Z.pow Z.land Z.lor Z.shiftl Z.shiftr.

(** Words of a width; the declared widths of the fields (TlbMmu.h:55-86). *)
Definition fits (n : nat) (v : Z) : Prop := 0 <= v < 2 ^ Z.of_nat n.
Record entry_ok (e : entry) : Prop := {
  eo_asid : fits 9 (e_asid e); eo_lev : fits 1 (e_level e); eo_v1 : fits 10 (e_vpn1 e); eo_v0 : fits 10 (e_vpn0 e); eo_ppn : fits 22 (e_ppn e); eo_perm : fits 8 (e_perm e) }.
Record walk_ok (w : wregs) : Prop := {
  wo_va : fits 32 (w_va w); wo_type : fits 2 (w_type w); wo_satp : fits 32 (w_satp w); wo_priv : fits 2 (w_priv w) }.
Record refill_ok (n : Z) (f : refill) : Prop := {
  ro_e : entry_ok (f_entry f); ro_slot : fits (slot_width n) (f_slot f); ro_next : fits (slot_width n) (f_next f) }.
Record req_ok (q : wreq) : Prop := { qo_va : fits 32 (q_va q); qo_satp : fits 32 (q_satp q); qo_type : fits 2 (q_type q) }.

Lemma enc_length n : forall v, length (enc n v) = n.
Proof. induction n as [|n IH]; intros v; cbn [enc length]; auto. Qed.
Lemma val_enc n : forall v, val (enc n v) = v mod 2 ^ Z.of_nat n.
Proof.
  induction n as [|n IH]; intros v; cbn [enc val].
  - change (2 ^ Z.of_nat 0) with 1. now rewrite Z.mod_1_r.
  - rewrite IH, Z.shiftr_div_pow2 by lia. change (2 ^ 1) with 2. rewrite Nat2Z.inj_succ, Z.pow_succ_r by lia.
    pose proof (Z.pow_pos_nonneg 2 (Z.of_nat n) ltac:(lia) ltac:(lia)) as P.
    replace (Z.b2z (Z.odd v)) with (v mod 2) by (rewrite Zmod_odd; now destruct (Z.odd v)).
    rewrite Z.rem_mul_r by lia. reflexivity.
Qed.
Lemma rd_enc n v l : rd n (enc n v ++ l) = (v mod 2 ^ Z.of_nat n, l).
Proof.
  unfold rd. rewrite firstn_app, skipn_app, enc_length, Nat.sub_diag, firstn_all2, skipn_all2 by (rewrite enc_length; lia).
  cbn [firstn skipn app]. now rewrite app_nil_r, val_enc.
Qed.
Lemma rd_ok n v l : fits n v -> rd n (enc n v ++ l) = (v, l).
Proof. intros F. rewrite rd_enc, Z.mod_small; auto. Qed.
Lemma rdb_cons b l : rdb (b :: l) = (b, l).
Proof. reflexivity. Qed.
Ltac flat := rewrite <- ?app_comm_cons, <- ?app_assoc, <- ?app_comm_cons, <- ?app_assoc.
Ltac rds := repeat (flat; first [rewrite rdb_cons | rewrite rd_ok by assumption]; cbv iota beta).
Lemma dec_enc_entry e l : entry_ok e -> dec_entry (enc_entry e ++ l) = (e, l).
Proof. intros []. destruct e as [x1 x2 x3 x4 x5 x6 x7 x8]. unfold dec_entry, enc_entry. cbn [e_valid e_glob e_asid e_level e_vpn1 e_vpn0 e_ppn e_perm] in *. rds. reflexivity. Qed.
Lemma dec_enc_look k l : entry_ok (l_entry k) -> dec_look (enc_look k ++ l) = (k, l).
Proof. intros E. destruct k as [x1 x2]. unfold dec_look, enc_look. cbn [l_hit l_entry] in *. flat. rewrite rdb_cons, dec_enc_entry by assumption. reflexivity. Qed.
Lemma dec_enc_walk w l : walk_ok w -> dec_walk (enc_walk w ++ l) = (w, l).
Proof. intros []. destruct w as [x1 x2 x3 x4 x5 x6 x7 x8]. unfold dec_walk, enc_walk. cbn [w_act w_sent w_va w_type w_satp w_priv w_mxr w_sum] in *. rds. reflexivity. Qed.
Lemma dec_enc_refill n f l : refill_ok n f -> dec_refill n (enc_refill n f ++ l) = (f, l).
Proof. intros [E]. destruct f as [x1 x2 x3 x4]. unfold dec_refill, enc_refill. cbn [f_valid f_entry f_slot f_next] in *. flat. rewrite rdb_cons. cbv iota beta. rewrite dec_enc_entry by assumption. rds. reflexivity. Qed.
Lemma dec_enc_req v q l : req_ok q -> dec_req (enc_req v q ++ l) = (v, q, l).
Proof. intros []. destruct q as [x1 x2 x3]. unfold dec_req, enc_req. cbn [q_va q_satp q_type] in *. rds. reflexivity. Qed.

(** What the walk-port view keeps of a response: the page, the entry without its two
    software bits, the level. *)
Definition view (r : wresp) : wresp :=
  mkwr (r_fault r) (w32 (Z.shiftl (Z.shiftr (r_va r) 12 mod 2 ^ 20) 12)) (unpack_pte (pack_pte (r_pte r) mod 2 ^ 30)) (r_level r mod 2).
Lemma dec_enc_view a v r l : dec_view (enc_view a v r ++ l) = (a, v, view r, l).
Proof. destruct r as [x1 x2 x3 x4]. unfold dec_view, enc_view, view. cbn [r_fault r_va r_pte r_level]. repeat (flat; first [rewrite rdb_cons | rewrite rd_enc]; cbv iota beta). change (2 ^ Z.of_nat 20) with (2 ^ 20). change (2 ^ Z.of_nat 30) with (2 ^ 30). change (2 ^ Z.of_nat 1) with 2. reflexivity. Qed.

Lemma land_testbit p k m : 0 <= k -> Z.testbit (Z.land p (2 ^ k - 1)) m = Z.testbit p m && (m <? k).
Proof. intros K. destruct (Z.ltb_spec m 0); [rewrite !Z.testbit_neg_r by lia; reflexivity|]. rewrite Z.land_spec. f_equal. replace (2 ^ k - 1) with (Z.ones k) by (rewrite Z.ones_equiv; lia). destruct (Z.ltb_spec m k); [apply Z.ones_spec_low|apply Z.ones_spec_high]; lia. Qed.
Lemma view_page r : fits 32 (r_va r) -> Z.shiftr (r_va (view r)) 12 = Z.shiftr (r_va r) 12.
Proof.
  unfold fits, view. cbn [r_va]. intros F. rewrite Z.shiftl_mul_pow2, !Z.shiftr_div_pow2 by lia. change (2 ^ Z.of_nat 32) with 4294967296 in F. change (2 ^ 12) with 4096. change (2 ^ 20) with 1048576. unfold w32. change (2 ^ 32) with 4294967296.
  rewrite (Z.mod_small (r_va r / 4096)) by lia. rewrite Z.mod_small by lia. now rewrite Z.div_mul by lia.
Qed.
Lemma mod_bits v n m : 0 <= n -> Z.testbit (v mod 2 ^ n) m = Z.testbit v m && (m <? n).
Proof. intros N. destruct (Z.ltb_spec m n). - rewrite andb_true_r. destruct (Z.ltb_spec m 0); [rewrite !Z.testbit_neg_r by lia; reflexivity|]. apply Z.mod_pow2_bits_low; lia. - rewrite andb_false_r. apply Z.mod_pow2_bits_high; lia. Qed.
Lemma view_pte_bit p m : 0 <= m -> Z.testbit (unpack_pte (pack_pte p mod 2 ^ 30)) m = Z.testbit p m && ((m <? 8) || ((10 <=? m) && (m <? 32))).
Proof.
  intros M. unfold unpack_pte, pack_pte, w32. change 255 with (2 ^ 8 - 1). change 4194303 with (2 ^ 22 - 1).
  rewrite Z.lor_spec, mod_bits, land_testbit by lia. rewrite Z.shiftl_spec by lia.
  assert (Y : forall k, 0 <= k -> Z.testbit (Z.lor (Z.shiftl (Z.land (Z.shiftr p 10) (2 ^ 22 - 1)) 8) (Z.land p (2 ^ 8 - 1)) mod 2 ^ 30) k
     = (Z.testbit p (k + 2) && (8 <=? k) && (k <? 30)) || (Z.testbit p k && (k <? 8))).
  { intros k K. rewrite mod_bits, Z.lor_spec, Z.shiftl_spec, !land_testbit by lia. destruct (Z.ltb_spec k 8) as [H|H].
    - rewrite (Z.testbit_neg_r _ (k - 8)) by lia. replace (8 <=? k) with false by lia. replace (k <? 30) with true by lia. rewrite ?andb_false_r, ?andb_false_l, ?orb_false_l, ?andb_true_r. reflexivity.
    - rewrite Z.shiftr_spec by lia. replace (k - 8 + 10) with (k + 2) by lia. replace (8 <=? k) with true by lia. replace (k - 8 <? 22) with (k <? 30) by lia. destruct (Z.testbit p (k + 2)), (Z.testbit p k), (k <? 30); reflexivity. }
  destruct (Z.ltb_spec m 10) as [H|H].
  - rewrite (Z.testbit_neg_r _ (m - 10)) by lia. rewrite Y by lia. replace (10 <=? m) with false by lia. destruct (Z.ltb_spec m 8).
    + replace (8 <=? m) with false by lia. destruct (Z.testbit p m), (Z.testbit p (m + 2)); reflexivity.
    + rewrite ?andb_false_r, ?orb_false_r. reflexivity.
  - rewrite Z.shiftr_spec by lia. rewrite !Y by lia. replace (m - 10 + 8 + 2) with m by lia. replace (8 <=? m - 10 + 8) with true by lia. replace (m - 10 + 8 <? 30) with (m <? 32) by lia. replace (m - 10 + 8 <? 8) with false by lia. replace (m <? 8) with false by lia. replace (10 <=? m) with true by lia.
    destruct (Z.testbit p m), (Z.testbit p (m - 10 + 8)), (m <? 32); rewrite ?andb_false_r, ?orb_false_r; reflexivity.
Qed.
Lemma view_flags p : Z.land (unpack_pte (pack_pte p mod 2 ^ 30)) 255 = Z.land p 255.
Proof. apply Z.bits_inj'. intros m M. change 255 with (2 ^ 8 - 1). rewrite !land_testbit, view_pte_bit by lia. destruct (Z.testbit p m), (m <? 8); rewrite ?andb_false_r; reflexivity. Qed.
Lemma view_ppn p : Z.land (Z.shiftr (unpack_pte (pack_pte p mod 2 ^ 30)) 10) 4194303 = Z.land (Z.shiftr p 10) 4194303.
Proof. apply Z.bits_inj'. intros m M. change 4194303 with (2 ^ 22 - 1). rewrite !land_testbit, !Z.shiftr_spec, view_pte_bit by lia. replace (10 <=? m + 10) with true by lia. replace (m + 10 <? 8) with false by lia. replace (m + 10 <? 32) with (m <? 22) by lia. destruct (Z.testbit p (m + 10)), (m <? 22); reflexivity. Qed.
Lemma view_global p : Z.land (unpack_pte (pack_pte p mod 2 ^ 30)) 32 = Z.land p 32.
Proof. change 32 with (Z.land 255 32). now rewrite !Z.land_assoc, view_flags. Qed.

(** The core sees no difference. *)
Definition resp_ok (r : wresp) : Prop := fits 32 (r_va r) /\ fits 1 (r_level r).
Definition with_resp (i : cin) (r : wresp) : cin :=
  mkci (ci_valid i) (ci_va i) (ci_type i) (ci_satp i) (ci_priv i) (ci_mxr i) (ci_sum i) (ci_mprv i) (ci_mpp i) (ci_look i) (ci_walk i) (ci_refill i) (ci_repl i) (ci_cap i) (ci_ready i) (ci_rv i) r.
Lemma core_view i : resp_ok (ci_resp i) -> core (with_resp i (view (ci_resp i))) = core i.
Proof.
  intros [F1 F2]. destruct i as [v va ty sp pr mx su mp pp lk wk rf rp cap rd0 rv r]. cbn [ci_resp] in *. unfold with_resp, core, walk_entry, hit_of.
  cbn [ci_valid ci_va ci_type ci_satp ci_priv ci_mxr ci_sum ci_mprv ci_mpp ci_look ci_walk ci_refill ci_repl ci_cap ci_ready ci_rv ci_resp]. rewrite view_page by assumption.
  assert (L : r_level (view r) = r_level r) by (unfold view; cbn [r_level]; unfold fits in F2; change (2 ^ Z.of_nat 1) with 2 in F2; apply Z.mod_small; exact F2).
  assert (P1 : Z.land (r_pte (view r)) 255 = Z.land (r_pte r) 255) by apply view_flags.
  assert (P2 : Z.land (Z.shiftr (r_pte (view r)) 10) 4194303 = Z.land (Z.shiftr (r_pte r) 10) 4194303) by apply view_ppn.
  assert (P3 : Z.land (r_pte (view r)) 32 = Z.land (r_pte r) 32) by apply view_global.
  assert (FT : r_fault (view r) = r_fault r) by reflexivity. rewrite L, P1, P2, P3, FT. reflexivity.
Qed.

(** ** Ranges are kept *)
Record cin_ok (n : Z) (i : cin) : Prop := {
  ik_va : fits 32 (ci_va i); ik_type : fits 2 (ci_type i); ik_satp : fits 32 (ci_satp i); ik_priv : fits 2 (ci_priv i); ik_mpp : fits 2 (ci_mpp i);
  ik_look : entry_ok (l_entry (ci_look i)); ik_walk : walk_ok (ci_walk i); ik_refill : refill_ok n (ci_refill i); ik_repl : fits (slot_width n) (ci_repl i);
  ik_cap : ci_cap i = n; ik_resp : resp_ok (ci_resp i) }.
Record cout_ok (n : Z) (o : cout) : Prop := {
  oo_result : fits 2 (co_result o); oo_pa : fits 32 (co_pa o); oo_retry : fits 3 (co_retry o); oo_walk : walk_ok (co_walk o); oo_refill : refill_ok n (co_refill o);
  oo_req : req_ok (co_req o); oo_src : fits 3 (co_src o); oo_lev : fits 8 (co_lev o); oo_perm : fits 8 (co_perm o) }.
Lemma fits_land n v k : k = 2 ^ Z.of_nat n - 1 -> fits n (Z.land v k).
Proof. intros ->. unfold fits. replace (2 ^ Z.of_nat n - 1) with (Z.ones (Z.of_nat n)) by (rewrite Z.ones_equiv; lia). rewrite Z.land_ones by lia. apply Z.mod_pos_bound. apply Z.pow_pos_nonneg; lia. Qed.
Lemma fits_bits n v : 0 <= v -> (forall m, Z.of_nat n <= m -> Z.testbit v m = false) -> fits n v.
Proof.
  intros V H. unfold fits. split; [exact V|]. pose proof (Z.pow_pos_nonneg 2 (Z.of_nat n) ltac:(lia) ltac:(lia)) as P.
  assert (E : v = v mod 2 ^ Z.of_nat n). { apply Z.bits_inj'. intros m M. rewrite mod_bits by lia. destruct (Z.ltb_spec m (Z.of_nat n)); [now rewrite andb_true_r|]. rewrite andb_false_r. apply H. lia. }
  rewrite E. apply Z.mod_pos_bound. exact P.
Qed.
Lemma fits_high n v m : fits n v -> Z.of_nat n <= m -> Z.testbit v m = false.
Proof. intros [A B] M. destruct (Z.eq_dec v 0) as [->|N]; [apply Z.bits_0|]. apply Z.bits_above_log2; [lia|]. apply Z.log2_lt_pow2 in B; lia. Qed.
Lemma fits_lor n a b : fits n a -> fits n b -> fits n (Z.lor a b).
Proof. intros A B. apply fits_bits; [apply Z.lor_nonneg; split; [apply A|apply B]|]. intros m M. rewrite Z.lor_spec, (fits_high _ _ _ A), (fits_high _ _ _ B) by lia. reflexivity. Qed.
Lemma fits_land2 n a b : fits n a -> 0 <= b -> fits n (Z.land a b).
Proof. intros A B. apply fits_bits; [apply Z.land_nonneg; left; apply A|]. intros m M. rewrite Z.land_spec, (fits_high _ _ _ A) by lia. reflexivity. Qed.
Lemma fits_w32 v : fits 32 (w32 v).
Proof. unfold fits, w32. change (2 ^ Z.of_nat 32) with (2 ^ 32). apply Z.mod_pos_bound. change (2 ^ 32) with 4294967296. lia. Qed.
Lemma fits_small n v k : 0 <= v < k -> k <= 2 ^ Z.of_nat n -> fits n v.
Proof. unfold fits. lia. Qed.
Ltac small k := match goal with |- fits ?n _ => apply (fits_small n _ k); [lia|apply Z.leb_le; vm_compute; reflexivity] end.
Lemma fits0 n : fits n 0.
Proof. unfold fits. pose proof (Z.pow_pos_nonneg 2 (Z.of_nat n) ltac:(lia) ltac:(lia)). lia. Qed.
Lemma compose_fits va e : fits 32 va -> fits 32 (compose_paddr va e).
Proof.
  intros F. unfold compose_paddr. destruct (nz _); apply fits_lor; try apply fits_w32.
  - apply fits_land2; [apply fits_w32|]. apply fits_w32.
  - apply fits_land2; [exact F|lia].
  - apply fits_land2; [exact F|lia].
Qed.
Lemma entry0_ok : entry_ok entry0.
Proof. split; apply fits0. Qed.
Lemma walk0_ok : walk_ok wregs0.
Proof. split; apply fits0. Qed.
Lemma refill0_ok n : refill_ok n refill0.
Proof. split; [apply entry0_ok|apply fits0|apply fits0]. Qed.
Lemma req0_ok : req_ok wreq0.
Proof. split; apply fits0. Qed.
Lemma walk_entry_ok va satp r : fits 32 va -> entry_ok (walk_entry va (sv32_asid satp) r).
Proof. intros F. unfold walk_entry, sv32_asid. split; cbn [e_asid e_level e_vpn1 e_vpn0 e_ppn e_perm]; apply fits_land; vm_compute; reflexivity. Qed.
(** slot numbers of a table fit (the loop computes enough bits) *)
Lemma width_loop_fits f : forall v, 0 <= v < 2 ^ Z.of_nat f -> v < 2 ^ Z.of_nat (width_loop f v).
Proof.
  induction f as [|f IH]; intros v V; cbn [width_loop].
  - change (2 ^ Z.of_nat 0) with 1 in *. lia.
  - destruct (Z.ltb_spec 0 v) as [P|P]; [|change (2 ^ Z.of_nat 0) with 1; lia]. rewrite Nat2Z.inj_succ, Z.pow_succ_r in * by lia. rewrite Z.shiftr_div_pow2 by lia. change (2 ^ 1) with 2. specialize (IH (v / 2) ltac:(lia)). lia.
Qed.
Lemma slot_fits n v : 1 <= n <= 2 ^ 32 -> 0 <= v < n -> fits (slot_width n) v.
Proof. intros N V. unfold fits, slot_width. replace (0 <? n) with true by lia. pose proof (width_loop_fits 32 (n - 1)) as W. change (2 ^ Z.of_nat 32) with (2 ^ 32) in W. specialize (W ltac:(lia)). lia. Qed.
Lemma core_ok n i : 1 <= n <= 2 ^ 32 -> cin_ok n i -> cout_ok n (core i).
Proof.
  intros N [Iva Ity Isp Ipr Ipp Ilk Iwk Irf Irp Icap [Irs Irl]]. unfold core. cbv zeta.
  assert (F1 : forall k : Z, 0 <= k < 4 -> fits 2 k) by (intros; small 4). assert (F3 : forall k : Z, 0 <= k < 8 -> fits 3 k) by (intros; small 8). assert (F8 : forall k : Z, 0 <= k < 256 -> fits 8 k) by (intros; small 256).
  assert (Z0 := fits0). assert (W0 := walk0_ok). assert (Q0 := req0_ok).
  assert (HP : forall p, fits 8 (Z.land p 255)) by (intros; apply fits_land; vm_compute; reflexivity).
  assert (HL : forall v, fits 1 v -> fits 8 v) by (intros v [A B]; change (2 ^ Z.of_nat 1) with 2 in B; apply F8; lia).
  destruct (ci_valid i); cbn [negb]; [|split; cbn [co_result co_pa co_retry co_walk co_refill co_req co_src co_lev co_perm]; auto; apply F8; lia].
  set (priv := if nz (ci_type i) && ci_mprv i then _ else _). assert (PV : fits 2 priv) by (unfold priv; destruct (_ && _); apply fits_land; vm_compute; reflexivity). clearbody priv.
  destruct (_ || _); [split; cbn [co_result co_pa co_retry co_walk co_refill co_req co_src co_lev co_perm]; auto; try (apply F8; lia); apply F3; lia|].
  destruct (hit_of i) as [h|] eqn:H.
  { assert (EO : entry_ok h). { unfold hit_of in H. destruct (_ && _); [injection H as <-; apply Irf|]. destruct (l_hit _); [injection H as <-; exact Ilk|discriminate H]. }
    destruct (negb _); split; cbn [co_result co_pa co_retry co_walk co_refill co_req co_src co_lev co_perm]; auto; try (apply F1; lia); try (apply F3; lia); try (apply HL; apply EO). apply compose_fits. exact Iva. }
  set (w := if w_act (ci_walk i) then _ else _).
  assert (WO : walk_ok w) by (unfold w; destruct (w_act _); [exact Iwk|split; assumption]). clearbody w.
  destruct (_ && _); [split; cbn [co_result co_pa co_retry co_walk co_refill co_req co_src co_lev co_perm]; auto; try (apply F1; lia); try (apply F3; lia); apply F8; lia|].
  destruct (negb (w_sent w)).
  { destruct (negb _); split; cbn [co_result co_pa co_retry co_walk co_refill co_req co_src co_lev co_perm]; auto; try (apply F1; lia); try (apply F3; lia); try (apply F8; lia); split; cbn [w_va w_type w_satp w_priv q_va q_satp q_type]; apply WO. }
  destruct (negb (ci_rv i)); [split; cbn [co_result co_pa co_retry co_walk co_refill co_req co_src co_lev co_perm]; auto; try (apply F1; lia); try (apply F3; lia); apply F8; lia|].
  destruct (negb (_ =? _)); [split; cbn [co_result co_pa co_retry co_walk co_refill co_req co_src co_lev co_perm]; auto; try (apply F1; lia); try (apply F3; lia); apply F8; lia|].
  destruct (r_fault _); [split; cbn [co_result co_pa co_retry co_walk co_refill co_req co_src co_lev co_perm]; auto; try (apply F1; lia); try (apply F3; lia); try (apply HL; exact Irl)|].
  destruct (negb _); [split; cbn [co_result co_pa co_retry co_walk co_refill co_req co_src co_lev co_perm]; auto; try (apply F1; lia); try (apply F3; lia); try (apply HL; exact Irl)|].
  split; cbn [co_result co_pa co_retry co_walk co_refill co_req co_src co_lev co_perm]; auto; try (apply F1; lia); try (apply F3; lia); try (apply HL; exact Irl).
  - apply compose_fits. exact Iva.
  - rewrite Icap. replace (0 <? n) with true by lia. pose proof (Z.mod_pos_bound (ci_repl i) n ltac:(lia)). pose proof (Z.mod_pos_bound (ci_repl i mod n + 1) n ltac:(lia)). split; cbn [f_entry f_slot f_next]; [apply walk_entry_ok; exact Iva| |]; apply slot_fits; lia.
Qed.

(** ** Core and top through the vectors *)
Ltac rdx := repeat (flat; first [rewrite rdb_cons | rewrite rd_ok by assumption | rewrite dec_enc_entry by assumption | rewrite dec_enc_look by assumption | rewrite dec_enc_walk by assumption | rewrite dec_enc_refill by assumption | rewrite dec_enc_req by assumption | rewrite dec_enc_view]; cbv iota beta).
Lemma dec_enc_cin n i : 1 <= n -> cin_ok n i -> dec_cin n (enc_cin n i) = with_resp i (view (ci_resp i)).
Proof.
  intros N []. rewrite <- (app_nil_r (enc_cin n i)). destruct i as [x1 x2 x3 x4 x5 x6 x7 x8 x9 x10 x11 x12 x13 x14 x15 x16 x17]. unfold dec_cin, enc_cin, with_resp.
  cbn [ci_valid ci_va ci_type ci_satp ci_priv ci_mxr ci_sum ci_mprv ci_mpp ci_look ci_walk ci_refill ci_repl ci_cap ci_ready ci_rv ci_resp] in *. rdx. replace (0 <? n) with true by lia. now subst x14.
Qed.
Lemma dec_enc_cout n o l : cout_ok n o -> dec_cout n (enc_cout n o ++ l) = (o, l).
Proof.
  intros []. destruct o as [x1 x2 x3 x4 x5 x6 x7 x8 x9 x10 x11 x12]. unfold dec_cout, enc_cout.
  cbn [co_valid co_result co_pa co_retry co_walk co_refill co_rq co_req co_cons co_src co_lev co_perm] in *. rdx. reflexivity.
Qed.
Lemma core_via_exact n i : 1 <= n <= 2 ^ 32 -> cin_ok n i -> core_via n i = core i.
Proof. intros N C. unfold core_via, core_io. rewrite dec_enc_cin by (lia || assumption). rewrite core_view by apply C. rewrite <- (app_nil_r (enc_cout n (core i))), dec_enc_cout by (apply core_ok; assumption). reflexivity. Qed.

Definition port_ok (p : pport) : Prop := fits 32 (pp_va p) /\ fits 2 (pp_type p) /\ entry_ok (l_entry (pp_look p)).
Record tin_ok (n : Z) (t : tin) : Prop := {
  to_satp : fits 32 (s_satp (ti_csr t)); to_priv : fits 2 (s_priv (ti_csr t)); to_mpp : fits 2 (s_mpp (ti_csr t));
  tk_walk : walk_ok (ti_walk t); tk_refill : refill_ok n (ti_refill t); tk_repl : fits (slot_width n) (ti_repl t);
  tk_resp : resp_ok (ti_resp t); tk_ports : Forall port_ok (ti_ports t) }.
(** the kinds of access that the positions of the ports stand for *)
Fixpoint kinds (dtlb : bool) (ldus i : nat) (ps : list pport) : Prop :=
  match ps with [] => True | p :: ps => pp_type p = kind_of dtlb ldus i /\ kinds dtlb ldus (S i) ps end.
Fixpoint retype (dtlb : bool) (ldus i : nat) (ps : list pport) : list pport :=
  match ps with [] => [] | p :: ps => mkpp (pp_valid p) (pp_va p) (kind_of dtlb ldus i) (pp_look p) :: retype dtlb ldus (S i) ps end.
Lemma retype_id d k ps : forall i, kinds d k i ps -> retype d k i ps = ps.
Proof. induction ps as [|[v va ty lk] ps IH]; intros i K; cbn [retype kinds pp_valid pp_va pp_look pp_type] in *; [reflexivity|]. destruct K as [<- K]. f_equal. auto. Qed.
Lemma retype_length d k ps : forall i, length (retype d k i ps) = length ps.
Proof. induction ps as [|p ps IH]; intros i; cbn [retype length]; auto. Qed.
Lemma dec_enc_ports d k ps : forall i l, Forall port_ok ps -> dec_ports d k i (length ps) (concat (map enc_port ps) ++ l) = (retype d k i ps, l).
Proof.
  induction ps as [|[v va ty lk] ps IH]; intros i l F; cbn [map concat length dec_ports retype app]; [reflexivity|]. inversion F as [|? ? [P1 [P2 P3]] F']. subst.
  cbn [pp_va pp_type pp_look pp_valid] in *. unfold dec_port, enc_port. cbn [pp_va pp_look pp_valid]. rdx. rewrite IH by assumption. reflexivity.
Qed.
Definition viewed (t : tin) : tin := mkti (ti_flush t) (ti_cancel t) (ti_csr t) (ti_walk t) (ti_refill t) (ti_repl t) (ti_ready t) (ti_rv t) (view (ti_resp t)) (ti_ports t).
Lemma dec_enc_common n t l : tin_ok n t -> dec_common n (enc_common n t ++ l) = (with_ports (viewed t) [], l).
Proof.
  intros []. destruct t as [x1 x2 c x4 x5 x6 x7 x8 x9 x10]. unfold dec_common, enc_common, with_ports, viewed.
  cbn [ti_flush ti_cancel ti_csr ti_walk ti_refill ti_repl ti_ready ti_rv ti_resp ti_ports] in *. destruct c as [y1 y2 y3 y4 y5 y6]. cbn [s_satp s_priv s_mxr s_sum s_mprv s_mpp] in *. rdx. reflexivity.
Qed.
Lemma dec_enc_tin n d k t : tin_ok n t -> dec_tin n (length (ti_ports t)) d k (enc_tin n t) = with_ports (viewed t) (retype d k 0 (ti_ports t)).
Proof.
  intros T. unfold dec_tin, enc_tin. rewrite dec_enc_common by assumption. rewrite <- (app_nil_r (concat _)), dec_enc_ports by apply T. reflexivity.
Qed.
Lemma lanes_view n t ps : resp_ok (ti_resp t) -> forall s, lanes n (viewed t) ps s = lanes n t ps s.
Proof.
  intros R. induction ps as [|p ps IH]; intros s; cbn [lanes]; [reflexivity|].
  change (lane_in n (viewed t) p s) with (with_resp (lane_in n t p s) (view (ci_resp (lane_in n t p s)))). rewrite core_view by exact R. rewrite IH. reflexivity.
Qed.
Lemma lanes_ports n t ps' ps : forall s, lanes n (with_ports t ps') ps s = lanes n t ps s.
Proof. induction ps as [|p ps IH]; intros s; cbn [lanes]; [reflexivity|]. change (lane_in n (with_ports t ps') p s) with (lane_in n t p s). rewrite IH. reflexivity. Qed.
Lemma const_map {A B} (z : B) : forall ps qs : list A, length ps = length qs -> map (fun _ => z) ps = map (fun _ => z) qs.
Proof. induction ps as [|p ps IH]; intros [|q qs] L; try discriminate L; [reflexivity|]. cbn [map]. f_equal. apply IH. cbn [length] in L. lia. Qed.
Lemma top_view n t ps : resp_ok (ti_resp t) -> (ti_flush t || ti_cancel t = true -> length ps = length (ti_ports t)) -> (ti_flush t || ti_cancel t = false -> ps = ti_ports t) ->
  top n (with_ports (viewed t) ps) = top n t.
Proof.
  intros R C K. unfold top. cbn [with_ports viewed ti_flush ti_cancel ti_refill ti_walk ti_ready ti_rv ti_ports].
  assert (M : ti_flush t || ti_cancel t = true -> map (fun _ : pport => pout0) ps = map (fun _ => pout0) (ti_ports t)).
  { intros X. apply const_map. auto. }
  destruct (ti_flush t); [now rewrite M|]. destruct (ti_cancel t); [now rewrite M|]. rewrite (K eq_refl), lanes_ports, lanes_view by exact R. reflexivity.
Qed.

(** Outputs. *)
Record acc_ok (n : Z) (s : acc) : Prop := { ao_walk : walk_ok (a_walk s); ao_refill : refill_ok n (a_refill s); ao_req : req_ok (a_req s) }.
Record pout_ok (p : pout) : Prop := { uo_result : fits 2 (po_result p); uo_pa : fits 32 (po_pa p); uo_retry : fits 3 (po_retry p); uo_src : fits 3 (po_src p); uo_lev : fits 8 (po_lev p); uo_perm : fits 8 (po_perm p) }.
Record tout_ok (n : Z) (o : tout) : Prop := { uk_walk : walk_ok (to_walk o); uk_refill : refill_ok n (to_refill o); uk_req : req_ok (to_req o) }.
Lemma lane_in_ok n t p s : tin_ok n t -> port_ok p -> acc_ok n s -> cin_ok n (lane_in n t p s).
Proof. intros [] (P1 & P2 & P3) []. split; cbn [lane_in ci_va ci_type ci_satp ci_priv ci_mpp ci_look ci_walk ci_refill ci_repl ci_cap ci_resp]; auto. Qed.
Lemma acc_step n s o : acc_ok n s -> cout_ok n o -> acc_ok n (accumulate s o).
Proof. intros [] []. split; cbn [accumulate a_walk a_refill a_req]; auto. destruct (co_rq o); auto. Qed.
Lemma port_out_ok n o : cout_ok n o -> pout_ok (port_out o).
Proof. intros []. split; cbn [port_out po_result po_pa po_retry po_src po_lev po_perm]; auto. Qed.
Lemma lanes_range n t ps : 1 <= n <= 2 ^ 32 -> tin_ok n t -> Forall port_ok ps -> forall s, acc_ok n s -> acc_ok n (fst (lanes n t ps s)) /\ Forall pout_ok (snd (lanes n t ps s)) /\ length (snd (lanes n t ps s)) = length ps.
Proof.
  intros N T. induction ps as [|p ps IH]; intros F s S; cbn [lanes fst snd length]; [auto|]. inversion F as [|? ? P F']; subst.
  pose proof (core_ok n _ N (lane_in_ok n t p s T P S)) as O. pose proof (acc_step _ _ _ S O) as S2. specialize (IH F' _ S2). destruct (lanes n t ps _) as [s' os]. cbn [fst snd length] in *. destruct IH as (I1 & I2 & I3). repeat split; auto; try apply I1. constructor; [|exact I2]. eapply port_out_ok; eauto.
Qed.
Lemma init_ok n t : tin_ok n t -> acc_ok n (mkac (ti_walk t) (ti_refill t) (ti_ready t) (ti_rv t) false wreq0 false).
Proof. intros []. split; cbn [a_walk a_refill a_req]; auto. apply req0_ok. Qed.
Lemma top_range n t : 1 <= n <= 2 ^ 32 -> tin_ok n t -> tout_ok n (top n t) /\ length (to_ports (top n t)) = length (ti_ports t) /\
  (ti_flush t || ti_cancel t = false -> Forall pout_ok (to_ports (top n t))).
Proof.
  intros N T. unfold top. destruct (ti_flush t); [|destruct (ti_cancel t)]; cbn [orb].
  - split; [split; cbn [to_walk to_refill to_req]; [apply walk0_ok|apply refill0_ok|apply req0_ok]|]. cbn [to_ports]. rewrite map_length. split; [reflexivity|discriminate].
  - split; [split; cbn [to_walk to_refill to_req]; [apply walk0_ok|apply T|apply req0_ok]|]. cbn [to_ports]. rewrite map_length. split; [reflexivity|discriminate].
  - pose proof (lanes_range n t (ti_ports t) N T (tk_ports _ _ T) _ (init_ok _ _ T)) as L. destruct (lanes _ _ _ _) as [s os]. cbn [fst snd to_walk to_refill to_req to_ports] in *. destruct L as ([A1 A2 A3] & L2 & L3). split; [split; assumption|]. split; [exact L3|]. intros _. exact L2.
Qed.
(** A trace source has three bits: the 255 of a control call reads 7. *)
Definition low_src (p : pout) : pout := mkpo (po_valid p) (po_result p) (po_pa p) (po_retry p) (po_src p mod 8) (po_lev p) (po_perm p).
Record pout_lo (p : pout) : Prop := { vo_result : fits 2 (po_result p); vo_pa : fits 32 (po_pa p); vo_retry : fits 3 (po_retry p); vo_lev : fits 8 (po_lev p); vo_perm : fits 8 (po_perm p) }.
Lemma dec_enc_pouts ps : forall l, Forall pout_lo ps -> dec_pouts (length ps) (concat (map enc_pout ps) ++ l) = (map low_src ps, l).
Proof.
  induction ps as [|[x1 x2 x3 x4 x5 x6 x7] ps IH]; intros l F; cbn [map concat length dec_pouts app]; [reflexivity|]. inversion F as [|? ? [] F']; subst.
  cbn [po_valid po_result po_pa po_retry po_src po_lev po_perm] in *. unfold dec_pout, enc_pout, low_src. cbn [po_valid po_result po_pa po_retry po_src po_lev po_perm].
  repeat (flat; first [rewrite rdb_cons | rewrite rd_ok by assumption | rewrite rd_enc]; cbv iota beta). change (2 ^ Z.of_nat 3) with 8. rewrite IH by assumption. reflexivity.
Qed.
Definition low (o : tout) : tout := mkto (to_tflush o) (to_walk o) (to_refill o) (to_rq o) (to_req o) (to_cons o) (to_cflush o) (map low_src (to_ports o)).
Lemma dec_enc_tout n o : tout_ok n o -> Forall pout_lo (to_ports o) -> dec_tout n (length (to_ports o)) (enc_tout n o) = low o.
Proof.
  intros [] F. destruct o as [x1 x2 x3 x4 x5 x6 x7 x8]. unfold dec_tout, enc_tout, enc_tcommon, low. cbn [to_tflush to_walk to_refill to_rq to_req to_cons to_cflush to_ports] in *.
  rdx. cbn [app]. rewrite <- (app_nil_r (concat _)), dec_enc_pouts by assumption. reflexivity.
Qed.
Lemma low_id ps : Forall pout_ok ps -> map low_src ps = ps.
Proof. induction 1 as [|[x1 x2 x3 x4 x5 x6 x7] ps [] F IH]; cbn [map]; [reflexivity|]. rewrite IH. unfold low_src, fits in *. cbn [po_src po_valid po_result po_pa po_retry po_lev po_perm] in *. change (2 ^ Z.of_nat 3) with 8 in uo_src0. now rewrite Z.mod_small. Qed.
Lemma ok_lo p : pout_ok p -> pout_lo p.
Proof. intros []. split; assumption. Qed.
Lemma top_lo n t : 1 <= n <= 2 ^ 32 -> tin_ok n t -> Forall pout_lo (to_ports (top n t)).
Proof.
  intros N T. destruct (ti_flush t || ti_cancel t) eqn:C.
  - assert (E : to_ports (top n t) = map (fun _ => pout0) (ti_ports t)) by (unfold top; destruct (ti_flush t); [reflexivity|]; cbn [orb] in C; rewrite C; reflexivity). rewrite E.
    apply Forall_forall. intros p P. apply in_map_iff in P. destruct P as (q & <- & _). split; cbn [pout0 po_result po_pa po_retry po_lev po_perm]; apply fits0.
  - eapply Forall_impl; [exact ok_lo|]. apply top_range; auto.
Qed.
Lemma top_via_exact n d k t : 1 <= n <= 2 ^ 32 -> tin_ok n t -> (ti_flush t || ti_cancel t = false -> kinds d k 0 (ti_ports t)) ->
  top_via n (length (ti_ports t)) d k t = if ti_flush t || ti_cancel t then low (top n t) else top n t.
Proof.
  intros N T K. unfold top_via, top_io. replace (0 <? n) with true by lia. rewrite dec_enc_tin by assumption.
  rewrite top_view; [| apply T | intros _; apply retype_length | intros C; apply retype_id; auto].
  destruct (top_range n t N T) as (R1 & R2 & R3). rewrite <- R2, dec_enc_tout by (auto; apply top_lo; auto).
  destruct (_ || _); [reflexivity|]. unfold low. rewrite low_id by auto. now destruct (top n t).
Qed.
Lemma wide_lanes_exact n t ps : 1 <= n <= 2 ^ 32 -> tin_ok n t -> Forall port_ok ps -> forall s, acc_ok n s -> wide_lanes n t ps s = lanes n t ps s.
Proof.
  intros N T. induction ps as [|p ps IH]; intros F s S; cbn [wide_lanes lanes]; [reflexivity|]. inversion F as [|? ? P F']; subst.
  pose proof (lane_in_ok n t p s T P S) as LI. rewrite core_via_exact by assumption. rewrite IH by (auto; apply acc_step; auto; apply core_ok; auto). reflexivity.
Qed.
