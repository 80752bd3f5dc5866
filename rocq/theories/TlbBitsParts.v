(** The TLB logic split into generators equals the whole. *)
From Verif Require Import Base BaseLemmas PtwModel TlbModel TlbBits TlbBitsProofs TlbBitsMain.
Ltac Zify.zify_post_hook ::= Z.div_mod_to_equations.
#[local] Opaque Z.pow Z.land Z.lor Z.shiftl Z.shiftr.

(** What is read off a vector fits. *)
Lemma val_fits l : fits (length l) (val l).
Proof.
  unfold fits. induction l as [|b l IH]; cbn [val length]; [change (2 ^ Z.of_nat 0) with 1; lia|]. rewrite Nat2Z.inj_succ, Z.pow_succ_r by lia. destruct b; cbn [Z.b2z]; lia.
Qed.
Lemma fits_mono n m v : (n <= m)%nat -> fits n v -> fits m v.
Proof. intros L [A B]. split; [exact A|]. eapply Z.lt_le_trans; [exact B|]. apply Z.pow_le_mono_r; lia. Qed.
Lemma rd_fits n l : fits n (fst (rd n l)).
Proof. unfold rd. cbn [fst]. eapply fits_mono; [|apply val_fits]. rewrite firstn_length. lia. Qed.
Ltac rdf1 := match goal with
  | |- context [rd ?n ?l] => let v := fresh "v" in let F := fresh "F" in pose proof (rd_fits n l) as F; destruct (rd n l) as [v ?]; cbn [fst] in F; cbv beta iota
  end.
Ltac rdf := unfold rdb; cbv beta iota; repeat rdf1.
Lemma dec_entry_ok l : entry_ok (fst (dec_entry l)).
Proof. unfold dec_entry. rdf. cbn [fst]. split; cbn [e_asid e_level e_vpn1 e_vpn0 e_ppn e_perm]; assumption. Qed.
Lemma dec_look_ok l : entry_ok (l_entry (fst (dec_look l))).
Proof. unfold dec_look, rdb. cbv beta iota. pose proof (dec_entry_ok (tl l)) as E. destruct (dec_entry (tl l)). exact E. Qed.
Lemma dec_walk_ok l : walk_ok (fst (dec_walk l)).
Proof. unfold dec_walk. rdf. cbn [fst]. split; cbn [w_va w_type w_satp w_priv]; assumption. Qed.
Lemma dec_refill_ok n l : refill_ok n (fst (dec_refill n l)).
Proof. unfold dec_refill, rdb. cbv beta iota. pose proof (dec_entry_ok (tl l)) as E. destruct (dec_entry (tl l)) as [e l1]. rdf. cbn [fst] in *. split; cbn [f_entry f_slot f_next]; assumption. Qed.
Lemma dec_req_ok l : req_ok (snd (fst (dec_req l))).
Proof. unfold dec_req. rdf. cbn [fst snd]. split; cbn [q_va q_satp q_type]; assumption. Qed.
Lemma dec_view_ok l : resp_ok (snd (fst (dec_view l))).
Proof. unfold dec_view. rdf. cbn [fst snd]. split; cbn [r_va r_level]; [apply fits_w32|assumption]. Qed.
Ltac rdg := unfold rdb; cbv beta iota; repeat first [rdf1 | match goal with
  | |- context [dec_look ?l] => let L := fresh "L" in pose proof (dec_look_ok l) as L; destruct (dec_look l) as [? ?]; cbn [fst] in L; cbv beta iota
  | |- context [dec_walk ?l] => let L := fresh "L" in pose proof (dec_walk_ok l) as L; destruct (dec_walk l) as [? ?]; cbn [fst] in L; cbv beta iota
  | |- context [dec_refill ?n ?l] => let L := fresh "L" in pose proof (dec_refill_ok n l) as L; destruct (dec_refill n l) as [? ?]; cbn [fst] in L; cbv beta iota
  | |- context [dec_view ?l] => let L := fresh "L" in pose proof (dec_view_ok l) as L; destruct (dec_view l) as [[[? ?] ?] ?]; cbn [fst snd] in L; cbv beta iota
  end].
Lemma dec_common_ok n l : tin_ok n (fst (dec_common n l)).
Proof. unfold dec_common. rdg. cbn [fst]. split; cbn [ti_csr s_satp s_priv s_mpp ti_walk ti_refill ti_repl ti_resp ti_ports]; auto. Qed.
Lemma kind_fits d k i : fits 2 (kind_of d k i).
Proof. unfold kind_of, fits. change (2 ^ Z.of_nat 2) with 4. destruct d; [destruct (Nat.ltb _ _)|]; lia. Qed.
Lemma dec_ports_ok d k n : forall i l, Forall port_ok (fst (dec_ports d k i n l)).
Proof.
  induction n as [|n IH]; intros i l; cbn [dec_ports fst]; [constructor|]. unfold dec_port. rdg. match goal with |- context [dec_ports d k (S i) n ?x] => specialize (IH (S i) x); destruct (dec_ports d k (S i) n x) as [ps l2] end. cbn [fst] in *.
  constructor; [|exact IH]. split; [exact F|]. split; [apply kind_fits|exact L].
Qed.
Lemma dec_tin_ok n np d k l : tin_ok n (dec_tin n np d k l).
Proof.
  unfold dec_tin. pose proof (dec_common_ok n l) as T. destruct (dec_common n l) as [t l1]. cbn [fst] in T. pose proof (dec_ports_ok d k np 0 l1) as P. destruct T. split; cbn [with_ports ti_csr ti_walk ti_refill ti_repl ti_resp ti_ports]; auto.
Qed.
Lemma dec_cin_ok n l : 1 <= n -> cin_ok n (dec_cin n l).
Proof. intros N. unfold dec_cin. rdg. replace (0 <? n) with true by lia. split; cbn [ci_va ci_type ci_satp ci_priv ci_mpp ci_look ci_walk ci_refill ci_repl ci_cap ci_resp]; auto. Qed.

(** ** The output mapper *)
Lemma land_low a k : 0 <= k -> Z.land a (2 ^ k - 1) = a mod 2 ^ k.
Proof. intros K. rewrite <- Z.land_ones by exact K. now rewrite Z.ones_equiv, <- Z.sub_1_r. Qed.
Lemma land_idem a k : Z.land (Z.land a k) k = Z.land a k.
Proof. now rewrite <- Z.land_assoc, Z.land_diag. Qed.
Lemma map_core i : resp_ok (ci_resp i) -> map_comb (build_map i) = core i.
Proof.
  intros [_ RL]. unfold map_comb, build_map, core, effective_priv. cbv zeta.
  cbn [mi_valid mi_va mi_type mi_satp mi_priv mi_mxr mi_sum mi_walk mi_refill mi_ready mi_rv mi_fault mi_page mi_ppn mi_perm mi_lev mi_hit mi_hok mi_hpa mi_hlev mi_hperm mi_pok mi_same mi_slot mi_next].
  destruct (negb (ci_valid i)); [reflexivity|]. set (priv := if nz (ci_type i) && ci_mprv i then _ else _). destruct (_ || _); [reflexivity|].
  destruct (hit_of i) as [h|]; [rewrite land_idem; cbn [andb]; reflexivity|].
  assert (LV : Z.land (r_level (ci_resp i)) 1 = r_level (ci_resp i)). { unfold fits in RL. change (2 ^ Z.of_nat 1) with 2 in RL. change 1 with (2 ^ 1 - 1). rewrite land_low by lia. change (2 ^ 1) with 2. apply Z.mod_small. exact RL. }
  rewrite !land_idem. replace (Z.land (Z.land (r_pte (ci_resp i)) 255) 32) with (Z.land (r_pte (ci_resp i)) 32) by (rewrite <- Z.land_assoc; reflexivity).
  unfold walk_entry. rewrite LV. destruct (w_act (ci_walk i)) eqn:A; cbn [andb]; [|cbn [w_sent negb]; reflexivity].
  destruct (negb (_ && _)); [reflexivity|]. destruct (negb (w_sent _)); [reflexivity|]. destruct (negb (ci_rv i)); [reflexivity|]. destruct (negb (_ =? _)); reflexivity.
Qed.
Record map_ok (n : Z) (i : mapin) : Prop := {
  mo_va : fits 32 (mi_va i); mo_type : fits 2 (mi_type i); mo_satp : fits 32 (mi_satp i); mo_priv : fits 2 (mi_priv i); mo_walk : walk_ok (mi_walk i); mo_refill : refill_ok n (mi_refill i);
  mo_ppn : fits 22 (mi_ppn i); mo_perm : fits 8 (mi_perm i); mo_lev : fits 1 (mi_lev i); mo_hpa : fits 32 (mi_hpa i); mo_hlev : fits 1 (mi_hlev i); mo_hperm : fits 8 (mi_hperm i);
  mo_slot : fits (slot_width n) (mi_slot i); mo_next : fits (slot_width n) (mi_next i) }.
Lemma dec_enc_map n i : map_ok n i -> dec_map n (enc_map n i) = i.
Proof.
  intros []. rewrite <- (app_nil_r (enc_map n i)). destruct i as [x1 x2 x3 x4 x5 x6 x7 x8 x9 x10 x11 x12 x13 x14 x15 x16 x17 x18 x19 x20 x21 x22 x23 x24 x25]. unfold dec_map, enc_map.
  cbn [mi_valid mi_va mi_type mi_satp mi_priv mi_mxr mi_sum mi_walk mi_refill mi_ready mi_rv mi_fault mi_page mi_ppn mi_perm mi_lev mi_hit mi_hok mi_hpa mi_hlev mi_hperm mi_pok mi_same mi_slot mi_next] in *. rdx. reflexivity.
Qed.
Lemma hit_ok n i : cin_ok n i -> entry_ok (match hit_of i with Some e => e | None => entry0 end).
Proof. intros []. unfold hit_of. destruct (_ && _); [apply ik_refill|]. destruct (l_hit _); [exact ik_look|apply entry0_ok]. Qed.
Lemma build_ok n i : 1 <= n <= 2 ^ 32 -> cin_ok n i -> map_ok n (build_map i).
Proof.
  intros N C. pose proof (hit_ok n i C) as H. destruct C. unfold build_map. cbv zeta.
  assert (SL : 0 <= ci_repl i mod n < n) by (apply Z.mod_pos_bound; lia).
  split; cbn [mi_va mi_type mi_satp mi_priv mi_walk mi_refill mi_ppn mi_perm mi_lev mi_hpa mi_hlev mi_hperm mi_slot mi_next]; auto; try (apply fits_land; vm_compute; reflexivity).
  - unfold effective_priv. destruct (_ && _); apply fits_land; vm_compute; reflexivity.
  - apply compose_fits. assumption.
  - apply H.
  - rewrite ik_cap. replace (0 <? n) with true by lia. apply slot_fits; auto.
  - rewrite ik_cap. replace (0 <? n) with true by lia. apply slot_fits; auto. apply Z.mod_pos_bound. lia.
Qed.
(** The core through its mapper, on every input vector. *)
Theorem c31_mapper_exact n pi : 1 <= n <= 2 ^ 32 -> map_io n (enc_map n (build_map (dec_cin n pi))) = core_io n pi.
Proof. intros N. pose proof (dec_cin_ok n pi ltac:(lia)) as C. unfold map_io, core_io. rewrite dec_enc_map by (apply build_ok; auto). rewrite map_core by apply C. reflexivity. Qed.

(** ** The small generators feed the mapper *)
Lemma lev1 e : entry_ok e -> (e_level e =? 1) = Z.odd (e_level e) /\ enc 1 (e_level e) = [Z.odd (e_level e)].
Proof. intros []. split; [|reflexivity]. unfold fits in eo_lev. change (2 ^ Z.of_nat 1) with 2 in eo_lev. assert (D : e_level e = 0 \/ e_level e = 1) by lia. destruct D as [-> | ->]; reflexivity. Qed.
Theorem c31_match_split e va a l : entry_ok e -> fits 32 va -> fits 9 a ->
  entry_match_io (enc_entry e ++ enc 32 va ++ enc 9 a ++ l) =
  match_select_io [e_valid e; asid_match_io (e_glob e :: enc 9 (e_asid e) ++ enc 9 a);
                   vpn1_match_io (enc 10 (e_vpn1 e) ++ enc 10 (Z.shiftr va 22));
                   vpn0_match_io (enc 1 (e_level e) ++ enc 10 (e_vpn0 e) ++ enc 10 (Z.shiftr va 12))].
Proof.
  intros E V A. destruct (lev1 e E) as [L1 L2]. unfold entry_match_io. rewrite dec_enc_entry by assumption. rewrite rd_ok by assumption. cbv iota beta. rewrite rd_ok by assumption. cbv iota beta.
  pose proof E as []. unfold asid_match_io, vpn1_match_io, vpn0_match_io. rewrite L2. cbn [app]. rewrite !rdb_cons. cbv iota beta.
  rewrite (rd_ok 9 (e_asid e)), (rd_ok 10 (e_vpn1 e)), (rd_ok 10 (e_vpn0 e)) by assumption. cbv iota beta. rewrite <- (app_nil_r (enc 9 a)), <- (app_nil_r (enc 10 (Z.shiftr va 22))), <- (app_nil_r (enc 10 (Z.shiftr va 12))).
  rewrite (rd_ok 9 a) by assumption. rewrite !rd_enc. cbv iota beta. unfold match_select_io. repeat (rewrite rdb_cons; cbv iota beta).
  unfold entry_matches. change 1023 with (2 ^ 10 - 1). rewrite !land_low by lia. change (2 ^ Z.of_nat 10) with (2 ^ 10). rewrite L1.
  destruct (e_valid e), (e_glob e || _), (e_vpn1 e =? _), (Z.odd _ || _); reflexivity.
Qed.
Ltac nil x := rewrite <- (app_nil_r x).
Theorem c31_generators n i : 1 <= n <= 2 ^ 32 -> cin_ok n i -> let m := build_map i in
  let rmatch := entry_match_io (enc_entry (f_entry (ci_refill i)) ++ enc 32 (ci_va i) ++ enc 9 (sv32_asid (ci_satp i))) in
  let sel := hit_select_io (enc_look (ci_look i) ++ f_valid (ci_refill i) :: enc_entry (f_entry (ci_refill i)) ++ [rmatch]) in
  let '(h, _) := dec_look sel in
  eff_priv_io (enc 2 (ci_type i) ++ enc 2 (ci_priv i) ++ ci_mprv i :: enc 2 (ci_mpp i)) = enc 2 (mi_priv m) /\
  l_hit h = mi_hit m /\ e_level (l_entry h) = mi_hlev m /\ e_perm (l_entry h) = mi_hperm m /\
  paddr_io (enc 32 (ci_va i) ++ enc_entry (l_entry h)) = enc 32 (mi_hpa m) /\
  page_match_io (enc 20 (Z.shiftr (r_va (ci_resp i)) 12) ++ enc 20 (Z.shiftr (w_va (ci_walk i)) 12)) = mi_page m /\
  page_match_io (enc 20 (Z.shiftr (w_va (ci_walk i)) 12) ++ enc 20 (Z.shiftr (ci_va i) 12)) && satp_match_io (enc 32 (w_satp (ci_walk i)) ++ enc 32 (ci_satp i)) = mi_same m /\
  repl_next_io n (enc (slot_width n) (ci_repl i)) = enc (slot_width n) (mi_slot m) ++ enc (slot_width n) (mi_next m).
Proof.
  intros N C m rmatch sel. pose proof C as [Iva Ity Isp Ipr Ipp Ilk Iwk Irf Irp Icap [Irs Irl]]. pose proof Irf as [Ie _ _]. pose proof Iwk as [Wva _ Wsp _].
  assert (AF : fits 9 (sv32_asid (ci_satp i))) by (apply fits_land; vm_compute; reflexivity).
  assert (RM : rmatch = entry_matches (f_entry (ci_refill i)) (ci_va i) (sv32_asid (ci_satp i))).
  { unfold rmatch, entry_match_io. rewrite dec_enc_entry by assumption. rewrite rd_ok by assumption. cbv iota beta. nil (enc 9 (sv32_asid (ci_satp i))). rewrite rd_ok by assumption. reflexivity. }
  assert (PG : forall a b, fits 32 a -> fits 32 b -> page_match_io (enc 20 (Z.shiftr a 12) ++ enc 20 (Z.shiftr b 12)) = (Z.shiftr a 12 =? Z.shiftr b 12)).
  { intros a b Fa Fb. assert (S : forall v, fits 32 v -> fits 20 (Z.shiftr v 12)) by (unfold fits; intros v V; rewrite Z.shiftr_div_pow2 by lia; change (2 ^ Z.of_nat 32) with 4294967296 in V; change (2 ^ Z.of_nat 20) with 1048576; change (2 ^ 12) with 4096; lia).
    unfold page_match_io. rewrite rd_ok by auto. cbv iota beta. nil (enc 20 (Z.shiftr b 12)). rewrite rd_ok by auto. reflexivity. }
  assert (H : dec_look sel = (match hit_of i with Some e => mklk true e | None => mklk false entry0 end, [])).
  { unfold sel, hit_select_io. rewrite dec_enc_look by assumption. rewrite rdb_cons. cbv iota beta. rewrite dec_enc_entry by assumption. rewrite rdb_cons. cbv iota beta. rewrite RM. unfold hit_of.
    change (true :: enc_entry (f_entry (ci_refill i))) with (enc_look (mklk true (f_entry (ci_refill i)))). change (true :: enc_entry (l_entry (ci_look i))) with (enc_look (mklk true (l_entry (ci_look i)))). change (false :: enc_entry entry0) with (enc_look (mklk false entry0)).
    destruct (_ && _); [nil (enc_look (mklk true (f_entry (ci_refill i))))|destruct (l_hit _); [nil (enc_look (mklk true (l_entry (ci_look i))))|nil (enc_look (mklk false entry0))]]; apply dec_enc_look; cbn [l_entry]; auto. apply entry0_ok. }
  rewrite H. clear H. pose proof (hit_ok n i C) as HO. unfold m, build_map. cbv zeta. cbn [mi_priv mi_hit mi_hlev mi_hperm mi_hpa mi_page mi_same mi_slot mi_next].
  set (h := match hit_of i with Some e => mklk true e | None => mklk false entry0 end). assert (LE : l_entry h = match hit_of i with Some e => e | None => entry0 end) by (unfold h; destruct (hit_of i); reflexivity).
  split; [|split; [|split; [|split; [|split; [|split; [|split]]]]]].
  - unfold eff_priv_io. rds. nil (enc 2 (ci_mpp i)). rewrite rd_ok by assumption. reflexivity.
  - unfold h. destruct (hit_of i); reflexivity.
  - now rewrite LE.
  - rewrite LE. destruct HO. change 255 with (2 ^ 8 - 1). rewrite land_low by lia. symmetry. apply Z.mod_small. exact eo_perm.
  - rewrite LE. unfold paddr_io. rewrite rd_ok by assumption. cbv iota beta. set (e := match hit_of i with Some e => e | None => entry0 end) in *. nil (enc_entry e). rewrite dec_enc_entry by assumption. reflexivity.
  - apply PG; assumption.
  - rewrite PG by assumption. f_equal. unfold satp_match_io. rewrite rd_ok by assumption. cbv iota beta. nil (enc 32 (ci_satp i)). rewrite rd_ok by assumption. reflexivity.
  - unfold repl_next_io. nil (enc (slot_width n) (ci_repl i)). rewrite rd_ok by assumption. now rewrite Icap.
Qed.

(** ** The top in pieces *)
Lemma dec_enc_acc n s l : acc_ok n s -> dec_acc n (enc_acc n s ++ l) = (s, l).
Proof. intros []. destruct s as [x1 x2 x3 x4 x5 x6 x7]. unfold dec_acc, enc_acc. cbn [a_walk a_refill a_ready a_rv a_rq a_req a_cons] in *. rdx. reflexivity. Qed.
Lemma firstn_exact {A} (l r : list A) : firstn (length l) (l ++ r) = l.
Proof. rewrite firstn_app, Nat.sub_diag, firstn_all. cbn [firstn]. apply app_nil_r. Qed.
Lemma skipn_exact {A} (l r : list A) : skipn (length l) (l ++ r) = r.
Proof. rewrite skipn_app, Nat.sub_diag, skipn_all. reflexivity. Qed.
Lemma lane_bits_core n t p s : 1 <= n <= 2 ^ 32 -> tin_ok n t -> port_ok p -> acc_ok n s ->
  core_io n (input_map_io n (lane_bits n t p s)) = enc_cout n (core (lane_in n t p s)).
Proof.
  intros N T P S. pose proof (lane_in_ok n t p s T P S) as LI. unfold input_map_io, lane_bits. rewrite dec_enc_common.
  2:{ destruct T, S. split; cbn [ti_csr ti_walk ti_refill ti_repl ti_resp ti_ports]; auto. }
  destruct p as [v va k e]. destruct P as (P1 & P2 & P3). cbn [pp_valid pp_va pp_type pp_look] in *. flat. rewrite rdb_cons. cbv iota beta. rewrite rd_ok by assumption. cbv iota beta. rewrite rd_ok by assumption. cbv iota beta. nil (enc_look e). rewrite dec_enc_look by assumption. cbv iota beta.
  replace (0 <? n) with true by lia.
  match goal with |- core_io n (enc_cin n ?x) = _ => set (y := x) end.
  assert (Y : y = with_resp (lane_in n t (mkpp v va k e) s) (view (ti_resp t))) by reflexivity.
  assert (YO : cin_ok n y) by (rewrite Y; destruct LI; split; auto; split; cbn [with_resp ci_resp view r_va r_level]; [apply fits_w32|unfold fits; change (2 ^ Z.of_nat 1) with 2; apply Z.mod_pos_bound; lia]).
  unfold core_io. rewrite dec_enc_cin by (lia || exact YO). rewrite core_view by apply YO. rewrite Y. change (ti_resp t) with (ci_resp (lane_in n t (mkpp v va k e) s)). rewrite core_view by apply LI. reflexivity.
Qed.
Lemma wire_lanes_exact n t ps : 1 <= n <= 2 ^ 32 -> tin_ok n t -> Forall port_ok ps -> forall s, acc_ok n s ->
  wire_lanes n t ps (enc_acc n s) = (enc_acc n (fst (lanes n t ps s)), concat (map enc_pout (snd (lanes n t ps s)))).
Proof.
  intros N T. induction ps as [|p ps IH]; intros F s S; cbn [wire_lanes lanes fst snd map concat]; [reflexivity|]. inversion F as [|? ? P F']; subst.
  cbv zeta. replace (fst (dec_acc n (enc_acc n s))) with s by (rewrite <- (app_nil_r (enc_acc n s)), dec_enc_acc by assumption; reflexivity). rewrite lane_bits_core by assumption.
  set (o := core (lane_in n t p s)). assert (O : cout_ok n o) by (apply core_ok; auto; apply lane_in_ok; auto).
  unfold accumulate_io. rewrite dec_enc_acc by assumption. cbv iota beta. rewrite <- (app_nil_r (enc_cout n o)). rewrite dec_enc_cout by assumption. cbv iota beta.
  replace (length (enc_acc n s)) with (length (enc_acc n (accumulate s o))) by now rewrite !acc_len. rewrite firstn_exact, skipn_exact. rewrite IH by (auto; apply acc_step; auto).
  destruct (lanes n t ps (accumulate s o)) as [s' os]. cbn [fst snd map concat]. reflexivity.
Qed.
(** The pieces wired together, on every input vector. *)
Theorem c31_wired_exact n np d k pi : 1 <= n <= 2 ^ 32 -> wired n np d k pi = top_io n np d k pi.
Proof.
  intros N. pose proof (dec_tin_ok n np d k pi) as T. unfold wired, top_io. cbv zeta. replace (0 <? n) with true by lia. set (t := dec_tin n np d k pi) in *.
  assert (E : exists l, dec_common n pi = (with_ports t [], l)) by (unfold t, dec_tin, dec_common; destruct (rdb pi), (rdb b0), (rd 32 b2), (rd 2 b3), (rdb b4), (rdb b6), (rdb b8), (rd 2 b10), (dec_walk b11), (dec_refill n b12), (rd _ b13), (dec_view b14) as [[[]]]; eexists; reflexivity).
  destruct E as [l E]. unfold control_io. rewrite E. clear E. cbv iota beta. cbn [with_ports ti_flush ti_cancel ti_walk ti_refill ti_ready ti_rv hd tl].
  replace (length (enc_acc n (mkac wregs0 refill0 false false false wreq0 false))) with (length (enc_acc n (mkac (ti_walk t) (ti_refill t) (ti_ready t) (ti_rv t) false wreq0 false))) by now rewrite !acc_len.
  rewrite firstn_exact. cbn [Nat.add skipn]. rewrite skipn_exact. unfold enc_tout, top. destruct (ti_flush t); [|destruct (ti_cancel t)]; cbn [orb].
  - cbn [to_tflush to_walk to_refill to_rq to_req to_cons to_cflush to_ports]. rewrite map_map. reflexivity.
  - cbn [to_tflush to_walk to_refill to_rq to_req to_cons to_cflush to_ports]. rewrite map_map. reflexivity.
  - rewrite wire_lanes_exact by (auto; try apply init_ok; auto; apply T). pose proof (lanes_range n t (ti_ports t) N T (tk_ports _ _ T) _ (init_ok _ _ T)) as L. destruct (lanes _ _ _ _) as [s os]. cbn [fst snd to_tflush to_walk to_refill to_rq to_req to_cons to_cflush to_ports] in *. unfold post_io. rewrite <- (app_nil_r (enc_acc n s)), dec_enc_acc by apply L. reflexivity.
Qed.
