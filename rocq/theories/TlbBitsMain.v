(** C31: state and calls of the TLBs through bit vectors. *)
From Verif Require Import Base BaseLemmas MemSpec DcModel DcSpec RtModel RtSpec PtwModel Sv32Spec PtwSpec PtwProofs PtwMain TlbModel TlbSpec TlbProofs TlbMain TlbBits TlbBitsProofs.
Ltac Zify.zify_post_hook ::= Z.div_mod_to_equations.
#[local] Opaque Z.pow Z.land Z.lor Z.shiftl Z.shiftr.

(** Fields within their widths come back, and the cursor stands after them. *)
Theorem c31_roundtrip n l :
  (forall e, entry_ok e -> dec_entry (enc_entry e ++ l) = (e, l)) /\ (forall k, entry_ok (l_entry k) -> dec_look (enc_look k ++ l) = (k, l)) /\
  (forall w, walk_ok w -> dec_walk (enc_walk w ++ l) = (w, l)) /\ (forall f, refill_ok n f -> dec_refill n (enc_refill n f ++ l) = (f, l)) /\
  (forall v q, req_ok q -> dec_req (enc_req v q ++ l) = (v, q, l)) /\ (forall o, cout_ok n o -> dec_cout n (enc_cout n o ++ l) = (o, l)).
Proof.
  split; [intros; now apply dec_enc_entry|]. split; [intros; now apply dec_enc_look|]. split; [intros; now apply dec_enc_walk|]. split; [intros; now apply dec_enc_refill|].
  split; [intros; now apply dec_enc_req|intros; now apply dec_enc_cout].
Qed.
(** Of a walker's response the page, the permission bits, the page number, the level and
    the fault flag survive: all that is used of it. *)
Theorem c31_response_kept a v r l : fits 32 (r_va r) -> fits 1 (r_level r) -> exists r', dec_view (enc_view a v r ++ l) = (a, v, r', l) /\
  r_fault r' = r_fault r /\ r_va r' / 4096 = r_va r / 4096 /\ r_va r' mod 4096 = 0 /\ r_level r' = r_level r /\ r_pte r' mod 256 = r_pte r mod 256 /\ ppn (r_pte r') = ppn (r_pte r).
Proof.
  intros F1 F2. exists (view r). split; [apply dec_enc_view|]. split; [reflexivity|]. change 4096 with (2 ^ 12). split; [|split; [|split; [|split]]].
  - rewrite <- !Z.shiftr_div_pow2 by lia. apply view_page. exact F1.
  - unfold view. cbn [r_va]. unfold w32. rewrite Z.shiftl_mul_pow2 by lia. change (2 ^ 12) with 4096. change (2 ^ 32) with 4294967296. lia.
  - unfold view. cbn [r_level]. unfold fits in F2. change (2 ^ Z.of_nat 1) with 2 in F2. apply Z.mod_small. exact F2.
  - pose proof (view_flags (r_pte r)) as H. change 255 with (2 ^ 8 - 1) in H. rewrite !land_ones in H by lia. exact H.
  - pose proof (view_ppn (r_pte r)) as H. change 4194303 with (2 ^ 22 - 1) in H. rewrite !land_ones, !Z.shiftr_div_pow2 in H by lia. exact H.
Qed.
(** The arrays are exactly as long as declared (TlbMmuKernel.h:34-39, 383-421, 1180-1209,
    TlbMmu.h:197-250): nothing is written or read outside them. *)
Ltac lens := repeat (rewrite ?app_length, ?enc_length; cbn [length]).
Lemma entry_len e : length (enc_entry e) = 62%nat.
Proof. unfold enc_entry. lens. reflexivity. Qed.
Lemma look_len k : length (enc_look k) = 63%nat.
Proof. unfold enc_look. cbn [length]. now rewrite entry_len. Qed.
Lemma walk_len w : length (enc_walk w) = 72%nat.
Proof. unfold enc_walk. lens. reflexivity. Qed.
Lemma view_len a v r : length (enc_view a v r) = 54%nat.
Proof. unfold enc_view. lens. reflexivity. Qed.
Lemma req_len v q : length (enc_req v q) = 67%nat.
Proof. unfold enc_req. lens. reflexivity. Qed.
Lemma refill_len n f : length (enc_refill n f) = (1 + 62 + 2 * slot_width n)%nat.
Proof. unfold enc_refill. lens. rewrite entry_len. lia. Qed.
Lemma port_len p : length (enc_port p) = 96%nat.
Proof. unfold enc_port. lens. now rewrite look_len. Qed.
Lemma pout_len p : length (enc_pout p) = 57%nat.
Proof. unfold enc_pout. lens. reflexivity. Qed.
Lemma concat_len {A} (f : A -> bits) k : (forall x, length (f x) = k) -> forall l, length (concat (map f l)) = (k * length l)%nat.
Proof. intros H. induction l as [|x l IH]; cbn [map concat length]; [lia|]. rewrite app_length, H, IH. lia. Qed.
Lemma cout_len n o : length (enc_cout n o) = (1 + 2 + 32 + 3 + 72 + (1 + 62 + 2 * slot_width n) + 67 + 1 + 3 + 8 + 8)%nat.
Proof. unfold enc_cout. lens. rewrite walk_len, refill_len, req_len. lia. Qed.
Lemma acc_len n s : length (enc_acc n s) = (72 + (1 + 62 + 2 * slot_width n) + 1 + 1 + 67 + 1)%nat.
Proof. unfold enc_acc. lens. rewrite walk_len, refill_len, req_len. lia. Qed.
Theorem c31_widths n : let sb := slot_width n in let refill := (1 + 62 + 2 * sb)%nat in
  (forall e, length (enc_entry e) = 62%nat) /\ (forall k, length (enc_look k) = 63%nat) /\ (forall w, length (enc_walk w) = 72%nat) /\
  (forall a v r, length (enc_view a v r) = 54%nat) /\ (forall v q, length (enc_req v q) = 67%nat) /\ (forall f, length (enc_refill n f) = refill) /\
  (forall i, length (enc_cin n i) = (1 + 32 + 2 + 32 + 2 + 1 + 1 + 1 + 2 + 63 + 72 + refill + sb + 54)%nat) /\
  (forall o, length (enc_cout n o) = (1 + 2 + 32 + 3 + 72 + refill + 67 + 1 + 3 + 8 + 8)%nat) /\
  (forall i, length (enc_map n i) = (1 + 32 + 2 + 32 + 2 + 1 + 1 + 72 + refill + 1 + 1 + 1 + 1 + 22 + 8 + 1 + 1 + 1 + 32 + 1 + 8 + 1 + 1 + 2 * sb)%nat) /\
  (forall t, length (enc_tin n t) = ((1 + 1 + 32 + 2 + 1 + 1 + 1 + 2 + 72 + refill + sb + 54) + length (ti_ports t) * 96)%nat) /\
  (forall o, length (enc_tout n o) = ((1 + 72 + refill + 67 + 1 + 1) + length (to_ports o) * 57)%nat).
Proof.
  cbv zeta. split; [exact entry_len|]. split; [exact look_len|]. split; [exact walk_len|]. split; [exact view_len|]. split; [exact req_len|]. split; [exact (refill_len n)|].
  split; [intros i; unfold enc_cin; lens; rewrite look_len, walk_len, refill_len, view_len; lia|]. split; [exact (cout_len n)|].
  split; [intros i; unfold enc_map; lens; rewrite walk_len, refill_len; lia|].
  split; [intros t; unfold enc_tin, enc_common; lens; rewrite walk_len, refill_len, view_len, (concat_len enc_port 96 port_len); lia|].
  intros o; unfold enc_tout, enc_tcommon; lens; rewrite walk_len, refill_len, req_len, (concat_len enc_pout 57 pout_len); lia.
Qed.
Theorem c31_slots_fit n v : 1 <= n <= 2 ^ 32 -> 0 <= v < n -> 0 <= v < 2 ^ Z.of_nat (slot_width n).
Proof. exact (slot_fits n v). Qed.

(** A call through the vectors is the call itself. *)
Theorem c31_core_exact n i : 1 <= n <= 2 ^ 32 -> cin_ok n i -> core_via n i = core i.
Proof. exact (core_via_exact n i). Qed.
Theorem c31_call_exact n d k t : 1 <= n <= 2 ^ 32 -> tin_ok n t -> kinds d k 0 (ti_ports t) -> ti_flush t = false -> ti_cancel t = false ->
  top_via n (length (ti_ports t)) d k t = top n t /\ wide_top n t = top n t.
Proof.
  intros N T K F C. split.
  - rewrite top_via_exact by auto. now rewrite F, C.
  - unfold wide_top, top. rewrite F, C. rewrite wide_lanes_exact by (auto; try apply init_ok; auto; apply T). reflexivity.
Qed.
(** Flushes and cancellations: all but the trace fields, which nobody reads. *)
Theorem c31_control_exact n d k t : 1 <= n <= 2 ^ 32 -> tin_ok n t -> ti_flush t || ti_cancel t = true ->
  let o := top_via n (length (ti_ports t)) d k t in let o' := top n t in let w := wide_top n t in
  (to_tflush o, to_walk o, to_refill o, to_rq o, to_req o, to_cons o, to_cflush o) = (to_tflush o', to_walk o', to_refill o', to_rq o', to_req o', to_cons o', to_cflush o') /\
  (to_tflush w, to_walk w, to_refill w, to_rq w, to_req w, to_cons w, to_cflush w) = (to_tflush o', to_walk o', to_refill o', to_rq o', to_req o', to_cons o', to_cflush o') /\
  length (to_ports o) = length (ti_ports t) /\ Forall (fun p => po_valid p = false) (to_ports o) /\ length (to_ports w) = length (ti_ports t) /\ Forall (fun p => po_valid p = false) (to_ports w).
Proof.
  intros N T C o o' w. assert (E : o = low o') by (unfold o, o'; rewrite top_via_exact by (auto; congruence); now rewrite C).
  assert (P : to_ports o' = map (fun _ => pout0) (ti_ports t)) by (unfold o', top; destruct (ti_flush t); [reflexivity|]; cbn [orb] in C; rewrite C; reflexivity).
  split; [rewrite E; reflexivity|]. split; [unfold w, o', wide_top, top; destruct (ti_flush t); [reflexivity|]; cbn [orb] in C; rewrite C; reflexivity|].
  split; [rewrite E; unfold low; cbn [to_ports]; rewrite P, !map_length; reflexivity|].
  split; [rewrite E; unfold low; cbn [to_ports]; rewrite P, map_map; apply Forall_forall; intros p X; apply in_map_iff in X; destruct X as (q & <- & _); reflexivity|].
  assert (W : to_ports w = map (fun _ => mkpo false 0 0 0 0 255 0) (ti_ports t)) by (unfold w, wide_top; destruct (ti_flush t); [reflexivity|]; cbn [orb] in C; rewrite C; reflexivity).
  rewrite W, map_length. split; [reflexivity|]. apply Forall_forall. intros p X. apply in_map_iff in X. destruct X as (q & <- & _). reflexivity.
Qed.

(** ** In every cycle of every run *)
Definition va_ok (o : option Z) : Prop := match o with Some va => 0 <= va < 2 ^ 32 | None => True end.
(** 32-bit addresses; two load and two store ports *)
Definition inputs_ok (i : uin) : Prop :=
  va_ok (io_va (ui_i i)) /\ match ui_d i with DPorts _ lds sts => Forall va_ok lds /\ Forall va_ok sts /\ length lds = 2%nat /\ length sts = 2%nat | _ => True end.
Definition result_b (u : usys) (i : uin) (c : client) : comb * list pout :=
  match c with Itlb => icycle_b (ui_i i) (u_t u Itlb) (start u Itlb) | Dtlb => dcycle_b (ui_d i) (u_t u Dtlb) (start u Dtlb) end.
Record tlb_ok (t : tlb) : Prop := { lo_tab : Forall entry_ok (t_tab t); lo_repl : 0 <= t_repl t < 16; lo_wr : walk_ok (t_wr t) }.
Record comb_ok (b : comb) : Prop := { bo_walk : walk_ok (b_walk b); bo_refill : refill_ok ENTRIES (b_refill b); bo_resp : forall r, b_resp b = Some r -> resp_ok r }.
Lemma E16 : 1 <= ENTRIES <= 2 ^ 32.
Proof. change (2 ^ 32) with 4294967296. unfold ENTRIES. lia. Qed.
Lemma fits_slot v : 0 <= v < 16 -> fits (slot_width ENTRIES) v.
Proof. intros V. apply slot_fits; [apply E16|exact V]. Qed.
Lemma look_ok t va a : Forall entry_ok (t_tab t) -> entry_ok (l_entry (table_look t va a)).
Proof. intros F. unfold table_look. destruct (find _ _) as [e|] eqn:E; cbn [l_entry]; [|apply entry0_ok]. apply find_some in E. rewrite Forall_forall in F. apply F. apply E. Qed.
Lemma port_of_ok t c k va : Forall entry_ok (t_tab t) -> fits 2 k -> va_ok va -> port_ok (port_of t c (k, va)).
Proof. intros F K V. unfold port_of. cbn [snd fst]. destruct va as [va|]; (split; [|split; [exact K|]]); cbn [pp_va pp_type pp_look l_entry]; [exact V|apply look_ok; exact F|apply fits0|apply entry0_ok]. Qed.
Lemma common_ok t b fl ca c ps : tlb_ok t -> comb_ok b -> csrs_ok c -> Forall port_ok ps -> tin_ok ENTRIES (common_in t b fl ca c ps).
Proof.
  intros T B (C1 & C2 & C3) P. unfold common_in. split; cbn [ti_csr ti_walk ti_refill ti_repl ti_resp ti_ports].
  - exact C1.
  - unfold fits. change (2 ^ Z.of_nat 2) with 4. exact C2.
  - unfold fits. change (2 ^ Z.of_nat 2) with 4. exact C3.
  - apply B.
  - apply B.
  - apply fits_slot. apply T.
  - destruct (b_resp b) as [r|] eqn:E; [apply B; exact E|]. split; apply fits0.
  - exact P.
Qed.
Lemma csrs0_ok : csrs_ok csrs0.
Proof. unfold csrs_ok, csrs0. cbn [s_satp s_priv s_mpp]. change (2 ^ 32) with 4294967296. lia. Qed.
Lemma no_ports n : Forall port_ok (repeat no_port n).
Proof. apply Forall_forall. intros p P. apply repeat_spec in P. subst p. split; [apply fits0|]. split; [apply fits0|apply entry0_ok]. Qed.
Lemma apply_ok o b : tout_ok ENTRIES o -> comb_ok b -> comb_ok (apply_top o b).
Proof.
  intros [] []. unfold apply_top. split; cbn [b_walk b_refill b_resp]; auto. intros r. destruct (to_cons o); [discriminate|]. destruct (to_rq o).
  - unfold a_send. destruct (_ || _); [|discriminate]. destruct (to_cflush o); [discriminate|]. auto.
  - destruct (to_cflush o); [discriminate|]. auto.
Qed.
Lemma consume_range f t b : tlb_ok t -> comb_ok b -> comb_ok (fst (consume f t b)).
Proof.
  intros T B. unfold consume. destruct (b_resp b) as [r|] eqn:E; [|exact B]. destruct (_ && _); [|exact B]. destruct (_ && _); [exact B|]. cbn [fst]. unfold a_take. split; cbn [b_walk b_refill b_resp]; [apply B| |discriminate].
  destruct (_ && _); [|apply B]. split; cbn [f_entry f_slot f_next]; [apply walk_entry_ok; apply B|apply fits_slot; apply T|]. apply fits_slot. unfold ENTRIES. apply Z.mod_pos_bound. lia.
Qed.
Lemma apply_low o b : apply_top (low o) b = apply_top o b.
Proof. reflexivity. Qed.
Lemma flush_same d t b : tlb_ok t -> comb_ok b -> flush_b d t b = tlb_flush (np_of d) t b /\ comb_ok (tlb_flush (np_of d) t b).
Proof.
  intros T B. unfold flush_b, tlb_flush. set (x := common_in _ _ _ _ _ _). assert (X : tin_ok ENTRIES x) by (apply common_ok; auto; [apply csrs0_ok|apply no_ports]).
  split; [|apply apply_ok; auto; apply top_range; auto; apply E16].
  replace (np_of d) with (length (ti_ports x)) at 1 by (unfold x; cbn [common_in ti_ports]; apply repeat_length). rewrite top_via_exact; [| apply E16 | exact X | discriminate]. reflexivity.
Qed.
Lemma cancel_same d t b : tlb_ok t -> comb_ok b -> cancel_b d t b = tlb_cancel (np_of d) t b /\ comb_ok (tlb_cancel (np_of d) t b).
Proof.
  intros T B. unfold cancel_b, tlb_cancel. pose proof (consume_range true t b T B) as B'. set (b' := fst _) in *. clearbody b'. cbv zeta. set (x := common_in _ _ _ _ _ _). assert (X : tin_ok ENTRIES x) by (apply common_ok; auto; [apply csrs0_ok|apply no_ports]).
  split; [|apply apply_ok; auto; apply top_range; auto; apply E16].
  replace (np_of d) with (length (ti_ports x)) at 1 by (unfold x; cbn [common_in ti_ports]; apply repeat_length). rewrite top_via_exact; [| apply E16 | exact X | discriminate]. reflexivity.
Qed.
Lemma translate_same c va t b : tlb_ok t -> comb_ok b -> csrs_ok c -> 0 <= va < 2 ^ 32 -> translate_b c va t b = tlb_translate c va t b /\ comb_ok (fst (tlb_translate c va t b)).
Proof.
  intros T B C V. unfold translate_b, tlb_translate. cbv zeta. set (x := common_in _ _ _ _ _ _). assert (X : tin_ok ENTRIES x) by (apply common_ok; auto; constructor; [|constructor]; apply port_of_ok; [apply T|apply fits0|exact V]).
  split; [|cbn [fst]; apply apply_ok; auto; apply top_range; auto; apply E16].
  change (top_via ENTRIES 1 false 2 x) with (top_via ENTRIES (length (ti_ports x)) false 2 x). rewrite top_via_exact; [reflexivity | apply E16 | exact X | intros _; cbn; auto].
Qed.
Lemma ports_same c lds sts t b : tlb_ok t -> comb_ok b -> csrs_ok c -> Forall va_ok lds -> Forall va_ok sts -> length lds = 2%nat -> length sts = 2%nat ->
  ports_b c lds sts t b = tlb_ports c lds sts t b /\ comb_ok (fst (tlb_ports c lds sts t b)).
Proof.
  intros T B C V1 V2 L1 L2. unfold ports_b, tlb_ports. pose proof (consume_range false t b T B) as B'. destruct (consume false t b) as [b1 con]. cbn [fst] in B'. cbv zeta.
  set (b2 := if con then _ else _). assert (B2 : comb_ok b2) by (unfold b2; destruct con; [split; cbn [b_walk b_refill b_resp]; [apply walk0_ok|apply B'|apply B']|exact B']). clearbody b2.
  set (x := common_in _ _ _ _ _ _). assert (F1 : fits 2 1) by (unfold fits; change (2 ^ Z.of_nat 2) with 4; lia). assert (F2 : fits 2 2) by (unfold fits; change (2 ^ Z.of_nat 2) with 4; lia).
  assert (X : tin_ok ENTRIES x).
  { apply common_ok; auto. rewrite map_app, !map_map. pose proof (lo_tab _ T) as TT. rewrite Forall_forall in V1, V2. apply Forall_app. split; apply Forall_forall; intros p P; apply in_map_iff in P; destruct P as (v & <- & P); apply port_of_ok; auto. }
  split; [|cbn [fst]; apply apply_ok; auto; apply top_range; auto; apply E16].
  assert (LN : length (ti_ports x) = 4%nat) by (unfold x; cbn [common_in ti_ports]; rewrite map_length, app_length, !map_length; lia).
  rewrite <- LN, top_via_exact; [reflexivity | apply E16 | exact X |]. intros _. unfold x. cbn [common_in ti_ports].
  destruct lds as [|l1 [|l2 [|]]]; try discriminate L1. destruct sts as [|s1 [|s2 [|]]]; try discriminate L2. cbn [map app kinds]. unfold port_of. cbn [snd fst]. destruct l1, l2, s1, s2; cbn [pp_type]; repeat split.
Qed.
Lemma walks_level (r : Z -> Z -> Prop) s va p l : walks r s va (Leaf p l) -> fits 1 l.
Proof.
  intros (p1 & _ & H). unfold fits. change (2 ^ Z.of_nat 1) with 2. destruct (judge 1 p1); [discriminate H|injection H as _ ->; lia|]. destruct H as (p0 & _ & H). destruct (judge 0 p0); try discriminate H. injection H as _ ->. lia.
Qed.
Lemma start_range m0 tr u c : ureach m0 tr u -> tlb_ok (u_t u c) -> comb_ok (start u c).
Proof.
  intros R T. unfold start, comb0. split; cbn [b_walk b_refill b_resp]; [apply T|apply refill0_ok|]. intros r H. pose proof (ureach_UI _ _ _ R) as I.
  pose proof (c30_walk_never_lost _ _ _ c R) as L. cbv zeta in L. destruct (w_act _ && w_sent _) eqn:B; [|destruct L as (_ & _ & L); congruence]. destruct L as [L _].
  destruct (c29_walk_exact _ _ _ _ _ (ui_v _ _ _ I) H) as (q & o & L2 & W & ->). rewrite L in L2. injection L2 as <-. pose proof (lo_wr _ T) as [WV _ _ _].
  destruct o as [|p l]; (split; cbn [resp_of r_va r_level q_va]; [exact WV|]); [apply fits0|eapply walks_level; eauto].
Qed.
Lemma seq_range t b : tlb_ok t -> comb_ok b -> tlb_ok (tseq t b).
Proof.
  intros T B. unfold tseq. destruct (b_flush b).
  - split; cbn [tlb0 t_tab t_repl t_wr]; [|lia|apply walk0_ok]. apply Forall_forall. intros e E. apply repeat_spec in E. subst e. apply entry0_ok.
  - destruct (f_valid _); split; cbn [t_tab t_repl t_wr]; try apply T; try apply B.
    + assert (U : forall (l : list entry) k e, Forall entry_ok l -> entry_ok e -> Forall entry_ok (upd k e l)). { induction l as [|a l IH]; intros [|k] e F E; cbn [upd]; auto; inversion F; subst; constructor; auto. } apply U; [apply T|apply B].
Qed.
Lemma cycle_same m0 tr u i u' : ureach m0 tr u -> ucycle u i u' -> inputs_ok i -> (forall c, tlb_ok (u_t u c)) ->
  forall c, result_b u i c = result u i c /\ comb_ok (fst (result u i c)).
Proof.
  intros R C [VI VD] T c. destruct C as [p1 ro g m' OK CK P1 MC]. pose proof (start_range _ _ _ c R (T c)) as S. destruct c; cbn [result_b result].
  - unfold dcycle_b, dcycle. destruct (ui_d i) as [| |cs lds sts] eqn:D; cbn [fst].
    + destruct (flush_same true _ _ (T Dtlb) S) as [-> X]. split; [reflexivity|exact X].
    + destruct (cancel_same true _ _ (T Dtlb) S) as [-> X]. split; [reflexivity|exact X].
    + destruct VD as (V1 & V2 & L1 & L2). apply ports_same; auto. apply (CK Dtlb). cbn [csr_in]. now rewrite D.
  - unfold icycle_b, icycle. cbv zeta.
    set (b1 := if io_flush (ui_i i) then flush_b _ _ _ else _). set (b1' := if io_flush (ui_i i) then tlb_flush _ _ _ else _).
    assert (B1 : b1 = b1' /\ comb_ok b1') by (unfold b1, b1'; destruct (io_flush (ui_i i)); [apply (flush_same false); auto|split; auto]). destruct B1 as [-> B1]. clearbody b1'.
    set (b2 := if io_cancel (ui_i i) then cancel_b _ _ _ else _). set (b2' := if io_cancel (ui_i i) then tlb_cancel _ _ _ else _).
    assert (B2 : b2 = b2' /\ comb_ok b2') by (unfold b2, b2'; destruct (io_cancel (ui_i i)); [apply (cancel_same false); auto|split; auto]). destruct B2 as [-> B2]. clearbody b2'.
    destruct (io_va (ui_i i)) as [va|] eqn:V; [|split; [reflexivity|exact B2]]. apply translate_same; auto. apply (CK Itlb). cbn [csr_in]. now rewrite V.
Qed.
Lemma ranges m0 tr u : ureach m0 tr u -> Forall (fun z => inputs_ok (snd z)) tr -> forall c, tlb_ok (u_t u c).
Proof.
  induction 1 as [|tr u i u' R IH C]; intros F c.
  - split; cbn [usys0 u_t tlb0 t_tab t_repl t_wr]; [|lia|apply walk0_ok]. apply Forall_forall. intros e E. apply repeat_spec in E. subst e. apply entry0_ok.
  - inversion F as [|? ? F1 F2]; subst. cbn [snd] in F1. pose proof (cycle_same _ _ _ _ _ R C F1 (IH F2)) as K. destruct C as [p1 ro g m' OK CK P1 MC]. cbn [u_t].
    replace (clocked u i c) with (tseq (u_t u c) (fst (result u i c))) by (destruct c; reflexivity). apply seq_range; [auto|apply K].
Qed.
(** The simulator's TLBs, which call their logic through the vectors, behave in every
    cycle as the TLBs of C30, which call it directly. *)
Theorem c31_cycles_same m0 tr u i u' c : ureach m0 tr u -> ucycle u i u' -> Forall (fun z => inputs_ok (snd z)) tr -> inputs_ok i ->
  result_b u i c = result u i c.
Proof. intros R C F I. apply (cycle_same _ _ _ _ _ R C I (ranges _ _ _ R F)). Qed.
(** And the registers always fit their declared widths. *)
Theorem c31_registers_fit m0 tr u c : ureach m0 tr u -> Forall (fun z => inputs_ok (snd z)) tr ->
  (forall e, In e (t_tab (u_t u c)) -> entry_ok e) /\ 0 <= t_repl (u_t u c) < 16 /\ walk_ok (t_wr (u_t u c)).
Proof. intros R F. destruct (ranges _ _ _ R F c) as [A B C]. rewrite Forall_forall in A. auto. Qed.
