(** C76. Every load reports the value program order gives it. *)
From Verif Require Import Base BaseLemmas Ring MemModel MemSpec MemProofs LsuModel LsuStq LsuQ LsuRun LsuSpec LsuHist LsuSquashProps LdqInv LdqPhase LdqPhase2 LdqPhase3 LdqMain LdqProps LsuCycle LvStab LvLoads LvStores LvMem LvMain.
Local Open Scope nat_scope.

(** The position a load carries always decodes to the number of older stores in
    the queue: the assertion that it does never fails, at any wrap position. *)
Theorem c76_boundary_decodes W l g pend pos i n np j : vreach W l g pend pos -> senv (g_b g) (st l) i n -> lenv l pend i -> oenv W g l pend pos i n np -> j < LDQ_SIZE ->
  let s := st (checkpt l i) in let e := lq (ld (checkpt l i)) j in live e = true ->
  stq_distance (sh s) (shf s) (sn s) (l_si e) (l_sf e) = Some (pos1 i np pos j - g_b g).
Proof.
  intros R SE EV OE J. cbv zeta. intros L. apply vreach_VI in R. destruct (place W l g pend pos i n np j R SE EV OE J L) as (A & B & C). pose proof (stores g l i n (vi_g _ _ _ _ _ R) SE (oe_once _ _ _ _ _ _ _ _ OE)) as S0.
  destruct (lsu_cycle l i) as [l' o]. destruct S0 as (r & _ & (V7 & SN & _) & _). cbv zeta in *. destruct (v_C _ _ (gi_inv _ _ (vi_g _ _ _ _ _ R))) as (_ & D & _). unfold STQ_SIZE in D. rewrite A, B, (v_sh _ _ V7), (v_shf _ _ V7), SN. apply distance_at; lia.
Qed.

(** The value a load reports, if the load and all older stores come to be
    committed ([onward]: none of the older stores is squashed), is the value of
    its bytes in the memory made by exactly the older stores, in program order. *)
Theorem c76_reported_value W l g pend pos i l' g' pend' pos' : vreach W l g pend pos -> vstep W l g pend pos i l' g' pend' pos' -> exists is ws,
  o_wb (snd (lsu_cycle l i)) = store_wbs l i ++ ws /\ NoDup is /\ length ws = length is /\
  forall m j w, nth_error is m = Some j -> nth_error ws m = Some w -> let e := lq (ld l) j in l_st e <> LEmpty /\ w_rob w = l_rob e /\ w_preg w = l_preg e /\
    (w_pfl w = false -> l_mmio e = false -> forall l2 g2 pend2 pos2, onward W (pos j) l g pend pos l2 g2 pend2 pos2 -> pos j <= length (g_hist g2) ->
      load_f3 (l_f3 e) -> no_wrap (l_pa e) (l_f3 e) -> aligned (l_pa e) (l_f3 e) -> (forall h, In h (firstn (pos j) (g_hist g2)) -> plain h = true -> wf h) ->
      w_res w = isa_load (run_stores (filter plain (firstn (pos j) (g_hist g2))) (bytes_of W)) (l_pa e) (l_f3 e)).
Proof.
  intros R [n np r SE EV OE EL ER EG EP EO]. pose proof (vreach_VI _ _ _ _ _ R) as VV. destruct (cyc l pend i (vi_l _ _ _ _ _ VV) EV) as (d3 & is & C). exists is, (map (fun j => wb_of (lq (ld (answered l i)) j)) is).
  split; [apply C|]. destruct (cy_o _ _ _ _ _ _ C) as (ND & O1 & _). split; [exact ND|]. split; [apply map_length|]. intros m j w M1 M2. cbv zeta. rewrite nth_error_map, M1 in M2. assert (WB : w = wb_of (lq (ld (answered l i)) j)) by (unfold option_map in M2; injection M2 as M2; symmetry; exact M2). rewrite WB. clear WB M2. apply nth_error_In in M1. destruct (O1 j M1) as [D _].
  pose proof (chainC _ _ _ _ _ (vi_l _ _ _ _ _ VV) EV C j) as AN.
  assert (L2 : live (lq (ld (answered l i)) j) = true) by (unfold live; destruct D as [[-> _]|[-> _]]; reflexivity). pose proof (ans_live _ _ _ _ _ AN L2) as L.
  assert (SM : let e := lq (ld l) j in let e2 := lq (ld (answered l i)) j in l_rob e2 = l_rob e /\ l_preg e2 = l_preg e /\ l_pa e2 = l_pa e /\ l_f3 e2 = l_f3 e /\ l_mmio e2 = l_mmio e) by (cbv zeta; destruct AN as [E|m' r0 q B1 B2 B3 B4 B5 E|rp B1 E|v B1 E]; rewrite E; repeat split).
  cbv zeta in SM. pose proof (fun X Y Z0 => answered_src W l g pend pos i n np d3 is j VV EV OE C X Y Z0) as AS. cbv zeta in AS. set (e2 := lq (ld (answered l i)) j) in *. destruct SM as (S1 & S2 & S3 & S4 & S5). cbn [wb_of w_rob w_preg w_pfl w_res]. split; [intros X; unfold live in L; rewrite X in L; discriminate|]. split; [exact S1|]. split; [exact S2|].
  intros PF NM l2 g2 pend2 pos2 ON LE LF NW AL WF. rewrite PF. pose proof (vi_b _ _ _ _ _ VV j L) as J.
  assert (VA : valued e2 = true) by (unfold valued; destruct D as [[-> D]|[_ D]]; [now rewrite D|exfalso; rewrite PF in D; discriminate]).
  destruct (AS J VA (eq_trans S5 NM)) as [_ SR].
  destruct (onward_src W (pos j) l g pend pos l2 g2 pend2 pos2 _ _ _ VV ON SR) as [V2 SR2]. rewrite S3, S4 in SR2. exact (src_value W g2 (st l2) (pos j) _ _ _ SR2 LE LF NW AL WF).
Qed.

(** *** A run
    A decision procedure for the assumptions (with the cache answering from the
    memory of the acknowledged stores). *)
Definition oenvb (W : Z -> Z) (g : gs) (cur : lsu) (pend : list dlreq) (pos : nat -> nat) (i : lin) (n : nat) (np : nat -> nat) : bool :=
  (nodupb (map sd_idx (i_std i)) && forallb (fun r => negb (s_dv (sq (st cur) (sd_idx r)))) (i_std i)) &&
  forallb (fun r => let p := np (lr_idx r) in (g_b g + scc (st cur) + n <=? p) && (p <=? g_b g + sn (st cur)) && (lr_si r =? p mod STQ_SIZE) && Bool.eqb (lr_sf r) (Nat.odd (p / STQ_SIZE))) (i_ldr i) &&
  forallb (fun j => negb (live (lq (ld cur) j)) || (g_b g + scc (st cur) + n <=? pos j)) (seq 0 LDQ_SIZE) &&
  (negb (i_mispred i) || forallb (fun j => negb (live (lq (ld cur) j) || asks i j) || hits (l_brm (lq (ld cur) j)) (i_brm i) ||
     (pos1 i np pos j <=? g_b g + 16) && forallb (fun k => (pos1 i np pos j <=? g_b g + k) || negb (hits (s_brm (ent (st cur) k)) (i_brm i))) (seq 0 16)) (seq 0 LDQ_SIZE)) &&
  forallb (fun p => match dl_rep (fst p) with RHit => (dl_data (fst p) =? fold_left perform (g_log g) W (q_addr (snd p) / 4))%Z | _ => true end) (combine (i_dl i) pend) &&
  forallb (fun j => let e := lq (ld (checkpt cur i)) j in negb (chk e) || (pos1 i np pos j <=? g_b g + 16) &&
     forallb (fun k => let x := ent (st (checkpt cur i)) k in (pos1 i np pos j <=? g_b g + k) || negb (known x) || negb (match check_stlf (l_pa e) (l_f3 e) (s_pa x) (s_f3 x) with Overlap => true | _ => false end) ||
       negb (s_lrsc x) && negb (s_mmio x) && negb (s_sup x)) (seq 0 16)) (seq 0 LDQ_SIZE).
Lemma in_combine_nth {A B} (a : list A) : forall (b : list B) m x y, nth_error a m = Some x -> nth_error b m = Some y -> In (x, y) (combine a b).
Proof. induction a as [|h a IH]; intros [|k b] [|m] x y X Y; cbn in *; try discriminate; [left; congruence|right; eapply IH; eassumption]. Qed.
Lemma oenvb_ok W g cur pend pos i n np : oenvb W g cur pend pos i n np = true -> oenv W g cur pend pos i n np.
Proof.
  unfold oenvb. intros H. apply andb_true_iff in H as [H H6]. apply andb_true_iff in H as [H H5]. apply andb_true_iff in H as [H H4]. apply andb_true_iff in H as [H H3]. apply andb_true_iff in H as [H H2]. apply andb_true_iff in H as [H1 H1'].
  rewrite forallb_forall in H1', H2, H3, H5, H6. constructor.
  - split; [now apply nodupb_ok|]. intros r R. now apply negb_true_iff, H1'.
  - intros r R. specialize (H2 r R). cbv zeta in *. apply andb_true_iff in H2 as [H2 A]. apply andb_true_iff in H2 as [H2 B]. apply andb_true_iff in H2 as [C D]. apply Nat.leb_le in C, D. apply Nat.eqb_eq in B. apply Bool.eqb_prop in A. split; [lia|]. split; [lia|]. split; assumption.
  - intros _ j J L. specialize (H3 j ltac:(apply in_seq; lia)). rewrite L in H3. cbn [negb orb] in H3. now apply Nat.leb_le.
  - intros M j J L NH k Kk. rewrite M in H4. cbn [negb orb] in H4. rewrite forallb_forall in H4. specialize (H4 j ltac:(apply in_seq; lia)). assert (X : live (lq (ld cur) j) || asks i j = true) by (apply orb_true_iff; exact L). rewrite X, NH in H4. cbn [negb orb] in H4.
    apply andb_true_iff in H4 as [A B]. apply Nat.leb_le in A. rewrite forallb_forall in B. specialize (B k ltac:(apply in_seq; lia)). apply orb_true_iff in B as [B|B]; [apply Nat.leb_le in B; lia|now apply negb_true_iff].
  - intros m r q R Q HT. specialize (H5 _ (in_combine_nth _ _ _ _ _ R Q)). cbn [fst snd] in H5. rewrite HT in H5. apply Z.eqb_eq in H5. exists []. split; [intros x []|]. now rewrite app_nil_r.
  - intros j k e l J C Kk Kn OV. specialize (H6 j ltac:(apply in_seq; lia)). cbv zeta in H6. fold l in H6. rewrite C in H6. cbn [negb orb] in H6. apply andb_true_iff in H6 as [A B]. apply Nat.leb_le in A. rewrite forallb_forall in B. specialize (B k ltac:(apply in_seq; lia)). fold e in B. rewrite Kn, OV in B. cbn [negb] in B. rewrite !orb_false_r in B.
    apply orb_true_iff in B as [B|B]; [apply Nat.leb_le in B; lia|]. apply andb_true_iff in B as [B B3]. apply andb_true_iff in B as [B1 B2]. apply negb_true_iff in B1, B2, B3. auto.
Qed.
Record stp := Stp { p_com : nat; p_dl : list (replay * Z); p_ds : list dsresp; p_std : list stadata; p_sta : list staddr; p_ldr : list (ldreq * nat); p_ml : list mmuresp; p_ms : list mmuresp; p_la : list lalloc; p_sa : list salloc }.
Definition in_of (l : lsu) (pend : list dlreq) (p : stp) : lin :=
  LIn (cslots (st l) (p_com p)) false false 0 0 None true (map (fun q => DL (q_id (fst q)) (fst (snd q)) (snd (snd q))) (combine pend (p_dl p))) (p_ds p) None (p_std p) (p_sta p) (map fst (p_ldr p)) (p_ml p) (p_ms p) None (p_la p) (p_sa p).
Definition np_of (p : stp) (j : nat) : nat := match find (fun x => lr_idx (fst x) =? j) (p_ldr p) with Some x => snd x | None => 0 end.
Fixpoint vruns (W : Z -> Z) (l : lsu) (g : gs) (pend : list dlreq) (pos : nat -> nat) (ws : list wb) (ps : list stp) : option (lsu * gs * list dlreq * (nat -> nat) * list wb) :=
  match ps with
  | [] => Some (l, g, pend, pos, ws)
  | p :: t => let i := in_of l pend p in let n := p_com p in let np := np_of p in
      if senvb (g_b g) (st l) i n && lenvb l pend i && oenvb W g l pend pos i n np then
        let '(l', o) := lsu_cycle l i in let q := squash i (scc (st l) + taken (st l) n) (g_ord g ++ map galloc (i_sa i)) in
        if sn (st l') <=? length q then vruns W l' (gstep (st l) i n o g (length q - sn (st l'))) (o_dl o) (pos1 i np pos) (ws ++ o_wb o) t else None
      else None
  end.
Lemma vruns_reach W ps : forall l g pend pos ws l' g' pend' pos' ws', vreach W l g pend pos -> vruns W l g pend pos ws ps = Some (l', g', pend', pos', ws') -> vreach W l' g' pend' pos'.
Proof.
  induction ps as [|p t IH]; intros l g pend pos ws l' g' pend' pos' ws' R E; cbn [vruns] in E; [injection E as <- <- <- <- _; exact R|]. cbv zeta in E. destruct (_ && _) eqn:B; [|discriminate]. apply andb_true_iff in B as [B B3]. apply andb_true_iff in B as [B1 B2].
  destruct (lsu_cycle l (in_of l pend p)) as [l1 o] eqn:LC. destruct (_ <=? _) eqn:LE; [|discriminate]. apply Nat.leb_le in LE. eapply IH; [|exact E]. apply (vreach1 W l g pend pos (in_of l pend p)); [exact R|].
  apply (Vstep W l g pend pos _ _ _ _ _ (p_com p) (np_of p) (length (squash (in_of l pend p) (scc (st l) + taken (st l) (p_com p)) (g_ord g ++ map galloc (i_sa (in_of l pend p)))) - sn (st l1))); rewrite ?LC; cbn [fst snd]; try reflexivity; [now apply senvb_ok|now apply lenvb_ok|now apply oenvb_ok|lia].
Qed.
(** SW and SB to one word, then a byte load that gets the byte of the SB from the
    queue before it is committed, a word load that has to wait until both stores
    are in memory, and a load of another word that goes to the cache at once. *)
Definition ex_ps : list stp :=
  let q := Stp 0 [] [] [] [] [] [] [] [] [] in
  [ Stp 0 [] [] [] [] [] [] [] [] [SA 0 3 false 2 false; SA 0 4 false 0 false];
    Stp 0 [] [] [] [] [] [] [] [LA 0 0 5 false; LA 1 0 6 false] [];
    Stp 0 [] [] [] [] [] [] [] [LA 2 0 7 false] [];
    Stp 0 [] [] [StD 0 3 false 0x11223344%Z; StD 1 4 false 0xAA%Z] [StA 0 3 false 0x1000%Z 2%Z 0 false; StA 1 4 false 0x1001%Z 0%Z 0 false] [] [] [MR (MHit 0x80001000) 0 0; MR (MHit 0x80001001) 1 1] [] [];
    Stp 0 [] [] [] [] [(LdR 0 5 false 0x1001 4 40 2 false false, 2); (LdR 1 6 false 0x1000 2 41 2 false false, 2)] [MR (MHit 0x80001001) 0 0; MR (MHit 0x80001000) 1 1] [] [] [];
    Stp 0 [] [] [] [] [(LdR 2 7 false 0x1008 2 42 2 false false, 2)] [MR (MHit 0x80001008) 2 2] [] [] [];
    Stp 2 [(RHit, 0x55%Z)] [] [] [] [] [] [] [] []; Stp 0 [] [DS 0 RHit] [] [] [] [] [] [] []; q; Stp 0 [] [DS 1 RHit] [] [] [] [] [] [] []; q; Stp 0 [(RHit, 0x1122AA44%Z)] [] [] [] [] [] [] [] [] ].
Definition ex_W : Z -> Z := fun a => if (a =? 0x80001008 / 4)%Z then 0x55%Z else 0%Z.
Definition ex_view (x : lsu * gs * list dlreq * (nat -> nat) * list wb) := let '(l, g, pend, pos, ws) := x in
  (g_hist g, map (fun w => (w_rob w, w_preg w, w_res w)) (filter (fun w => negb (w_sta w)) ws),
   map (fun p => isa_load (run_stores (filter plain (firstn (fst (fst p)) (g_hist g))) (bytes_of ex_W)) (snd (fst p)) (snd p)) [(2, 0x80001001%Z, 4%Z); (2, 0x80001008%Z, 2%Z); (2, 0x80001000%Z, 2%Z)]).
Example c76_run_ex : exists l g pend pos ws, vruns ex_W lsu0 g0 [] (fun _ => 0) [] ex_ps = Some (l, g, pend, pos, ws) /\ vreach ex_W l g pend pos /\
  ex_view (l, g, pend, pos, ws) = ([HS 0x80001000 2 0x11223344 false false; HS 0x80001001 0 0xAA false false], [(5, 40, 0xAA%Z); (7, 42, 0x55%Z); (6, 41, 0x1122AA44%Z)], [0xAA; 0x55; 0x1122AA44]%Z).
Proof.
  assert (X : match vruns ex_W lsu0 g0 [] (fun _ => 0) [] ex_ps with Some x => ex_view x = ([HS 0x80001000 2 0x11223344 false false; HS 0x80001001 0 0xAA false false], [(5, 40, 0xAA%Z); (7, 42, 0x55%Z); (6, 41, 0x1122AA44%Z)], [0xAA; 0x55; 0x1122AA44]%Z) | None => False end) by (vm_compute; reflexivity).
  destruct (vruns ex_W lsu0 g0 [] (fun _ => 0) [] ex_ps) as [[[[[l g] pend] pos] ws]|] eqn:E; [|contradiction]. exists l, g, pend, pos, ws. split; [reflexivity|]. split; [exact (vruns_reach _ _ _ _ _ _ _ _ _ _ _ _ (vreach0 _) E)|exact X].
Qed.

Print Assumptions c76_boundary_decodes.
Print Assumptions c76_reported_value.
