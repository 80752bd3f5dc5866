(** Proofs about the instruction cache. *)
From Verif Require Import Base IcModel IcSpec.
Ltac Zify.zify_post_hook ::= Z.div_mod_to_equations.
Ltac inv H := inversion H; subst; clear H.
Ltac sp := repeat match goal with |- _ /\ _ => split end.

Lemma find_way_spec : forall p n w k, find_way p w n = Some k -> p k = true /\ (w <= k < w + n)%nat.
Proof.
  induction n; cbn [find_way]; intros; try discriminate.
  destruct (p w) eqn:E. { inv H. split; [auto | lia]. }
  apply IHn in H. destruct H; split; [auto | lia].
Qed.
Lemma find_way_none : forall p n w, find_way p w n = None -> forall k, (w <= k < w + n)%nat -> p k = false.
Proof.
  induction n; cbn [find_way]; intros; try lia.
  destruct (p w) eqn:E; try discriminate.
  destruct (Nat.eq_dec k w); [subst; auto | apply (IHn (S w)); [auto | lia]].
Qed.
Lemma alloc_spec : forall r k, alloc_txid r = Some k -> r_inf r k = false /\ (k < 16)%nat.
Proof. unfold alloc_txid; intros. apply find_way_spec in H. destruct H. split; [destruct (r_inf r k); auto; discriminate | lia]. Qed.

Lemma line_addr_eq : forall p pc, 0 <= p -> line_addr p pc = p * 4096 + idx_of pc * 64.
Proof.
  intros. unfold line_addr, idx_of. rewrite !Z.shiftl_mul_pow2 by lia.
  assert (0 <= (pc / 64) mod 64 < 64) by (apply Z.mod_pos_bound; lia).
  generalize dependent ((pc / 64) mod 64). intros q Hq.
  change (2 ^ 12) with 4096. change (2 ^ 6) with 64.
  rewrite Z.add_nocarry_lxor; [rewrite Z.lxor_lor; auto |].
  all: replace (p * 4096) with (Z.shiftl p 12) by (rewrite Z.shiftl_mul_pow2 by lia; reflexivity).
  all: apply Z.bits_inj'; intros n Hn; rewrite Z.land_spec, Z.bits_0, Z.shiftl_spec by lia.
  all: destruct (Z.ltb_spec n 12).
  all: try (rewrite (Z.testbit_neg_r p) by lia; auto; fail).
  all: assert (Hb : Z.testbit (q * 64) n = false)
    by (destruct (Z.eq_dec q 0) as [-> | ]; [apply Z.testbit_0_l | apply Z.bits_above_log2; [lia | apply Z.log2_lt_pow2; [lia |]; apply Z.lt_le_trans with (2 ^ 12); [change (2 ^ 12) with 4096; lia | apply Z.pow_le_mono_r; lia]]]).
  all: rewrite Hb, andb_false_r; auto.
Qed.

(** ** One call, reduced to one evaluation *)
Definition trq (c : cinp) (r : regs) : option trans :=
  if kill c then None else if r_rv r then Some (c_tr c (r_pc r / 4096))
  else if c_v c && slot_idle r then Some (c_tr c (c_pc c / 4096)) else None.
Definition meta_of (c : cinp) (t : tabs) (r : regs) : option setmeta :=
  if read_en c r then Some (t_meta t (idx_of (look_pc c r))) else None.

Record fin (c : cinp) (t : tabs) (r : regs) (i : minp) : Prop := mkfin {
  f_pc : i_pc i = c_pc c; f_v : i_v i = c_v c; f_kill : i_kill i = kill c; f_flush : i_flush i = c_fencei c;
  f_ready : i_ready i = c_ready c; f_acc : i_acc i = c_acc c; f_rsp : i_rsp i = c_rsp c; f_dc : i_dc i = c_dc c;
  f_meta : i_meta i = meta_of c t r;
  f_tr : match trq c r with
         | Some (TOk p) => i_pv i = true /\ i_pf i = false /\ i_ppn i = p
         | Some TFault => i_pv i = true /\ i_pf i = true
         | _ => i_pv i = false end;
  f_data : r_st r = IDLE -> kill c = false -> i_pv i = true -> i_pf i = false ->
           (r_rv r = true \/ c_v c = true) ->
           forall way, hit_way (i_meta i) (i_ppn i) = Some way ->
           hit_data i way = Some (t_data t (idx_of (look_pc c r)) way) }.

Lemma mmu1 : forall c m r, o_mmu (snd (comb_core (base_inp c m) r)) =
  if kill c then None else if r_rv r then Some (r_pc r / 4096)
  else if c_v c && slot_idle r then Some (c_pc c / 4096) else None.
Proof.
  intros. unfold comb_core. cbn [i_kill base_inp]. fold (kill c).
  destruct (kill c) eqn:K; [reflexivity |].
  assert (Hf : e_fast (eval_fsm (base_inp c m) r) = false).
  { unfold eval_fsm; cbn [e_fast]. unfold eval0.
    unfold ev_idle, ev_swap, ev_wait, ev_cancel, ev_drain, ev_taken. cbn [base_inp i_kill i_pv i_pf i_rsp i_acc i_v]. fold (kill c). rewrite K.
    rewrite !andb_false_r.
    destruct (r_st r); cbn [andb].
    - destruct (r_rv r); reflexivity.
    - destruct (probe_step _ _ _) as [[[[? ?] ?] ?] ?].
      repeat match goal with |- context [if ?b then _ else _] => destruct b end; try reflexivity;
      unfold finish_refill; reflexivity.
    - destruct (probe_step _ _ _) as [[[[? ?] ?] ?] ?]. destruct b; unfold finish_refill; reflexivity.
    - destruct (c_rsp c); reflexivity.
    - reflexivity. }
  rewrite Hf. cbn [snd o_mmu].
  cbn [i_v i_pc i_pv base_inp]. rewrite andb_true_r.
  unfold slot_idle. destruct (r_rv r) eqn:Hr; cbn [negb andb].
  { rewrite !andb_false_r. reflexivity. }
  destruct (r_st r) eqn:Hs; cbn [andb]; try (rewrite !andb_false_r; reflexivity).
  assert (Hd : e_rdy (eval_fsm (base_inp c m) r) = true).
  { unfold eval_fsm; cbn [e_rdy]. unfold eval0. rewrite Hs. unfold ev_idle. cbn [base_inp i_kill i_pv i_pf i_rsp i_acc i_v]. fold (kill c). rewrite K, Hr.
    rewrite !andb_false_r. reflexivity. }
  rewrite Hd, andb_true_r. destruct (c_v c && (negb (r_busy r) && negb (r_txv r))); reflexivity.
Qed.

(** Asking for the data of the hit way. *)
Lemma lreq2 : forall i r way, r_st r = IDLE -> i_kill i = false -> i_pv i = true -> i_pf i = false ->
  i_data i = None -> (r_rv r = true \/ i_v i = true) -> hit_way (i_meta i) (i_ppn i) = Some way ->
  o_lreq (snd (comb_core i r)) = Some (idx_of (if r_rv r then r_pc r else i_pc i), way).
Proof.
  intros i r way Hs K Hp Hf Hd Hv Hw.
  assert (He : e_lreq (eval0 i r) = Some (idx_of (if r_rv r then r_pc r else i_pc i), way) /\ e_fast (eval0 i r) = false).
  { unfold eval0. rewrite Hs. unfold ev_idle. rewrite K, Hp, Hf, Hw. unfold hit_data. rewrite Hd.
    destruct (r_rv r); cbn [negb andb]; [split; reflexivity |].
    destruct Hv as [Hv | Hv]; [discriminate |]. rewrite Hv. split; reflexivity. }
  unfold comb_core. rewrite K. unfold eval_fsm. cbn [e_fast e_lreq]. destruct He as [He1 He2]. rewrite He2.
  cbn [snd o_lreq]. auto.
Qed.

Lemma ic_comb_fin : forall c t r w o tr, ic_comb c t r = (w, o, tr) ->
  exists i, fin c t r i /\ comb_core i r = (w, o) /\ (c_refetch c = false -> tr = trq c r).
Proof.
  intros c t r w o tr H. unfold ic_comb in H. fold (meta_of c t r) in H.
  destruct (comb_core (base_inp c (meta_of c t r)) r) as [w1 o1] eqn:E1.
  assert (M := mmu1 c (meta_of c t r) r). rewrite E1 in M. cbn [snd] in M.
  assert (Ht : (if c_refetch c then None else match o_mmu o1 with Some v => Some (c_tr c v) | None => None end) = trq c r).
  { rewrite M. unfold trq. destruct (kill c) eqn:K; [destruct (c_refetch c); reflexivity |].
    assert (c_refetch c = false) by (unfold kill in K; destruct (c_refetch c); auto).
    rewrite H0. destruct (r_rv r); [reflexivity |]. destruct (c_v c && slot_idle r); reflexivity. }
  rewrite Ht in H.
  destruct (comb_core (with_tr (base_inp c (meta_of c t r)) (trq c r)) r) as [w2 o2] eqn:E2.
  match type of H with context [with_data _ ?d] => set (data := d) in * end.
  destruct (comb_core (with_data (with_tr (base_inp c (meta_of c t r)) (trq c r)) data) r) as [w3 o3] eqn:E3.
  inv H.
  eexists; split; [| split; [exact E3 | auto]].
  split; try (destruct (trq c r) as [[] |]; reflexivity).
  - destruct (trq c r) as [[] |]; cbn; auto.
  - intros Hs K Hp Hf Hv way Hw.
    assert (L : o_lreq o2 = Some (idx_of (look_pc c r), way)).
    { replace o2 with (snd (comb_core (with_tr (base_inp c (meta_of c t r)) (trq c r)) r)) by (rewrite E2; reflexivity).
      replace (idx_of (look_pc c r)) with (idx_of (if r_rv r then r_pc r else i_pc (with_tr (base_inp c (meta_of c t r)) (trq c r))))
        by (destruct (trq c r) as [[] |]; reflexivity).
      apply lreq2; auto; destruct (trq c r) as [[] |]; auto. }
    assert (Hr : read_en c r = true).
    { unfold read_en. unfold kill in K. destruct (c_refetch c); [discriminate |]. destruct Hv as [-> | ->]; [rewrite orb_true_r |]; reflexivity. }
    unfold data. unfold hit_data. cbn [i_data with_data]. rewrite L, Hr, Z.eqb_refl. cbn [andb]. rewrite Nat.eqb_refl. reflexivity.
Qed.
