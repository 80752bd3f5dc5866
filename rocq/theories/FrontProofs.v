(** Proofs about the front-end queues, predecode and the front end's cycle. *)
From Verif Require Import Base BaseLemmas IsaSpec ExecModel ExecProofs FrontModel FrontSpec.
Ltac Zify.zify_post_hook ::= Z.div_mod_to_equations.
Local Open Scope nat_scope.

(* ------------------------------------------------------------------ *)
(** * Queues *)

Section QUEUE.
  Context {A : Type} (zero dummy : A) (cap : nat) (full : nat -> bool).
  Notation f_read := (f_read zero).
  Notation f_access := (f_access zero dummy cap full).
  Notation f_write := (f_write zero cap).

  Lemma shift_loop_spec n : forall i (e : nat -> A) j, 1 <= i ->
    shift_loop n i e j = if (i - 1 <=? j) && (j <? i - 1 + n) then e (S j) else e j.
  Proof.
    induction n as [|n IH]; intros i e j Hi; cbn [shift_loop].
    - destruct (Nat.leb_spec (i - 1) j), (Nat.ltb_spec j (i - 1 + 0)); cbn [andb]; try reflexivity; lia.
    - rewrite IH by lia. unfold fupd.
      replace (S i - 1) with i by lia.
      destruct (Nat.leb_spec i j), (Nat.ltb_spec j (i + n)), (Nat.leb_spec (i - 1) j),
        (Nat.ltb_spec j (i - 1 + S n)), (Nat.eqb_spec j (i - 1)), (Nat.eqb_spec (S j) (i - 1));
        cbn [andb]; try lia; try reflexivity.
      all: f_equal; lia.
  Qed.

  Lemma qlist_length (s : fst_ A) : length (qlist s) = s_size s.
  Proof. unfold qlist. now rewrite map_length, seq_length. Qed.

  Lemma acc1 (s : fst_ A) rs rf re :
    let clr := rs || rf in
    let pop := negb clr && re && (0 <? s_size s) in
    s_size s <= cap ->
    exists o rd,
      f_access (Fin rs rf false re zero false) (f_read s) (req0 zero)
      = Some (o, rd, Freq clr false zero false zero pop) /\
      o_rv o = pop /\ o_data o = (if pop then s_ent s 0 else zero) /\
      r_size rd = (if clr then 0 else s_size s - (if pop then 1 else 0)).
  Proof.
    intros clr pop Hs. subst clr pop. unfold FrontModel.f_access, FrontModel.f_calc, f_comb, FrontModel.f_read, f_next, f_acc, req0.
    destruct rs, rf, re; cbn [i_reset i_refetch i_we i_re i_data i_dum r_size r_hv r_head orb andb negb
      q_clear q_push q_data q_dpush q_ddata q_pop];
      destruct (Nat.ltb_spec 0 (s_size s)); cbn [andb orb negb]; cbn [q_clear q_push q_data q_dpush q_ddata q_pop r_size r_hv r_head orb andb negb].
    all: try (eexists _, _; split; [reflexivity|]; cbn; repeat split; lia).
    all: try (eexists _, _; split; [reflexivity|]; cbn [o_rv o_data r_size]; repeat split; lia).
    destruct (Nat.eqb_spec (s_size s) 0); [lia|].
    destruct (Nat.eqb_spec (s_size s - 1) 0).
    - eexists _, _; split; [reflexivity|]. cbn [o_rv o_data r_size]. repeat split; lia.
    - destruct (Nat.ltb_spec 1 (s_size s)); [|lia].
      eexists _, _; split; [reflexivity|]. cbn [o_rv o_data r_size]. repeat split; lia.
  Qed.

  Lemma acc2 (rd : frd A) clr pop d :
    r_size rd < cap ->
    exists o rd',
      f_access (Fin false false true false d false) rd (Freq clr false zero false zero pop)
      = Some (o, rd', Freq clr true d false zero pop) /\ r_size rd' = S (r_size rd).
  Proof.
    intros H. unfold FrontModel.f_access, FrontModel.f_calc, f_comb, f_next, f_acc.
    cbn [i_reset i_refetch i_we i_re i_data i_dum orb andb negb q_clear q_push q_data q_dpush q_ddata q_pop].
    destruct (Nat.leb_spec cap (r_size rd)); [lia|].
    destruct pop, clr, (Nat.eqb_spec (r_size rd) 0); cbn [orb andb];
      (eexists _, _; split; [reflexivity|]; reflexivity).
  Qed.

  (** The queue after the cycle's update, as a list. *)
  Lemma wr (s : fst_ A) (clr psh pop : bool) d :
    s_size s <= cap -> (psh = true -> clr = false -> s_size s < cap) -> 0 < cap ->
    (pop = true -> clr = false /\ 0 < s_size s) ->
    exists s', f_write s (Freq clr psh d false zero pop) = Some s' /\
      qlist s' = (if clr then [] else if pop then tl (qlist s) else qlist s) ++ (if psh then [d] else []).
  Proof.
    intros Hs Hp Hc Hpop. unfold FrontModel.f_write.
    cbn [q_clear q_push q_data q_dpush q_ddata q_pop].
    assert (PUSH: forall (e : nat -> A) n, map (fupd e n d) (List.seq 0 (S n)) = map e (List.seq 0 n) ++ [d]).
    { intros e n. rewrite seq_S, map_app. cbn [map plus]. f_equal.
      - apply map_ext_in. intros a Ha. apply in_seq in Ha. unfold fupd. destruct (Nat.eqb_spec a n); [lia|reflexivity].
      - unfold fupd. now rewrite Nat.eqb_refl. }
    assert (POP: forall (e : nat -> A) n, 0 < n ->
      map (fupd (shift_loop (n - 1) 1 e) (n - 1) zero) (List.seq 0 (n - 1)) = tl (map e (List.seq 0 n))).
    { intros e n Hn. destruct n as [|n]; [lia|]. replace (S n - 1) with n by lia.
      cbn [List.seq map tl]. rewrite <- seq_shift, map_map. apply map_ext_in.
      intros a Ha. apply in_seq in Ha. unfold fupd. destruct (Nat.eqb_spec a n); [lia|].
      rewrite shift_loop_spec by lia. cbn [Nat.sub].
      destruct (Nat.leb_spec 0 a), (Nat.ltb_spec a (0 + n)); cbn [andb]; try lia. reflexivity. }
    destruct clr.
    - destruct pop; [destruct (Hpop eq_refl); discriminate|].
      destruct psh; cbn [s_size s_ent].
      + destruct (Nat.leb_spec cap 0); [lia|].
        eexists; split; [reflexivity|]. reflexivity.
      + eexists; split; [reflexivity|]. reflexivity.
    - destruct psh; cbn [s_size s_ent].
      + specialize (Hp eq_refl eq_refl). destruct (Nat.leb_spec cap (s_size s)); [lia|].
        destruct pop; cbn [s_size s_ent].
        * destruct (Hpop eq_refl) as [_ Hz].
          destruct (Nat.eqb_spec (S (s_size s)) 0); [lia|].
          eexists; split; [reflexivity|]. unfold qlist at 1. cbn [s_size s_ent].
          rewrite POP by lia. rewrite PUSH. unfold qlist.
          destruct (s_size s) as [|m] eqn:E; [lia|]. cbn [List.seq map tl app]. reflexivity.
        * eexists; split; [reflexivity|]. unfold qlist at 1. cbn [s_size s_ent]. rewrite PUSH. reflexivity.
      + destruct pop; cbn [s_size s_ent].
        * destruct (Hpop eq_refl) as [_ Hz].
          destruct (Nat.eqb_spec (s_size s) 0); [lia|].
          eexists; split; [reflexivity|]. unfold qlist at 1. cbn [s_size s_ent].
          rewrite POP by lia. now rewrite app_nil_r.
        * eexists; split; [reflexivity|]. now rewrite app_nil_r.
  Qed.
End QUEUE.

(* ------------------------------------------------------------------ *)
(** * Predecode and the checker *)
Local Open Scope Z_scope.

Lemma sign_ext_sext v b : 1 <= b <= 32 -> 0 <= v < 2 ^ b -> sign_ext v b = w32 (sext v b).
Proof.
  intros Hb Hv. unfold sign_ext, sext. rewrite Z.mod_small by lia.
  assert (P: 2 ^ b = 2 * 2 ^ (b - 1)) by (rewrite <- Z.pow_succ_r by lia; f_equal; lia).
  assert (0 < 2 ^ (b - 1)) by (apply Z.pow_pos_nonneg; lia).
  destruct (Z.ltb_spec v (2 ^ (b - 1))).
  - rewrite <- Z.add_nocarry_lxor; [f_equal; lia|].
    apply Z.bits_inj'. intros i Hi. rewrite Z.land_spec, Z.pow2_bits_eqb by lia.
    rewrite Z.bits_0. destruct (Z.eqb_spec (b - 1) i) as [Ei|]; [rewrite Ei in *|apply andb_false_r].
    rewrite andb_true_r. rewrite <- (Z.mod_small v (2 ^ i)) by lia. apply Z.mod_pow2_bits_high; lia.
  - assert (E: Z.lxor v (2 ^ (b - 1)) = v - 2 ^ (b - 1)).
    { set (u := v - 2 ^ (b - 1)). assert (Hu: 0 <= u < 2 ^ (b - 1)) by (unfold u; lia).
      assert (Ev: v = Z.lxor u (2 ^ (b - 1))).
      { rewrite <- Z.add_nocarry_lxor; [unfold u; lia|].
        apply Z.bits_inj'. intros i Hi. rewrite Z.land_spec, Z.pow2_bits_eqb by lia.
        rewrite Z.bits_0. destruct (Z.eqb_spec (b - 1) i) as [Ei|]; [rewrite Ei in *|apply andb_false_r].
        rewrite andb_true_r. rewrite <- (Z.mod_small u (2 ^ i)) by lia. apply Z.mod_pow2_bits_high. lia. }
      rewrite Ev, Z.lxor_assoc, Z.lxor_nilpotent, Z.lxor_0_r. reflexivity. }
    rewrite E. f_equal. lia.
Qed.

Lemma bits_bound v b : 0 <= b -> (forall i, b <= i -> Z.testbit v i = false) -> 0 <= v < 2 ^ b.
Proof.
  intros Hb H. assert (E: v = v mod 2 ^ b).
  { apply Z.bits_inj'. intros i Hi. destruct (Z.ltb_spec i b).
    - now rewrite Z.mod_pow2_bits_low by lia.
    - rewrite Z.mod_pow2_bits_high by lia. apply H; lia. }
  rewrite E. apply Z.mod_pos_bound. apply Z.pow_pos_nonneg; lia.
Qed.

Definition rawJ (inst : Z) : Z :=
  Z.lor (Z.lor (Z.lor (Z.shiftl (bits inst 31 31) 20) (Z.shiftl (bits inst 19 12) 12))
                              (Z.shiftl (bits inst 20 20) 11)) (Z.shiftl (bits inst 30 21) 1).
Definition rawB (inst : Z) : Z :=
  Z.lor (Z.lor (Z.lor (Z.shiftl (bits inst 31 31) 12) (Z.shiftl (bits inst 7 7) 11))
                              (Z.shiftl (bits inst 30 25) 5)) (Z.shiftl (bits inst 11 8) 1).

Ltac immtac2 :=
  bw; repeat match goal with
  | |- context [Z.testbit (bits ?x ?h ?l) ?i] =>
      first [rewrite (testbit_neg (bits x h l) i) by lia | rewrite (testbit_bits x h l i) by lia]
  end; zcases; cbn [andb orb]; rewrite ?orb_false_r; try reflexivity; try (f_equal; lia).

Lemma rawJ_range inst : 0 <= rawJ inst < 2 ^ 21.
Proof. apply bits_bound; [lia|]. intros i Hi. unfold rawJ. immtac2. Qed.
Lemma rawB_range inst : 0 <= rawB inst < 2 ^ 13.
Proof. apply bits_bound; [lia|]. intros i Hi. unfold rawB. immtac2. Qed.

Lemma rawJ_isa inst : sign_ext (rawJ inst) 21 = isa_immJ inst.
Proof.
  rewrite sign_ext_sext by (try lia; apply rawJ_range).
  apply eq_word; [apply w32_range|]. intros i Hi. rewrite testbit_w32, testbit_sext by lia. unfold rawJ.
  destruct (Z.ltb_spec i 32); [|lia]. cbn [andb].
  destruct (Z.leb_spec i 20).
  - rewrite Z.min_l by lia. 
    destruct (Z.eqb_spec i 0); [immtac2|].
    destruct (Z.ltb_spec i 11); [immtac2|].
    destruct (Z.eqb_spec i 11); [immtac2|].
    destruct (Z.ltb_spec i 20); [immtac2|]. immtac2.
  - rewrite Z.min_r by lia. immtac2.
Qed.
Lemma rawB_isa inst : sign_ext (rawB inst) 13 = isa_immB inst.
Proof.
  rewrite sign_ext_sext by (try lia; apply rawB_range).
  apply eq_word; [apply w32_range|]. intros i Hi. rewrite testbit_w32, testbit_sext by lia. unfold rawB.
  destruct (Z.ltb_spec i 32); [|lia]. cbn [andb].
  destruct (Z.leb_spec i 12).
  - rewrite Z.min_l by lia. 
    destruct (Z.eqb_spec i 0); [immtac2|].
    destruct (Z.ltb_spec i 5); [immtac2|].
    destruct (Z.ltb_spec i 11); [immtac2|].
    destruct (Z.eqb_spec i 11); [immtac2|]. immtac2.
  - rewrite Z.min_r by lia. immtac2.
Qed.

Lemma land127 x : Z.land x 127 = x mod 128.
Proof. change 127 with (Z.ones 7). rewrite Z.land_ones by lia. reflexivity. Qed.

(** Predecode agrees with the ISA about which instructions steer fetch and where to. *)
Lemma predecode_spec inst pc :
  predecode inst pc =
  match steering inst pc with
  | SNone => (PD_NON, 0) | SJump t => (PD_JAL, t) | SBranch t => (PD_DIRECT, t) | SIndirect => (PD_JALR, 0)
  end.
Proof.
  unfold predecode, steering. rewrite land127.
  destruct (Z.eqb_spec inst 0) as [->|N0]; [reflexivity|].
  unfold INST_NOP. destruct (Z.eqb_spec inst 19) as [->|N1]; [reflexivity|]. cbn [orb].
  destruct (inst mod 128 =? 111).
  - rewrite <- rawJ_isa. reflexivity.
  - destruct (inst mod 128 =? 99).
    + rewrite <- rawB_isa. reflexivity.
    + destruct (inst mod 128 =? 103); reflexivity.
Qed.

Lemma line_mask_eq x : 0 <= x < M32 -> line_mask x = x / 64 * 64.
Proof.
  intros Hx. unfold line_mask, LINE. change (Z.lxor (64 - 1) (2 ^ 32 - 1)) with (Z.ldiff (Z.ones 32) (Z.ones 6)).
  assert (E: Z.land x (Z.ldiff (Z.ones 32) (Z.ones 6)) = Z.ldiff x (Z.ones 6)).
  { apply Z.bits_inj'. intros i Hi. rewrite Z.land_spec, !Z.ldiff_spec.
    destruct (Z.ltb_spec i 32).
    - rewrite (Z.ones_spec_low 32) by lia. reflexivity.
    - replace (Z.testbit x i) with false; [reflexivity|]. symmetry.
      rewrite <- (Z.mod_small x (2 ^ 32)) by (unfold M32 in Hx; lia). apply Z.mod_pow2_bits_high. lia. }
  rewrite E, Z.ldiff_ones_r by lia. rewrite Z.shiftr_div_pow2, Z.shiftl_mul_pow2 by lia. reflexivity.
Qed.

Lemma seq_next_spec pc : 0 <= pc < M32 -> seq_next pc = block_end pc.
Proof.
  intros Hp. unfold seq_next, block_end. change (Z.of_nat NF * 4) with 16.
  assert (Hn: 0 <= w32 (pc + 16) < M32) by (unfold w32, M32; apply Z.mod_pos_bound; lia).
  rewrite !line_mask_eq by assumption.
  assert (B: M32 = 64 * (2 ^ 26)) by reflexivity. change (2 ^ 32) with M32 in *.
  unfold w32 in *. change (2 ^ 32) with M32 in *.
  destruct (Z.ltb_spec (pc + 16) M32).
  - rewrite (Z.mod_small (pc + 16)) in * by lia.
    destruct (Z.eqb_spec ((pc + 16) / 64 * 64) (pc / 64 * 64)); cbn [negb].
    + rewrite Z.min_l by lia. rewrite Z.mod_small by lia. reflexivity.
    + rewrite Z.min_r by lia. rewrite Z.mod_small by lia. lia.
  - assert (E: (pc + 16) mod M32 = pc + 16 - M32) by (rewrite <- (Z.mod_small (pc + 16 - M32) M32) by lia; rewrite Zminus_mod, Z.mod_same, Z.sub_0_r, Z.mod_mod by lia; reflexivity).
    rewrite E in *. unfold M32 in *.
    destruct (Z.eqb_spec ((pc + 16 - 2 ^ 32) / 64 * 64) (pc / 64 * 64)); cbn [negb]; [lia|].
    rewrite Z.min_r by lia.
    replace ((pc / 64 + 1) * 64) with (2 ^ 32) by lia. rewrite Z.mod_same by lia. lia.
Qed.

Lemma checker_spec (g : igroup) (dir : nat -> bool) (next : Z) :
  0 <= ig_pc g < M32 ->
  let pcs := slot_pc (ig_pc g) in
  let corr := walk 4 0 (ig_inst g) (ig_valid g) pcs dir (block_end (ig_pc g)) next in
  exists d,
    checker (ie_type (ientry_of g)) (ie_tgt (ientry_of g)) dir (ie_seq (ientry_of g)) next
    = Some (d, corr, negb (next =? corr)) /\
    forall i, d i = dir_ok (ig_inst g i) (pcs i) (ig_valid g i) (dir i).
Proof.
  intros Hpc pcs corr.
  set (ty := ie_type (ientry_of g)). set (tg := ie_tgt (ientry_of g)).
  assert (TY: forall i, ty i = if ig_valid g i then
              match steering (ig_inst g i) (pcs i) with SNone => PD_NON | SJump _ => PD_JAL | SBranch _ => PD_DIRECT | SIndirect => PD_JALR end
              else PD_NON).
  { intros i. unfold ty, ientry_of. cbn [ie_type]. destruct (ig_valid g i); [|reflexivity].
    rewrite predecode_spec. fold pcs. destruct (steering (ig_inst g i) (pcs i)); reflexivity. }
  assert (TG: forall i t, ig_valid g i = true ->
              (steering (ig_inst g i) (pcs i) = SJump t \/ steering (ig_inst g i) (pcs i) = SBranch t) -> tg i = t).
  { intros i t Hv Ht. unfold tg, ientry_of. cbn [ie_tgt]. rewrite Hv, predecode_spec. fold pcs.
    destruct Ht as [-> | ->]; reflexivity. }
  assert (SQ: ie_seq (ientry_of g) = block_end (ig_pc g)) by (cbn [ientry_of ie_seq]; now apply seq_next_spec).
  clearbody ty tg.
  exists (fun i => dir_corr (ty i) (dir i)). split.
  - unfold checker. rewrite SQ.
    destruct (existsb _ _) eqn:EX.
    { exfalso. apply existsb_exists in EX. destruct EX as [i [_ Hi]]. rewrite TY in Hi.
      destruct (ig_valid g i); [destruct (steering (ig_inst g i) (pcs i))|]; discriminate Hi. }
    enough (C: match first_taken NF 0 (fun i => dir_corr (ty i) (dir i)) with
             | Some k => if (ty k =? PD_DIRECT) || (ty k =? PD_JAL) then tg k else next
             | None => block_end (ig_pc g)
             end = corr).
    { rewrite C. reflexivity. }
    unfold corr. change NF with 4%nat. clear EX corr.
    assert (W: forall n k, match first_taken n k (fun i => dir_corr (ty i) (dir i)) with
             | Some k => if (ty k =? PD_DIRECT) || (ty k =? PD_JAL) then tg k else next
             | None => block_end (ig_pc g)
             end = walk n k (ig_inst g) (ig_valid g) pcs dir (block_end (ig_pc g)) next); [|apply W].
    intros n. induction n as [|n IH]; intros k; [reflexivity|].
    cbn [first_taken walk].
    pose proof (TY k) as T. destruct (ig_valid g k) eqn:V.
    + destruct (steering (ig_inst g k) (pcs k)) as [|t|t|] eqn:ST; rewrite T; unfold dir_corr at 1; cbn.
      * apply IH.
      * rewrite T. cbn. apply (TG k t V). now left.
      * destruct (dir k); [|apply IH]. rewrite T. cbn. apply (TG k t V); now right.
      * rewrite T. reflexivity.
    + rewrite T. cbn. apply IH.
  - intros i. rewrite TY. unfold dir_ok, dir_corr. destruct (ig_valid g i); [|reflexivity].
    destruct (steering (ig_inst g i) (pcs i)); reflexivity.
Qed.

(* ------------------------------------------------------------------ *)
(** * The invariant *)

Definition pe_of (x : Z * pred) : pentry := pentry_of (fst x) (snd x).

(** Consecutive predictions chain, the last one leading to [e]. *)
Fixpoint pchain (l : list (Z * pred)) (e : Z) : Prop :=
  match l with
  | [] => True
  | x :: t => pr_next (snd x) = match t with [] => e | y :: _ => fst y end /\ pchain t e
  end.
Definition pstart (l : list (Z * pred)) (e : Z) : Z := match l with [] => e | x :: _ => fst x end.

(** Delivered blocks chain from [a] to [e]. *)
Fixpoint bchain (a : Z) (l : list bentry) (e : Z) : Prop :=
  match l with
  | [] => a = e
  | g :: t => (forall i, (i < 4)%nat -> be_pc g i = (a + 4 * Z.of_nat i) mod M32) /\ bchain (be_next g) t e
  end.

(** The address expected after a trace. *)
Definition ev_next (a : Z) (e : ev) : Z :=
  match e with EvReset => 0 | EvRedirect b => b | EvGroup g => be_next g end.
Definition expect (t : list ev) : Z := fold_left ev_next t 0.

Lemma follows_app t : forall a u, follows a (t ++ u) <-> follows a t /\ follows (fold_left ev_next t a) u.
Proof.
  induction t as [|e t IH]; intros a u; cbn [app follows fold_left]; [tauto|].
  destruct e; cbn [ev_next]; rewrite IH; tauto.
Qed.

Record FInv (F : igroup -> Prop) (G : Z -> pred -> Prop) (g : gstate)
            (PL : list (Z * pred)) (GL : list igroup) : Prop := {
  fv_fa : (s_size (fs_fa (gs g)) <= 7)%nat;
  fv_fi : (s_size (fs_fi (gs g)) <= 7)%nat;
  fv_pt : (s_size (fs_pt (gs g)) <= 7)%nat;
  fv_fb : (s_size (fs_fb (gs g)) <= 8)%nat;
  fv_lfaf : l_fa_full (gs g) = fa_full (s_size (fs_fa (gs g)));
  fv_lfae : l_fa_empty (gs g) = Nat.eqb (s_size (fs_fa (gs g))) 0;
  fv_lfif : l_fi_full (gs g) = fi_full (s_size (fs_fi (gs g)));
  fv_lfie : l_fi_empty (gs g) = Nat.eqb (s_size (fs_fi (gs g))) 0;
  fv_lptf : l_pt_full (gs g) = pt_full (s_size (fs_pt (gs g)));
  fv_lpte : l_pt_empty (gs g) = Nat.eqb (s_size (fs_pt (gs g))) 0;
  fv_lfbf : l_fb_full (gs g) = fb_full (s_size (fs_fb (gs g)));
  fv_lfbe : l_fb_empty (gs g) = Nat.eqb (s_size (fs_fb (gs g))) 0;
  fv_send : fs_send (gs g) = true;
  fv_PL : qlist (fs_pt (gs g)) = map pe_of PL;
  fv_GL : qlist (fs_fi (gs g)) = map ientry_of GL;
  fv_G : forall x, In x PL -> G (fst x) (snd x) /\ 0 <= fst x < M32;
  fv_F : forall x, In x GL -> F x;
  fv_align : map fst PL = map ig_pc GL ++ outst g ++ qlist (fs_fa (gs g));
  fv_chain : pchain PL (fs_pc (gs g));
  fv_pc : 0 <= fs_pc (gs g) < M32;
  fv_ra : 0 <= fs_refetch_addr (gs g) < M32;
  fv_blk : bchain (expect (trace g)) (qlist (fs_fb (gs g)))
             (if fs_refetch (gs g) then fs_refetch_addr (gs g) else pstart PL (fs_pc (gs g)));
  fv_del : forall b, In b (qlist (fs_fb (gs g))) -> delivers F G b;
  fv_tr : follows 0 (trace g);
  fv_trd : forall b, In (EvGroup b) (trace g) -> delivers F G b
}.

Lemma finv_init F G : FInv F G (GS fs_init [] []) [] [].
Proof. constructor; cbn; intros; try lia; try reflexivity; try tauto; try (unfold M32, RESET_PC; lia). Qed.

Lemma fcycle_run s c d corr flush :
  (s_size (fs_fa s) <= 8)%nat -> (s_size (fs_fi s) <= 8)%nat -> (s_size (fs_pt s) <= 8)%nat -> (s_size (fs_fb s) <= 8)%nat ->
  l_fa_full s = fa_full (s_size (fs_fa s)) -> l_fa_empty s = Nat.eqb (s_size (fs_fa s)) 0 ->
  l_fi_full s = fi_full (s_size (fs_fi s)) -> l_fi_empty s = Nat.eqb (s_size (fs_fi s)) 0 ->
  l_pt_full s = pt_full (s_size (fs_pt s)) -> l_pt_empty s = Nat.eqb (s_size (fs_pt s)) 0 ->
  l_fb_full s = fb_full (s_size (fs_fb s)) -> l_fb_empty s = Nat.eqb (s_size (fs_fb s)) 0 ->
  fs_send s = true ->
  let clr := g_reset c || g_refetch s c in
  let adv := negb clr && negb (bpu_stall s) in
  let run := re_pre s c in
  let ie := s_ent (fs_fi s) 0%nat in
  let pe := s_ent (fs_pt s) 0%nat in
  (run = true -> pe_dummy pe = false /\ (forall i, (i < 4)%nat -> ie_pc ie i = pe_pc pe i) /\
                 checker (ie_type ie) (ie_tgt ie) (pe_dir pe) (ie_seq ie) (pe_next pe) = Some (d, corr, flush)) ->
  (run = false -> flush = false) ->
  let be := BEntry (ie_inst ie) (ie_pf ie) (ie_valid ie) d (pe_pc pe) (pe_meta pe) corr in
  let clb := g_reset c || c_refetch c in
  let popb := negb clb && c_re c && Nat.ltb 0 (s_size (fs_fb s)) in
  let byp := c_re c && l_fb_empty s && negb popb && run in
  exists s', fcycle s c = Some (s', FCOut (if popb then Some (s_ent (fs_fb s) 0%nat) else if byp then Some be else None)
                                          (if re_fa s c then Some (s_ent (fs_fa s) 0%nat) else None)) /\
   qlist (fs_fa s') = (if clr then [] else if re_fa s c then tl (qlist (fs_fa s)) else qlist (fs_fa s))
                        ++ (if adv then [fs_pc s] else []) /\
   qlist (fs_fi s') = (if clr then [] else if run then tl (qlist (fs_fi s)) else qlist (fs_fi s))
                        ++ (if clr || l_fi_full s then [] else match c_resp c with Some g => [ientry_of g] | None => [] end) /\
   qlist (fs_pt s') = (if clr then [] else if run then tl (qlist (fs_pt s)) else qlist (fs_pt s))
                        ++ (if adv then [pentry_of (fs_pc s) (c_pred c)] else []) /\
   qlist (fs_fb s') = (if clb then [] else if popb then tl (qlist (fs_fb s)) else qlist (fs_fb s))
                        ++ (if run && negb byp then [be] else []) /\
   (l_fa_full s' = fa_full (s_size (fs_fa s')) /\ l_fa_empty s' = Nat.eqb (s_size (fs_fa s')) 0 /\
    l_fi_full s' = fi_full (s_size (fs_fi s')) /\ l_fi_empty s' = Nat.eqb (s_size (fs_fi s')) 0 /\
    l_pt_full s' = pt_full (s_size (fs_pt s')) /\ l_pt_empty s' = Nat.eqb (s_size (fs_pt s')) 0 /\
    l_fb_full s' = fb_full (s_size (fs_fb s')) /\ l_fb_empty s' = Nat.eqb (s_size (fs_fb s')) 0) /\
   fs_refetch s' = flush /\ fs_refetch_addr s' = (if flush then corr else 0) /\
   fs_pc s' = (if g_reset c then RESET_PC else if g_refetch s c then g_addr s c
               else if adv then pr_next (c_pred c) else fs_pc s) /\
   fs_send s' = true.
Proof.
  intros Sa Si Sp Sb La1 La2 Li1 Li2 Lp1 Lp2 Lb1 Lb2 Hsend clr adv run ie pe Hrun Hnrun be clb popb byp.
  assert (Rclr: run = true -> clr = false /\ clb = false /\ (0 < s_size (fs_fi s))%nat /\ (0 < s_size (fs_pt s))%nat /\ (s_size (fs_fb s) < 8)%nat).
  { intros E. unfold run, re_pre in E. rewrite Li2, Lp2, Lb1 in E. unfold fb_full, FB_SIZE in E.
    unfold clr, clb. unfold g_refetch in *.
    destruct (Nat.eqb_spec (s_size (fs_fi s)) 0), (Nat.eqb_spec (s_size (fs_pt s)) 0), (Nat.eqb_spec (s_size (fs_fb s)) 8),
      (g_reset c), (c_refetch c), (fs_refetch s); cbn in E |- *; try discriminate E; repeat split; lia. }
  assert (Rfa: re_fa s c = true -> clr = false /\ (0 < s_size (fs_fa s))%nat).
  { intros E. unfold re_fa in E. rewrite La2 in E. unfold clr.
    destruct (Nat.eqb_spec (s_size (fs_fa s)) 0), (c_ready c), (g_reset c), (g_refetch s c); cbn in E |- *; try discriminate E; split; [reflexivity|lia]. }
  assert (Wfa: we_fa s c = adv).
  { unfold we_fa, bpu_rv, bpu_can_run, adv, clr. rewrite Hsend. destruct (g_reset c), (g_refetch s c), (bpu_stall s); reflexivity. }
  assert (Wpt: we_pt s c = adv).
  { unfold we_pt, bpu_ptw, bpu_do, bpu_ready, bpu_can_run, adv, clr, bpu_stall. rewrite Hsend.
    destruct (g_reset c), (g_refetch s c), (l_fa_full s), (l_pt_full s); reflexivity. }
  assert (Cadv: adv = true -> clr = false /\ (s_size (fs_fa s) <= 6)%nat /\ (s_size (fs_pt s) <= 6)%nat /\ bpu_pc s c = fs_pc s).
  { intros E. unfold adv, bpu_stall in E. rewrite La1, Lp1 in E. unfold fa_full, pt_full, FA_SIZE, PT_SIZE in E.
    unfold bpu_pc, clr in *. destruct (g_reset c), (g_refetch s c), (Nat.leb_spec (8 - 1) (s_size (fs_fa s))), (Nat.leb_spec (8 - 1) (s_size (fs_pt s)));
      cbn [orb andb negb] in E; try discriminate E; repeat split; lia. }
  assert (Wfi: we_fi s c = negb (clr || l_fi_full s) && ic_valid c).
  { unfold we_fi, clr. destruct (g_reset c), (g_refetch s c), (l_fi_full s), (ic_valid c); reflexivity. }
  assert (Lfi: l_fi_full s = false -> (s_size (fs_fi s) < 8)%nat).
  { rewrite Li1. unfold fi_full, FI_SIZE. destruct (Nat.eqb_spec (s_size (fs_fi s)) 8); [discriminate|lia]. }
  destruct (acc1 0 0 FA_SIZE fa_full (fs_fa s) (g_reset c) (g_refetch s c) (re_fa s c)) as (oa & ra & Ea & Ea1 & Ea2 & Ea3); [exact Sa|].
  destruct (acc1 ie0 ie0 FI_SIZE fi_full (fs_fi s) (g_reset c) (g_refetch s c) (re_pre s c)) as (oi & ri & Ei & Ei1 & Ei2 & Ei3); [exact Si|].
  destruct (acc1 pe0 pe_dum PT_SIZE pt_full (fs_pt s) (g_reset c) (g_refetch s c) (re_pre s c)) as (op & rp & Ep & Ep1 & Ep2 & Ep3); [exact Sp|].
  destruct (acc1 be0 be0 FB_SIZE fb_full (fs_fb s) (g_reset c) (c_refetch c) (c_re c)) as (ob & rb & Eb & Eb1 & Eb2 & Eb3); [exact Sb|].
  fold clr in Ea, Ea1, Ea2, Ea3, Ei, Ei1, Ei2, Ei3, Ep, Ep1, Ep2, Ep3. fold clb in Eb, Eb1, Eb2, Eb3. fold popb in Eb, Eb1, Eb2, Eb3.
  fold run in Ei, Ei1, Ei2, Ei3, Ep, Ep1, Ep2, Ep3.
  assert (Pa: negb clr && re_fa s c && Nat.ltb 0 (s_size (fs_fa s)) = re_fa s c).
  { destruct (re_fa s c) eqn:E; [|now rewrite andb_false_r]. destruct (Rfa eq_refl) as [-> Hz].
    destruct (Nat.ltb_spec 0 (s_size (fs_fa s))); [reflexivity|lia]. }
  assert (Pi: negb clr && run && Nat.ltb 0 (s_size (fs_fi s)) = run).
  { destruct run eqn:E; [|now rewrite andb_false_r]. destruct (Rclr eq_refl) as (-> & _ & Hz & _).
    destruct (Nat.ltb_spec 0 (s_size (fs_fi s))); [reflexivity|lia]. }
  assert (Pp: negb clr && run && Nat.ltb 0 (s_size (fs_pt s)) = run).
  { destruct run eqn:E; [|now rewrite andb_false_r]. destruct (Rclr eq_refl) as (-> & _ & _ & Hz & _).
    destruct (Nat.ltb_spec 0 (s_size (fs_pt s))); [reflexivity|lia]. }
  rewrite Pa in *. rewrite Pi in *. rewrite Pp in *.
  (* queue by queue *)
  assert (XA: exists ra2 fa', (if adv then match f_access 0 0 FA_SIZE fa_full (Fin false false true false (bpu_pc s c) false) ra (Freq clr false 0 false 0 (re_fa s c)) with
                         | Some (_, ra, qa) => Some (ra, qa) | None => None end else Some (ra, Freq clr false 0 false 0 (re_fa s c)))
                = Some (ra2, Freq clr adv (if adv then fs_pc s else 0) false 0 (re_fa s c)) /\
                f_write 0 FA_SIZE (fs_fa s) (Freq clr adv (if adv then fs_pc s else 0) false 0 (re_fa s c)) = Some fa' /\
                qlist fa' = (if clr then [] else if re_fa s c then tl (qlist (fs_fa s)) else qlist (fs_fa s)) ++ (if adv then [fs_pc s] else []) /\
                r_size ra2 = s_size fa').
  { destruct (wr 0 FA_SIZE fa_full (fs_fa s) clr adv (re_fa s c) (if adv then fs_pc s else 0)) as (fa' & Ef & Eq);
      [unfold FA_SIZE; lia| intros Av _; destruct (Cadv Av) as (_ & ? & _); unfold FA_SIZE; lia | unfold FA_SIZE; lia | exact Rfa|].
    assert (SZ: s_size fa' = ((if clr then 0 else s_size (fs_fa s) - (if re_fa s c then 1 else 0)) + (if adv then 1 else 0))%nat).
    { rewrite <- (qlist_length fa'), Eq, app_length. f_equal.
      - destruct clr; [reflexivity|]. destruct (re_fa s c); [|rewrite qlist_length; lia].
        rewrite <- (qlist_length (fs_fa s)). destruct (qlist (fs_fa s)); cbn [tl length]; lia.
      - destruct adv; reflexivity. }
    destruct adv.
    - destruct (Cadv eq_refl) as (C1 & C2 & C3 & C4). rewrite C4.
      destruct (acc2 0 0 FA_SIZE fa_full ra clr (re_fa s c) (fs_pc s)) as (o2 & ra2 & E2 & E3); [rewrite Ea3, C1; unfold FA_SIZE; lia|].
      rewrite E2. exists ra2, fa'. split; [reflexivity|]. split; [exact Ef|]. split; [exact Eq|]. rewrite E3, SZ, Ea3. lia.
    - exists ra, fa'. split; [reflexivity|]. split; [exact Ef|]. split; [exact Eq|]. rewrite SZ, Ea3. lia. }
  assert (XP: exists rp2 pt', (if adv then match f_access pe0 pe_dum PT_SIZE pt_full (Fin (g_reset c) (g_refetch s c) true false (pentry_of (bpu_pc s c) (c_pred c)) false) rp (Freq clr false pe0 false pe0 run) with
                         | Some (_, ra, qa) => Some (ra, qa) | None => None end else Some (rp, Freq clr false pe0 false pe0 run))
                = Some (rp2, Freq clr adv (if adv then pentry_of (fs_pc s) (c_pred c) else pe0) false pe0 run) /\
                f_write pe0 PT_SIZE (fs_pt s) (Freq clr adv (if adv then pentry_of (fs_pc s) (c_pred c) else pe0) false pe0 run) = Some pt' /\
                qlist pt' = (if clr then [] else if run then tl (qlist (fs_pt s)) else qlist (fs_pt s)) ++ (if adv then [pentry_of (fs_pc s) (c_pred c)] else []) /\
                r_size rp2 = s_size pt').
  { destruct (wr pe0 PT_SIZE pt_full (fs_pt s) clr adv run (if adv then pentry_of (fs_pc s) (c_pred c) else pe0)) as (fa' & Ef & Eq);
      [unfold PT_SIZE; lia| intros Av _; destruct (Cadv Av) as (_ & _ & ? & _); unfold PT_SIZE; lia | unfold PT_SIZE; lia | intros E; destruct (Rclr E) as (-> & _ & _ & ? & _); split; [reflexivity|lia]|].
    assert (SZ: s_size fa' = ((if clr then 0 else s_size (fs_pt s) - (if run then 1 else 0)) + (if adv then 1 else 0))%nat).
    { rewrite <- (qlist_length fa'), Eq, app_length. f_equal.
      - destruct clr; [reflexivity|]. destruct run; [|rewrite qlist_length; lia].
        rewrite <- (qlist_length (fs_pt s)). destruct (qlist (fs_pt s)); cbn [tl length]; lia.
      - destruct adv; reflexivity. }
    destruct adv.
    - destruct (Cadv eq_refl) as (C1 & C2 & C3 & C4). rewrite C4.
      assert (g_reset c = false /\ g_refetch s c = false) as [-> ->] by (unfold clr in C1; apply orb_false_iff in C1; exact C1).
      destruct (acc2 pe0 pe_dum PT_SIZE pt_full rp clr run (pentry_of (fs_pc s) (c_pred c))) as (o2 & ra2 & E2 & E3); [rewrite Ep3, C1; unfold PT_SIZE; lia|].
      rewrite E2. exists ra2, fa'. split; [reflexivity|]. split; [exact Ef|]. split; [exact Eq|]. rewrite E3, SZ, Ep3. lia.
    - exists rp, fa'. split; [reflexivity|]. split; [exact Ef|]. split; [exact Eq|]. rewrite SZ, Ep3. lia. }
  assert (XI: exists ri2 qi2 fi', (if we_fi s c then match c_resp c with
                         | Some g => match f_access ie0 ie0 FI_SIZE fi_full (Fin (g_reset c) (g_refetch s c) true false (ientry_of g) false) ri (Freq clr false ie0 false ie0 run) with
                                     | Some (_, ra, qa) => Some (ra, qa) | None => None end
                         | None => Some (ri, Freq clr false ie0 false ie0 run) end else Some (ri, Freq clr false ie0 false ie0 run))
                = Some (ri2, qi2) /\
                f_write ie0 FI_SIZE (fs_fi s) qi2 = Some fi' /\
                qlist fi' = (if clr then [] else if run then tl (qlist (fs_fi s)) else qlist (fs_fi s))
                             ++ (if clr || l_fi_full s then [] else match c_resp c with Some g => [ientry_of g] | None => [] end) /\
                r_size ri2 = s_size fi').
  { rewrite Wfi. unfold ic_valid.
    assert (NP: exists fi', f_write ie0 FI_SIZE (fs_fi s) (Freq clr false ie0 false ie0 run) = Some fi' /\
               qlist fi' = (if clr then [] else if run then tl (qlist (fs_fi s)) else qlist (fs_fi s)) ++ [] /\ r_size ri = s_size fi').
    { destruct (wr ie0 FI_SIZE fi_full (fs_fi s) clr false run ie0) as (fa' & Ef & Eq);
        [unfold FI_SIZE; lia|discriminate|unfold FI_SIZE; lia| intros E; destruct (Rclr E) as (-> & _ & ? & _); split; [reflexivity|lia]|].
      exists fa'. split; [exact Ef|]. split; [exact Eq|]. rewrite Ei3, <- (qlist_length fa'), Eq, app_nil_r.
      destruct clr; [reflexivity|]. destruct run; [|rewrite qlist_length; lia].
      rewrite <- (qlist_length (fs_fi s)). destruct (qlist (fs_fi s)); cbn [tl length]; lia. }
    destruct (clr || l_fi_full s) eqn:CF; cbn [negb andb].
    - destruct NP as (fi' & N1 & N2 & N3). exists ri, (Freq clr false ie0 false ie0 run), fi'. auto.
    - destruct (c_resp c) as [g|].
      + apply orb_false_iff in CF. destruct CF as [C1 C2]. specialize (Lfi C2).
        destruct (wr ie0 FI_SIZE fi_full (fs_fi s) clr true run (ientry_of g)) as (fa' & Ef & Eq);
          [unfold FI_SIZE; lia|intros _ _; unfold FI_SIZE; lia|unfold FI_SIZE; lia| intros E; destruct (Rclr E) as (-> & _ & ? & _); split; [reflexivity|lia]|].
        assert (g_reset c = false /\ g_refetch s c = false) as [-> ->] by (unfold clr in C1; apply orb_false_iff in C1; exact C1).
        destruct (acc2 ie0 ie0 FI_SIZE fi_full ri clr run (ientry_of g)) as (o2 & ra2 & E2 & E3); [rewrite Ei3, C1; unfold FI_SIZE; lia|].
        rewrite E2. exists ra2, (Freq clr true (ientry_of g) false ie0 run), fa'.
        split; [reflexivity|]. split; [exact Ef|]. split; [exact Eq|]. rewrite E3, Ei3, <- (qlist_length fa'), Eq, app_length, C1.
        cbn [length]. destruct run; [|rewrite qlist_length; lia].
        rewrite <- (qlist_length (fs_fi s)). destruct (qlist (fs_fi s)); cbn [tl length]; lia.
      + destruct NP as (fi' & N1 & N2 & N3). exists ri, (Freq clr false ie0 false ie0 run), fi'. auto. }
  destruct XA as (ra2 & fa' & A1 & A2 & A3 & A4). destruct XP as (rp2 & pt' & P1 & P2 & P3 & P4). destruct XI as (ri2 & qi2 & fi' & I1 & I2 & I3 & I4).
  assert (XC: exists d' corr', (if run then if existsb (fun i => negb (ie_pc (o_data oi) i =? pe_pc (o_data op) i)) (List.seq 0 NF) then None
         else checker (ie_type (o_data oi)) (ie_tgt (o_data oi)) (pe_dir (o_data op)) (ie_seq (o_data oi)) (pe_next (o_data op))
       else Some ((fun _ => false), 0, false)) = Some (d', corr', flush) /\ (run = true -> d' = d /\ corr' = corr) /\ (run = false -> corr' = 0)).
  { destruct run eqn:Er.
    - destruct (Hrun eq_refl) as (H1 & H2 & H3). rewrite Ei2, Ep2. fold ie pe.
      destruct (existsb _ _) eqn:EX.
      { exfalso. apply existsb_exists in EX. destruct EX as [i [Hin Hi]]. apply in_seq in Hin.
        rewrite H2 in Hi by (unfold NF in Hin; lia). now rewrite Z.eqb_refl in Hi. }
      rewrite H3. exists d, corr. split; [reflexivity|]. split; [auto|discriminate].
    - rewrite (Hnrun eq_refl). eexists _, _. split; [reflexivity|]. split; [discriminate|reflexivity]. }
  destruct XC as (d' & corr' & X1 & X2 & X3).
  set (byp0 := c_re c && l_fb_empty s && negb (o_rv ob) && (run && negb (l_fb_full s) && negb (g_reset c))).
  assert (Ewr: run && negb (l_fb_full s) && negb (g_reset c) = run).
  { destruct run eqn:E; [|reflexivity]. destruct (Rclr eq_refl) as (C1 & _ & _ & _ & C5). rewrite Lb1. unfold fb_full, FB_SIZE.
    unfold clr in C1. apply orb_false_iff in C1. destruct C1 as [-> _].
    destruct (Nat.eqb_spec (s_size (fs_fb s)) 8); [lia|reflexivity]. }
  assert (Ebyp: byp0 = byp) by (unfold byp0, byp; rewrite Ewr, Eb1; reflexivity).
  set (be' := BEntry (ie_inst (o_data oi)) (ie_pf (o_data oi)) (ie_valid (o_data oi)) d' (pe_pc (o_data op)) (pe_meta (o_data op)) corr').
  assert (Ebe: run = true -> be' = be).
  { intros E. destruct (X2 E) as [-> ->]. unfold be', be. rewrite Ei2, Ep2, E. reflexivity. }
  assert (XB: exists rb2 qb2 fb', (if run && negb byp then match f_access be0 be0 FB_SIZE fb_full (Fin (g_reset c) (c_refetch c) true false be' false) rb (Freq clb false be0 false be0 popb) with
                         | Some (_, ra, qa) => Some (ra, qa) | None => None end else Some (rb, Freq clb false be0 false be0 popb))
                = Some (rb2, qb2) /\
                f_write be0 FB_SIZE (fs_fb s) qb2 = Some fb' /\
                qlist fb' = (if clb then [] else if popb then tl (qlist (fs_fb s)) else qlist (fs_fb s)) ++ (if run && negb byp then [be] else []) /\
                r_size rb2 = s_size fb').
  { assert (Hpop: popb = true -> clb = false /\ (0 < s_size (fs_fb s))%nat).
    { unfold popb. destruct clb, (c_re c), (Nat.ltb_spec 0 (s_size (fs_fb s))); cbn; try discriminate; auto. }
    destruct (run && negb byp) eqn:RB.
    - apply andb_true_iff in RB. destruct RB as [Er _]. rewrite (Ebe Er). destruct (Rclr Er) as (C1 & C2 & _ & _ & C5).
      destruct (wr be0 FB_SIZE fb_full (fs_fb s) clb true popb be) as (fz' & Ef & Eq);
        [unfold FB_SIZE; lia|intros _ _; unfold FB_SIZE; lia|unfold FB_SIZE; lia|exact Hpop|].
      assert (g_reset c = false /\ c_refetch c = false) as [-> ->] by (unfold clb in C2; apply orb_false_iff in C2; exact C2).
      destruct (acc2 be0 be0 FB_SIZE fb_full rb clb popb be) as (o2 & rz2 & E2 & E3); [rewrite Eb3, C2; unfold FB_SIZE; lia|].
      rewrite E2. exists rz2, (Freq clb true be false be0 popb), fz'.
      split; [reflexivity|]. split; [exact Ef|]. split; [exact Eq|]. rewrite E3, Eb3, <- (qlist_length fz'), Eq, app_length, C2.
      cbn [length]. destruct popb; [|rewrite qlist_length; lia].
      destruct (Hpop eq_refl) as [_ Hz]. rewrite <- (qlist_length (fs_fb s)) in *. destruct (qlist (fs_fb s)); cbn [tl length] in *; lia.
    - destruct (wr be0 FB_SIZE fb_full (fs_fb s) clb false popb be0) as (fz' & Ef & Eq);
        [unfold FB_SIZE; lia|discriminate|unfold FB_SIZE; lia|exact Hpop|].
      exists rb, (Freq clb false be0 false be0 popb), fz'. split; [reflexivity|]. split; [exact Ef|]. split; [exact Eq|].
      rewrite Eb3, <- (qlist_length fz'), Eq, app_nil_r.
      destruct clb; [reflexivity|]. destruct popb; [|rewrite qlist_length; lia].
      destruct (Hpop eq_refl) as [_ Hz]. rewrite <- (qlist_length (fs_fb s)) in *. destruct (qlist (fs_fb s)); cbn [tl length] in *; lia. }
  destruct XB as (rb2 & qb2 & fb' & B1 & B2 & B3 & B4).
  assert (Ecr: negb (pe_dummy (o_data op)) && re_pre s c = run).
  { fold run. destruct run eqn:E; [|now rewrite andb_false_r]. destruct (Hrun eq_refl) as (H1 & _). rewrite Ep2. fold pe. now rewrite H1. }
  eexists. split.
  - unfold fcycle. fold run. rewrite Ea, Ei, Ep, Eb. rewrite Wfa, Wpt.
    rewrite A1. fold run in Ecr. rewrite Ecr. rewrite I1, P1. rewrite X1. rewrite Ewr. 
    replace (c_re c && l_fb_empty s && negb (o_rv ob) && run) with byp by (unfold byp; rewrite Eb1; reflexivity).
    fold be'. rewrite B1. rewrite A2, I2, P2, B2. f_equal. f_equal.
    rewrite Eb1, Eb2, Ea1, Ea2. f_equal.
    + destruct popb; [reflexivity|]. destruct byp eqn:BY; [|reflexivity]. f_equal. apply Ebe. unfold byp in BY. apply andb_true_iff in BY. tauto.
    + destruct (re_fa s c); reflexivity.
  - cbn [fs_fa fs_fi fs_pt fs_fb l_fa_full l_fa_empty l_fi_full l_fi_empty l_pt_full l_pt_empty l_fb_full l_fb_empty fs_refetch fs_refetch_addr fs_pc fs_send].
    rewrite A4, I4, P4, B4. split; [exact A3|]. split; [exact I3|]. split; [exact P3|]. split; [exact B3|].
    split; [repeat split; reflexivity|]. split; [reflexivity|]. split.
    + destruct flush eqn:Ef; [|reflexivity]. destruct run eqn:Er; [apply X2; reflexivity|discriminate (Hnrun eq_refl)].
    + unfold pc_next, send_next. split.
      * destruct (g_reset c) eqn:E1; [reflexivity|]. destruct (g_refetch s c) eqn:E2; [reflexivity|].
        replace (bpu_do s c) with adv; [reflexivity|].
        unfold bpu_do, bpu_ready, bpu_can_run, adv, clr, bpu_stall. rewrite Hsend, E1, E2. destruct (l_fa_full s), (l_pt_full s); reflexivity.
      * rewrite Hsend. destruct (g_reset c), (g_refetch s c), (bpu_do s c); reflexivity.
Qed.

Lemma qlist_hd {A} (s : fst_ A) : (0 < s_size s)%nat -> qlist s = s_ent s 0%nat :: tl (qlist s).
Proof. intros H. unfold qlist. destruct (s_size s); [lia|]. reflexivity. Qed.

Lemma bchain_app l : forall a e b e',
  bchain a l e -> (forall i, (i < 4)%nat -> be_pc b i = (e + 4 * Z.of_nat i) mod M32) -> be_next b = e' ->
  bchain a (l ++ [b]) e'.
Proof.
  induction l as [|x l IH]; intros a e b e' H Hb En; cbn [app bchain] in *.
  - subst a. split; [exact Hb|exact En].
  - destruct H as [H1 H2]. split; [exact H1|]. now apply (IH _ e).
Qed.

Lemma pstart_app l (adv : bool) pc p nx :
  pstart (l ++ (if adv then [(pc, p)] else [])) (if adv then nx else pc) = pstart l pc.
Proof. destruct l, adv; reflexivity. Qed.

Lemma pchain_app l pc p : pchain l pc -> pchain (l ++ [(pc, p)]) (pr_next p).
Proof.
  induction l as [|x l IH]; intros H; cbn [app pchain] in *.
  - cbn. auto.
  - destruct H as [H1 H2]. split; [|auto]. rewrite H1. destruct l; reflexivity.
Qed.

Lemma pchain_tl l e : pchain l e -> pchain (tl l) e.
Proof. destruct l; cbn; tauto. Qed.

Lemma finv_step F G g PL GL c o' :
  FInv F G g PL GL -> fenv F G (gs g) (outst g) c o' ->
  exists s' out PL' GL', fcycle (gs g) c = Some (s', out) /\
    FInv F G (GS s' o' (trace g ++ event c out)) PL' GL' /\
    (forall x, co_group out = Some x -> c_reset c = false /\ c_refetch c = false).
Proof.
  destruct g as [s o tr]. cbn [gs outst trace].
  intros I (Ha & Hpn & HG & HF & HO).
  destruct I as [Sa Si Sp Sb La1 La2 Li1 Li2 Lp1 Lp2 Lb1 Lb2 Hsend HPL HGL IG IF AL CH PCr RA BL DEL TR TRD].
  cbn [gs outst trace] in *.
  set (clr := g_reset c || g_refetch s c) in *.
  assert (Rrun: re_pre s c = true -> clr = false /\ g_reset c = false /\ c_refetch c = false /\ fs_refetch s = false /\
                (0 < s_size (fs_fi s))%nat /\ (0 < s_size (fs_pt s))%nat /\ (s_size (fs_fb s) < 8)%nat).
  { intros E. unfold re_pre in E. rewrite Li2, Lp2, Lb1 in E. unfold fb_full, FB_SIZE in E. unfold clr, g_refetch in *.
    destruct (Nat.eqb_spec (s_size (fs_fi s)) 0), (Nat.eqb_spec (s_size (fs_pt s)) 0), (Nat.eqb_spec (s_size (fs_fb s)) 8),
      (g_reset c), (c_refetch c), (fs_refetch s); cbn in E |- *; try discriminate E; repeat split; lia. }
  assert (LPL: length PL = s_size (fs_pt s)) by (rewrite <- qlist_length, HPL, map_length; reflexivity).
  assert (LGL: length GL = s_size (fs_fi s)) by (rewrite <- qlist_length, HGL, map_length; reflexivity).
  (* what predecode does when it runs *)
  assert (RUN: exists d corr flush,
    let ie := s_ent (fs_fi s) 0%nat in let pe := s_ent (fs_pt s) 0%nat in
    (re_pre s c = true -> pe_dummy pe = false /\ (forall i, (i < 4)%nat -> ie_pc ie i = pe_pc pe i) /\
                 checker (ie_type ie) (ie_tgt ie) (pe_dir pe) (ie_seq ie) (pe_next pe) = Some (d, corr, flush)) /\
    (re_pre s c = false -> flush = false /\ corr = 0) /\
    (re_pre s c = true -> let be := BEntry (ie_inst ie) (ie_pf ie) (ie_valid ie) d (pe_pc pe) (pe_meta pe) corr in
       delivers F G be /\ (forall i, (i < 4)%nat -> be_pc be i = (pstart PL (fs_pc s) + 4 * Z.of_nat i) mod M32) /\
       (flush = false -> corr = pstart (tl PL) (fs_pc s)) /\ 0 <= corr < M32)).
  { destruct (re_pre s c) eqn:Er.
    2: { exists (fun _ => false), 0, false. split; [discriminate|]. split; [auto|discriminate]. }
    destruct (Rrun eq_refl) as (_ & _ & _ & _ & Z1 & Z2 & _).
    destruct PL as [|x0 PL0]; [cbn in LPL; lia|]. destruct GL as [|g0 GL0]; [cbn in LGL; lia|].
    pose proof (qlist_hd (fs_fi s) Z1) as H1. rewrite HGL in H1. cbn [map tl] in H1. injection H1 as H1.
    pose proof (qlist_hd (fs_pt s) Z2) as H2. rewrite HPL in H2. cbn [map tl] in H2. injection H2 as H2.
    rewrite <- H1, <- H2. cbn [map app] in AL. injection AL as AL0 AL.
    destruct (IG x0 (or_introl eq_refl)) as [G0 R0].
    destruct (checker_spec g0 (pr_dir (snd x0)) (pr_next (snd x0))) as (d & E1 & E2); [rewrite <- AL0; exact R0|].
    set (corr := walk 4 0 (ig_inst g0) (ig_valid g0) (slot_pc (ig_pc g0)) (pr_dir (snd x0)) (block_end (ig_pc g0)) (pr_next (snd x0))) in *.
    exists d, corr, (negb (pr_next (snd x0) =? corr)). cbn [pe_of pentry_of pe_dummy pe_pc pe_dir pe_next pe_meta].
    split; [intros _|]. 2: split; [discriminate|intros _].
    - split; [reflexivity|]. split; [intros i _; cbn [ientry_of ie_pc]; now rewrite AL0|]. exact E1.
    - assert (SP: forall i, slot_pc (fst x0) i = (ig_pc g0 + 4 * Z.of_nat i) mod M32).
      { intros i. rewrite AL0. unfold slot_pc, w32, M32. f_equal. lia. }
      split; [|split; [|split]].
      + exists g0, (snd x0). split; [apply IF; now left|]. split; [rewrite <- AL0; exact G0|].
        cbn [be_inst be_pf be_valid be_meta be_pc be_dir be_next ientry_of ie_inst ie_pf ie_valid].
        split.
        * intros i Hi. repeat split; [apply SP|]. rewrite E2, AL0. reflexivity.
        * unfold corr. rewrite AL0. reflexivity.
      + intros i Hi. cbn [be_pc pstart]. rewrite SP, AL0. reflexivity.
      + intros Ef. apply negb_false_iff, Z.eqb_eq in Ef. rewrite <- Ef. cbn [tl]. destruct CH as [CH0 _]. rewrite CH0. destruct PL0; reflexivity.
      + unfold corr.
        assert (NB: 0 <= block_end (ig_pc g0) < M32) by (unfold block_end, M32; apply Z.mod_pos_bound; lia).
        assert (NP: 0 <= pr_next (snd x0) < M32).
        { destruct CH as [CH0 _]. rewrite CH0. destruct PL0 as [|y ?]; [exact PCr|]. apply IG. cbn; auto. }
        clear - NB NP.
        enough (W: forall n k, 0 <= walk n k (ig_inst g0) (ig_valid g0) (slot_pc (ig_pc g0)) (pr_dir (snd x0)) (block_end (ig_pc g0)) (pr_next (snd x0)) < M32) by apply W.
        intros n. induction n as [|n IH]; intros k; cbn [walk]; [exact NB|].
        destruct (ig_valid g0 k); [|apply IH].
        assert (J: forall z, 0 <= z mod M32 < M32) by (intros z; unfold M32; apply Z.mod_pos_bound; lia).
        unfold steering. destruct (_ =? 111); [apply J|]. destruct (_ =? 99); [destruct (pr_dir (snd x0) k); [apply J|apply IH]|].
        destruct (_ =? 103); [exact NP|apply IH]. }
  destruct RUN as (d & corr & flush & R1 & R2 & R3). cbn zeta in R1, R2, R3.
  destruct (fcycle_run s c d corr flush) as (s' & E & Qa & Qi & Qp & Qb & LT & F1 & F2 & F3 & F4); try assumption; try lia.
  { intros H. apply R2. exact H. }
  fold clr in Qa, Qi, Qp. 
  set (run := re_pre s c) in *. set (adv := negb clr && negb (bpu_stall s)) in *.
  set (be := BEntry (ie_inst (s_ent (fs_fi s) 0%nat)) (ie_pf (s_ent (fs_fi s) 0%nat)) (ie_valid (s_ent (fs_fi s) 0%nat)) d
                    (pe_pc (s_ent (fs_pt s) 0%nat)) (pe_meta (s_ent (fs_pt s) 0%nat)) corr) in *.
  set (clb := g_reset c || c_refetch c) in *.
  set (popb := negb clb && c_re c && Nat.ltb 0 (s_size (fs_fb s))) in *.
  set (byp := c_re c && l_fb_empty s && negb popb && run) in *.
  set (PL' := (if clr then [] else if run then tl PL else PL) ++ (if adv then [(fs_pc s, c_pred c)] else [])).
  set (GL' := (if clr then [] else if run then tl GL else GL) ++ (if clr then [] else match c_resp c with Some g => [g] | None => [] end)).
  assert (NF: l_fi_full s = false) by (rewrite Li1; unfold fi_full, FI_SIZE; apply Nat.eqb_neq; lia).
  rewrite NF, orb_false_r in Qi.
  assert (HPL': qlist (fs_pt s') = map pe_of PL').
  { rewrite Qp. unfold PL'. rewrite map_app. f_equal.
    - destruct clr; [reflexivity|]. rewrite HPL. destruct run; [|reflexivity]. destruct PL; reflexivity.
    - destruct adv; reflexivity. }
  assert (HGL': qlist (fs_fi s') = map ientry_of GL').
  { rewrite Qi. unfold GL'. rewrite map_app. f_equal.
    - destruct clr; [reflexivity|]. rewrite HGL. destruct run; [|reflexivity]. destruct GL; reflexivity.
    - destruct clr; [reflexivity|]. destruct (c_resp c); reflexivity. }
  assert (AL': map fst PL' = map ig_pc GL' ++ o' ++ qlist (fs_fa s')).
  { unfold PL', GL'. rewrite Qa. destruct clr eqn:EC.
    - rewrite HO. unfold adv. cbn [negb andb app map]. reflexivity.
    - assert (ALx: map fst (if run then tl PL else PL) = map ig_pc (if run then tl GL else GL) ++ o ++ qlist (fs_fa s)).
      { destruct run eqn:Er; [|exact AL]. destruct (Rrun eq_refl) as (_ & _ & _ & _ & Z1 & Z2 & _).
        destruct PL; [cbn in LPL; lia|]. destruct GL; [cbn in LGL; lia|]. cbn [map tl app] in *. now injection AL. }
      rewrite !map_app, ALx.
      assert (FA: o ++ qlist (fs_fa s) = (o ++ asked s c) ++ (if re_fa s c then tl (qlist (fs_fa s)) else qlist (fs_fa s))).
      { unfold asked. destruct (re_fa s c); [|now rewrite app_nil_r]. rewrite <- app_assoc. f_equal. destruct (qlist (fs_fa s)); reflexivity. }
      assert (OX: o ++ asked s c = map ig_pc (match c_resp c with Some g => [g] | None => [] end) ++ o').
      { destruct (c_resp c) as [g|]; [destruct HO as [_ HO]; exact HO|now rewrite HO]. }
      rewrite FA, OX. rewrite !app_assoc. f_equal. destruct adv; reflexivity. }
  assert (ADV: adv = true -> (s_size (fs_pt s) <= 6)%nat).
  { unfold adv, bpu_stall. rewrite Lp1. unfold pt_full, PT_SIZE. intros H.
    destruct (Nat.leb_spec (8 - 1) (s_size (fs_pt s))); [|lia]. rewrite orb_true_r, andb_false_r in H. discriminate. }
  assert (LP': (length PL' <= 7)%nat).
  { unfold PL'. rewrite app_length.
    assert ((length (if clr then [] else if run then tl PL else PL) <= length PL)%nat).
    { destruct clr; [cbn; lia|]. destruct run; [destruct PL; cbn; lia|lia]. }
    destruct adv; cbn [length]; [specialize (ADV eq_refl)|]; lia. }
  assert (LS: (length (qlist (fs_fa s')) <= 7)%nat /\ (length GL' <= 7)%nat).
  { apply (f_equal (@length Z)) in AL'. rewrite !app_length, !map_length in AL'. lia. }
  assert (PC': fs_pc s' = if g_reset c then RESET_PC else if g_refetch s c then g_addr s c else if adv then pr_next (c_pred c) else fs_pc s) by exact F3.
  assert (PCr': 0 <= fs_pc s' < M32).
  { rewrite PC'. destruct (g_reset c); [unfold RESET_PC, M32; lia|]. destruct (g_refetch s c); [unfold g_addr; destruct (c_refetch c); assumption|].
    destruct adv; assumption. }
  (* the block stream *)
  set (out := FCOut (if popb then Some (s_ent (fs_fb s) 0%nat) else if byp then Some be else None)
                    (if re_fa s c then Some (s_ent (fs_fa s) 0%nat) else None)) in *.
  assert (NOO: co_group out <> None -> clb = false).
  { unfold out. cbn [co_group]. destruct popb eqn:Pb.
    - intros _. unfold popb in Pb. destruct clb; [discriminate Pb|reflexivity].
    - destruct byp eqn:By; [|congruence]. intros _. unfold byp in By. apply andb_true_iff in By. destruct By as [_ Hr].
      destruct (Rrun Hr) as (_ & Z1 & Z2 & _). unfold clb. now rewrite Z1, Z2. }
  assert (STR: clb = false -> qlist (fs_fb s) ++ (if run then [be] else []) =
               (match co_group out with Some b => [b] | None => [] end) ++ qlist (fs_fb s')).
  { intros CB. rewrite Qb, CB. unfold out. cbn [co_group]. destruct popb eqn:Pb.
    - assert (byp = false) as -> by (unfold byp; now rewrite andb_false_r). cbn [negb]. rewrite andb_true_r.
      unfold popb in Pb. rewrite CB in Pb. cbn [negb] in Pb. apply andb_true_iff in Pb. destruct Pb as [_ Hz]. apply Nat.ltb_lt in Hz.
      rewrite (qlist_hd (fs_fb s) Hz) at 1. reflexivity.
    - destruct byp eqn:By.
      + unfold byp in By. apply andb_true_iff in By. destruct By as [By Hr]. apply andb_true_iff in By. destruct By as [By _].
        apply andb_true_iff in By. destruct By as [_ By]. rewrite Lb2 in By. apply Nat.eqb_eq in By.
        rewrite Hr. unfold qlist. rewrite By. reflexivity.
      + cbn [negb]. rewrite andb_true_r. reflexivity. }
  set (E0 := if fs_refetch s then fs_refetch_addr s else pstart PL (fs_pc s)) in *.
  set (E1 := if fs_refetch s' then fs_refetch_addr s' else pstart PL' (fs_pc s')).
  assert (BL2: clb = false -> bchain (expect tr) (qlist (fs_fb s) ++ (if run then [be] else [])) E1).
  { intros CB. unfold clb in CB. apply orb_false_iff in CB. destruct CB as [CB1 CB2].
    destruct run eqn:Er.
    - destruct (Rrun eq_refl) as (Z0 & Z1 & Z2 & Z3 & _). destruct (R3 eq_refl) as (D1 & D2 & D3 & D4).
      apply (bchain_app _ _ E0); [exact BL| |].
      + unfold E0. rewrite Z3. exact D2.
      + unfold be. cbn [be_next]. unfold E1. rewrite F1, F2. destruct flush; [reflexivity|].
        rewrite (D3 eq_refl). unfold PL'. rewrite Z0, PC', CB1. unfold g_refetch. rewrite CB2, Z3. cbn [orb].
        symmetry. exact (pstart_app (tl PL) adv (fs_pc s) (c_pred c) (pr_next (c_pred c))).
    - rewrite app_nil_r. destruct (R2 eq_refl) as [Rf _]. unfold E1. rewrite F1, Rf.
      replace (pstart PL' (fs_pc s')) with E0; [exact BL|]. unfold E0, PL'. rewrite PC', CB1.
      unfold clr, g_refetch, g_addr. rewrite CB1, CB2. cbn [orb]. destruct (fs_refetch s) eqn:FR.
      + unfold adv, clr, g_refetch. rewrite CB1, CB2, FR. reflexivity.
      + symmetry. exact (pstart_app PL adv (fs_pc s) (c_pred c) (pr_next (c_pred c))). }
  assert (BL': bchain (expect (tr ++ event c out)) (qlist (fs_fb s')) E1 /\ follows 0 (tr ++ event c out)).
  { unfold expect. rewrite fold_left_app, follows_app. fold (expect tr).
    assert (SMP: clb = true -> qlist (fs_fb s') = [] /\ E1 = (if c_reset c then 0 else c_addr c)).
    { intros CB. assert (Er: run = false).
      { destruct run eqn:Er; [|reflexivity]. destruct (Rrun eq_refl) as (_ & Z1 & Z2 & _). unfold clb in CB. rewrite Z1, Z2 in CB. discriminate. }
      split; [rewrite Qb, CB, Er; reflexivity|]. unfold E1. destruct (R2 Er) as [Rf _]. rewrite F1, Rf.
      assert (CL: clr = true). { unfold clr, g_refetch, clb in *. destruct (g_reset c), (c_refetch c); try reflexivity. discriminate. }
      unfold PL'. rewrite CL. unfold adv. rewrite CL. cbn [negb andb app pstart]. rewrite PC'. change (g_reset c) with (c_reset c).
      destruct (c_reset c) eqn:CR; [reflexivity|]. unfold clb in CB. change (g_reset c) with (c_reset c) in CB. rewrite CR in CB. cbn [orb] in CB.
      unfold g_refetch, g_addr. rewrite CB. reflexivity. }
    unfold event. destruct (c_reset c) eqn:CR.
    { destruct SMP as [S1 S2]; [unfold clb; change (g_reset c) with (c_reset c); now rewrite CR|]. rewrite S1, S2. cbn. auto. }
    destruct (c_refetch c) eqn:CF.
    { destruct SMP as [S1 S2]; [unfold clb; now rewrite orb_true_r|]. rewrite S1, S2. cbn. auto. }
    assert (CB: clb = false) by (unfold clb; change (g_reset c) with (c_reset c); now rewrite CR).
    specialize (BL2 CB). rewrite (STR CB) in BL2. destruct (co_group out) as [b|]; cbn [app bchain fold_left follows ev_next] in *.
    - destruct BL2 as [B1 B2]. auto.
    - auto. }
  assert (DELs: forall b, In b (qlist (fs_fb s) ++ (if run then [be] else [])) -> delivers F G b).
  { intros b Hb. apply in_app_or in Hb. destruct Hb as [Hb|Hb]; [auto|]. destruct run eqn:Er; [|destruct Hb].
    destruct Hb as [<-|[]]. now apply R3. }
  exists s', out, PL', GL'. split; [exact E|]. split.
  2: { intros x Hx. assert (CB: clb = false) by (apply NOO; congruence). unfold clb in CB. apply orb_false_iff in CB. exact CB. }
  destruct LT as (T1 & T2 & T3 & T4 & T5 & T6 & T7 & T8). destruct BL' as [BL' TR'].
  constructor; cbn [gs outst trace]; try assumption.
  - rewrite <- qlist_length. lia.
  - rewrite <- qlist_length, HGL', map_length. lia.
  - rewrite <- qlist_length, HPL', map_length. lia.
  - rewrite <- qlist_length, Qb, app_length.
    assert (LB: (length (if clb then [] else if popb then tl (qlist (fs_fb s)) else qlist (fs_fb s)) <= s_size (fs_fb s))%nat).
    { rewrite <- (qlist_length (fs_fb s)). destruct clb; [cbn; lia|]. destruct popb; [destruct (qlist (fs_fb s)); cbn; lia|lia]. }
    destruct run eqn:Er; [|cbn [andb length]; lia]. destruct (Rrun eq_refl) as (_ & _ & _ & _ & _ & _ & Z7). destruct (negb byp); cbn [andb length]; lia.
  - intros x Hx. unfold PL' in Hx. apply in_app_or in Hx. destruct Hx as [Hx|Hx].
    + apply IG. destruct clr; [destruct Hx|]. destruct run; [destruct PL; [destruct Hx|now right]|exact Hx].
    + destruct adv eqn:Ad; [|destruct Hx]. destruct Hx as [<-|[]]. cbn [fst snd]. split; [|exact PCr].
      assert (bpu_pc s c = fs_pc s) as <-; [|exact HG]. unfold bpu_pc. unfold adv, clr in Ad.
      destruct (g_refetch s c); [rewrite orb_true_r in Ad; discriminate Ad|reflexivity].
  - intros x Hx. unfold GL' in Hx. apply in_app_or in Hx. destruct Hx as [Hx|Hx].
    + apply IF. destruct clr; [destruct Hx|]. destruct run; [destruct GL; [destruct Hx|now right]|exact Hx].
    + destruct clr; [destruct Hx|]. destruct (c_resp c); [|destruct Hx]. destruct Hx as [<-|[]]. now apply HF.
  - rewrite PC'. unfold PL'. destruct (g_reset c) eqn:Z1.
    { unfold adv, clr. cbn. exact I. }
    destruct (g_refetch s c) eqn:Z2.
    { unfold adv, clr. cbn. exact I. }
    assert (clr = false) as -> by reflexivity.
    assert (CHx: pchain (if run then tl PL else PL) (fs_pc s)) by (destruct run; [now apply pchain_tl|exact CH]).
    destruct adv; [now apply pchain_app|now rewrite app_nil_r].
  - rewrite F2. destruct flush eqn:Ef; [|unfold M32; lia]. destruct run eqn:Er; [now apply R3|]. destruct (R2 eq_refl). discriminate.
  - intros b Hb. destruct clb eqn:CB.
    + apply DEL. exfalso. rewrite Qb in Hb. destruct run eqn:Er; [|destruct Hb].
      destruct (Rrun eq_refl) as (_ & Z1 & Z2 & _). unfold clb in CB. rewrite Z1, Z2 in CB. discriminate.
    + apply DELs. rewrite (STR eq_refl). apply in_or_app. now right.
  - intros b Hb. apply in_app_or in Hb. destruct Hb as [Hb|Hb]; [auto|]. unfold event in Hb.
    destruct (c_reset c) eqn:CR; [destruct Hb as [Hb|[]]; discriminate|].
    destruct (c_refetch c) eqn:CF; [destruct Hb as [Hb|[]]; discriminate|].
    destruct (co_group out) as [b'|] eqn:CO; [|destruct Hb]. destruct Hb as [Hb|[]]. injection Hb as <-.
    apply DELs. rewrite STR by (apply NOO; congruence). rewrite ?CO. now left.
Qed.

Theorem finv_reach F G g : freach F G g -> exists PL GL, FInv F G g PL GL.
Proof.
  intros R. induction R as [|g c o' s' out R [PL [GL I]] E C].
  - exists [], []. apply finv_init.
  - destruct (finv_step F G g PL GL c o' I E) as (s2 & out2 & PL' & GL' & C2 & I2 & _).
    rewrite C in C2. injection C2 as <- <-. eauto.
Qed.
