(** C64, continued: what decides between provider and alternate, and what the
    usefulness bits record. *)
From Verif Require Import Base TageModel TageSpec TageProofs TageProps.
From Coq Require Import Lia.
Local Open Scope Z_scope.
Ltac Zify.zify_post_hook ::= Z.div_mod_to_equations.

(** *** The choice for a weak provider *)
(** A provider that leans towards not taken by one step (3) is overruled by the
    alternate if the small corrector is strongly against it, or, unless it is
    strongly for it, if the entry never was useful and the global counter prefers
    alternates.  One that leans towards taken (4) only in the first case. *)
Theorem c64_weak_choice h s r : treach h s -> let a := predict s r in
  let c := t_cnt s (m_pcpn a) (m_idx a (m_pcpn a)) in
  let u := t_use s (m_pcpn a) (m_idx a (m_pcpn a)) in
  let k := t_sc s (sc_idx (rq_pc r)) in
  m_lu a = false -> (m_pcpn a < 4)%nat ->
  (c = 3 -> m_pred a = m_alt a && ((k =? 0) || (negb (k =? 3) && (u =? 0) && (t_ua s <=? 8)))) /\
  (c = 4 -> m_pred a = m_alt a || negb (k =? 0)).
Proof.
  intros R a c u k LU L. destruct (c64_corrector_inert h s R) as (_ & _ & _ & SC). specialize (SC r).
  pose proof (c64_ranges h s R) as IRs.
  assert (PS: m_pred a = if lused s r then lpred s r else if scl_used s r then SCL_BIAS <=? scl_sum s r else sel_pred s r) by reflexivity.
  change (m_lu a) with (lused s r) in LU. change (m_scu (predict s r)) with (scl_used s r) in SC. rewrite LU, SC in PS.
  change (m_pcpn a) with (pcpn s r) in *. change (m_alt a) with (alt_pred s r).
  change c with (prov_cnt s r). rewrite PS. unfold sel_pred.
  replace (pcpn s r <? TN)%nat with true by (symmetry; now apply Nat.ltb_lt).
  change (rd_use s r (pcpn s r)) with u. assert (U := ir_use _ IRs (pcpn s r) (m_idx a (pcpn s r))). change (t_use s (pcpn s r) (m_idx a (pcpn s r))) with u in U.
  fold k. replace (u <=? 0) with (u =? 0) by (unfold rng in U; lia).
  split; intros ->; unfold weak, weak_sc; cbn [Z.leb Z.compare Pos.compare Pos.compare_cont andb];
    destruct (alt_pred s r), (k =? 0) eqn:K0, (k =? 3) eqn:K3, (u =? 0), (t_ua s <=? 8); cbn; try reflexivity; lia.
Qed.
(** A loop prediction is used only from a valid entry with the branch's tag that
    was right often enough, and only against a provider without leaning. *)
Theorem c64_loop_used s r : let a := predict s r in m_lu a = true ->
  let e := t_loop s (m_lidx a) in
  le_valid e = true /\ le_tag e = m_ltag a /\ 5 <= le_conf e /\ m_pred a = m_lp a /\
  (m_pcpn a < 4)%nat /\ t_cnt s (m_pcpn a) (m_idx a (m_pcpn a)) = 3.
Proof.
  intros a LU e. change (lused s r = true) in LU.
  assert (P: m_pred a = lpred s r) by (cbn [a predict m_pred]; now rewrite LU).
  assert (LP: m_lp a = lsure s r && lpred s r) by reflexivity.
  unfold lused in LU. apply andb_true_iff in LU as [LU W]. apply andb_true_iff in LU as [LS PN].
  rewrite LS in LP. cbn [andb] in LP.
  unfold lsure, lhit, lent in LS. apply andb_true_iff in LS as [LH C]. apply andb_true_iff in LH as [V T].
  unfold weak in W. change (prov_cnt s r) with (t_cnt s (m_pcpn a) (m_idx a (m_pcpn a))) in W.
  split; [exact V|]. split; [now apply Z.eqb_eq|]. split; [now apply Z.leb_le|]. split; [congruence|].
  split; [now apply Nat.ltb_lt|]. apply andb_true_iff in W. lia.
Qed.

(** *** What trains the choice *)
Theorem c64_choice_trained s u : in_range s -> let s' := update s u in let mt := tr_meta u in
  let p := m_pcpn mt in let x := m_idx mt p mod 64 in
  let says := 4 <=? t_cnt s p x in let right := Bool.eqb says (tr_dir u) in
  let j := sc_idx (tr_pc u) in
  (if (p <? 4)%nat && (t_cnt s p x =? 3) && (t_use s p x =? 0) && negb (Bool.eqb says (m_alt mt))
   then moves 15 right (t_ua s) (t_ua s') else t_ua s' = t_ua s) /\
  (if (p <? 4)%nat && ((t_cnt s p x =? 3) || (t_cnt s p x =? 4)) && negb (Bool.eqb says (m_alt mt)) && negb (m_scu mt || m_lu mt)
   then moves 3 right (t_sc s j) (t_sc s' j) else t_sc s' j = t_sc s j) /\
  (forall i, i <> j -> t_sc s' i = t_sc s i).
Proof.
  intros R s' mt p x says right j.
  assert (EI: x = mi u p) by (unfold x, mi, IDXM, tm; now rewrite land63).
  assert (CN := ir_cnt _ R p x). assert (US := ir_use _ R p x). assert (UA := ir_ua _ R). assert (KS := ir_sc _ R j).
  assert (EC: u_cnt s u (tp u) = t_cnt s p x) by (unfold u_cnt; change (tp u) with p; now rewrite <- EI).
  assert (EU: u_use s u (tp u) = t_use s p x) by (unfold u_use; change (tp u) with p; now rewrite <- EI).
  assert (RW: raw s u = says) by (unfold raw; now rewrite EC).
  assert (PR: prov u = (p <? 4)%nat) by reflexivity.
  assert (W3: weak (t_cnt s p x) = (t_cnt s p x =? 3)) by (unfold weak; lia).
  assert (W4: weak_sc (t_cnt s p x) = (t_cnt s p x =? 3) || (t_cnt s p x =? 4)) by (unfold weak_sc; lia).
  assert (U0: (t_use s p x <=? 0) = (t_use s p x =? 0)) by (unfold rng in US; lia).
  assert (XN: forall b c, xorb b c = negb (Bool.eqb b c)) by (intros [] []; reflexivity).
  split; [|split].
  - unfold s', update. cbn [t_ua]. unfold ua_next. rewrite PR, EC, EU, RW, W3, U0. change (tm u) with mt. change (tdir u) with (tr_dir u).
    rewrite XN. destruct ((p <? 4)%nat && (t_cnt s p x =? 3) && (t_use s p x =? 0) && negb (Bool.eqb says (m_alt mt))) eqn:C; [|reflexivity].
    apply andb_true_iff in C as [_ C]. unfold right. destruct says, (m_alt mt), (tr_dir u); try discriminate; cbn [Bool.eqb xorb];
      unfold moves, sinc, rng in *; repeat match goal with |- context [?v <=? ?w] => destruct (Z.leb_spec v w) end; lia.
  - unfold s', update. cbn [t_sc]. unfold w_sc. rewrite PR, EC, RW, W4. change (tm u) with mt. change (tdir u) with (tr_dir u).
    rewrite XN. unfold prov_used. change (tm u) with mt. fold j.
    destruct (p <? 4)%nat, ((t_cnt s p x =? 3) || (t_cnt s p x =? 4)), (m_scu mt || m_lu mt); cbn [negb andb]; rewrite ?andb_false_r, ?andb_true_r; cbn [andb];
      try reflexivity; try (destruct (negb (Bool.eqb says (m_alt mt))); reflexivity).
    unfold right. destruct says, (m_alt mt), (tr_dir u); cbn [Bool.eqb xorb negb apply]; try reflexivity; rewrite zupd_eq;
      first [now apply sinc_moves | now apply sdec_moves].
  - intros i N. unfold s', update. cbn [t_sc]. fold j. unfold apply. destruct (w_sc s u); [now apply zupd_ne | reflexivity].
Qed.

(** *** Usefulness *)
(** The bit kept when the row under the counter is thinned. *)
Definition kept (rst v : Z) : Z := if Z.odd (rst / 2 ^ 23) then v mod 2 else 2 * (v / 2).
Definition thinned (rst x : Z) : bool := (rst mod 2048 =? 0) && (x =? (rst / 2048) mod 64).
Lemma thin_kept s v : rng 3 v -> thin s v = kept (t_rst s) v.
Proof.
  intros H. unfold thin, kept, rst_lsb. rewrite Z.shiftr_div_pow2 by lia.
  assert (C: v = 0 \/ v = 1 \/ v = 2 \/ v = 3) by (unfold rng in H; lia).
  destruct (Z.odd (t_rst s / 2 ^ 23)); destruct C as [->|[->|[->| ->]]]; reflexivity.
Qed.
Lemma rst_eq s : in_range s -> rst_now s = (t_rst s mod 2048 =? 0) /\ rst_row s = (t_rst s / 2048) mod 64.
Proof.
  intros R. unfold rst_now, rst_row, IDXM. change 2047 with (Z.ones 11). rewrite Z.land_ones by lia. change (2 ^ 11) with 2048.
  rewrite land4095, land63, Z.shiftr_div_pow2 by lia. change (2 ^ 11) with 2048. split; [reflexivity | lia].
Qed.
Theorem c64_usefulness s u : in_range s -> let s' := update s u in let mt := tr_meta u in
  let p := m_pcpn mt in let e (f : nat -> Z -> Z) i := f i (m_idx mt i mod 64) in
  let says := 4 <=? e (t_cnt s) p in
  (* entries the training does not name *)
  (forall i x, x <> m_idx mt i mod 64 ->
     t_use s' i x = if thinned (t_rst s) x then kept (t_rst s) (t_use s i x) else t_use s i x) /\
  (* the provider *)
  ((p < 4)%nat -> m_scu mt = false -> m_lu mt = false ->
     (m_pred mt <> m_alt mt -> moves 3 (Bool.eqb (m_pred mt) (tr_dir u)) (e (t_use s) p) (e (t_use s') p)) /\
     (m_pred mt = m_alt mt -> m_alt mt = tr_dir u -> says <> tr_dir u -> moves 3 false (e (t_use s) p) (e (t_use s') p)) /\
     (m_pred mt = m_alt mt -> ~ (m_alt mt = tr_dir u /\ says <> tr_dir u) ->
        e (t_use s') p = if thinned (t_rst s) (m_idx mt p mod 64) then kept (t_rst s) (e (t_use s) p) else e (t_use s) p)) /\
  (* a new entry *)
  (forall i, e (t_tag s') i <> e (t_tag s) i -> e (t_use s') i = 0).
Proof.
  intros R s' mt p e says. destruct (rst_eq s R) as [RN RR].
  assert (EI: forall i, m_idx mt i mod 64 = mi u i) by (intros i; unfold mi, IDXM, tm; now rewrite land63).
  assert (USE: forall i v, w_use s u i = Some v -> e (t_use s') i = v).
  { intros i v W. unfold e. rewrite EI. unfold s', update. cbn [t_use]. unfold use_after. rewrite W. cbn [apply].
    cbn [andb]. destruct (Z.eqb_spec (mi u i) (rst_row s)) as [E|E].
    - rewrite andb_false_r. apply zupd_eq.
    - destruct (_ && _); [rewrite zupd_ne by exact E|]; apply zupd_eq. }
  assert (NOT: forall i x, x <> mi u i \/ w_use s u i = None -> t_use s' i x = if thinned (t_rst s) x then kept (t_rst s) (t_use s i x) else t_use s i x).
  { intros i x N. unfold s', update. cbn [t_use]. unfold use_after, thinned. rewrite RN, RR.
    assert (A: apply (t_use s i) (mi u i) (w_use s u i) x = t_use s i x).
    { unfold apply. destruct (w_use s u i); [|reflexivity]. destruct N as [N|N]; [now apply zupd_ne | discriminate]. }
    destruct (t_rst s mod 2048 =? 0); cbn [andb]; [|exact A].
    destruct (Z.eqb_spec x ((t_rst s / 2048) mod 64)) as [E|E].
    - assert (CF: (match w_use s u i with Some _ => true | None => false end) && (mi u i =? (t_rst s / 2048) mod 64) = false).
      { destruct N as [N|N]; [|now rewrite N]. destruct (w_use s u i); [|reflexivity]. cbn [andb]. apply Z.eqb_neq. congruence. }
      rewrite CF. cbn [negb]. rewrite <- E, zupd_eq. apply thin_kept, (ir_use _ R).
    - destruct (negb _); [rewrite zupd_ne by exact E|]; exact A. }
  split; [intros i x N; apply NOT; left; now rewrite <- EI|]. split.
  - intros L S1 L1. assert (P: prov u = true) by (unfold prov, TN; now apply Nat.ltb_lt).
    assert (W: w_use s u p = prov_use s u).
    { unfold w_use. rewrite P. change (tp u) with p. rewrite Nat.eqb_refl. cbn [andb]. destruct (allocs u); [|reflexivity].
      destruct (victim s u) as [v|] eqn:V.
      - pose proof (victim_not_prov s u v V P) as N. replace (p =? v)%nat with false; [reflexivity|]. symmetry. apply Nat.eqb_neq. change (tp u) with p in N. congruence.
      - unfold start. change (tp u) with p. replace (p =? TN)%nat with false by (symmetry; apply Nat.eqb_neq; unfold TN; lia).
        now replace (S p <=? p)%nat with false by (symmetry; apply Nat.leb_gt; lia). }
    assert (PU: prov_used u = true) by (unfold prov_used; change (tm u) with mt; now rewrite S1, L1).
    assert (UU: u_use s u (tp u) = e (t_use s) p) by (unfold u_use, e; now rewrite EI).
    assert (RW: raw s u = says) by (unfold raw, u_cnt, says, e; change (tp u) with p; now rewrite EI).
    assert (RG := ir_use _ R p (m_idx mt p mod 64)). fold (e (t_use s) p) in RG.
    unfold prov_use, alt_used in W. rewrite PU, UU, RW in W. cbn [negb andb] in W. change (tm u) with mt in W. change (tdir u) with (tr_dir u) in W.
    split; [|split].
    + intros N. replace (Bool.eqb (m_pred mt) (m_alt mt)) with false in W by (destruct (m_pred mt), (m_alt mt); congruence || reflexivity).
      cbn [negb] in W. rewrite (USE _ _ W). destruct (Bool.eqb (m_pred mt) (tr_dir u)); [now apply sinc_moves | now apply sdec_moves].
    + intros E1 E2 N. rewrite E1, E2 in W. rewrite !Bool.eqb_reflx in W. cbn [negb] in W.
      replace (xorb says (tr_dir u)) with true in W by (destruct says, (tr_dir u); congruence || reflexivity). cbn [andb] in W.
      rewrite (USE _ _ W). now apply sdec_moves.
    + intros E1 N. rewrite E1, Bool.eqb_reflx in W. cbn [negb] in W.
      assert (F: xorb says (tr_dir u) && Bool.eqb (m_alt mt) (tr_dir u) = false).
      { destruct says, (m_alt mt), (tr_dir u); try reflexivity; exfalso; apply N; split; congruence || discriminate. }
      rewrite F in W. unfold e. apply NOT. now right.
  - intros i N. assert (TAG: e (t_tag s') i = match w_tag s u i with Some v => v | None => e (t_tag s) i end).
    { unfold e. rewrite EI. unfold s', update. cbn [t_tag]. unfold apply. destruct (w_tag s u i); [apply zupd_eq|reflexivity]. }
    rewrite TAG in N. apply USE. unfold w_tag, w_use in *. destruct (allocs u); [|congruence]. destruct (victim s u) as [v|]; [|congruence].
    destruct (i =? v)%nat; [reflexivity | congruence].
Qed.
(** The upper usefulness bit is not cleared within 2^23 trainings of the reset:
    the bit that is thinned alternates with bit 23 of the training counter, not
    with each pass over the 64 rows.  A useful entry that is never touched again
    blocks its place all that time. *)
Definition trained_by (us : list train) (s : tg) : tg := fold_left update us s.
Theorem c64_stale_useful_refuted us : forall s i x, in_range s ->
  (forall u, In u us -> forall k, rng 255 (m_tag (tr_meta u) k)) ->
  (forall u, In u us -> m_idx (tr_meta u) i mod 64 <> x) ->
  t_rst s + Z.of_nat (length us) <= 2 ^ 23 -> 2 <= t_use s i x -> 2 <= t_use (trained_by us s) i x.
Proof.
  induction us as [|u us IH]; intros s i x R T N B H; [exact H|]. unfold trained_by. cbn [fold_left]. cbn [length] in B.
  assert (RS := ir_rst _ R). change (2 ^ 23) with 8388608 in *. change (2 ^ 32) with 4294967296 in *.
  assert (E: t_rst (update s u) = t_rst s + 1) by (unfold update; cbn [t_rst]; apply Z.mod_small; change (2 ^ 32) with 4294967296; lia).
  apply IH.
  - apply update_range; [exact R | apply T; now left].
  - intros v I. apply T. now right.
  - intros v I. apply N. now right.
  - rewrite E. lia.
  - destruct (c64_usefulness s u R) as (A & _). rewrite A by (apply not_eq_sym, N; now left).
    destruct (thinned (t_rst s) x); [|exact H]. unfold kept. change (2 ^ 23) with 8388608.
    replace (t_rst s / 8388608) with 0 by lia. cbn [Z.odd]. assert (U := ir_use _ R i x). unfold rng in U. lia.
Qed.

(** *** As shipped *)
Theorem c64_core_loop_dead_refuted h s : treach h s ->
  (forall u, In u (trainings h) -> exists m, tr_meta u = shipped m) ->
  forall r, m_lu (predict s r) = true \/ m_lh (predict s r) = true -> m_lidx (predict s r) = 0 /\ m_ltag (predict s r) = 0.
Proof.
  intros R H. apply (c64_loop_shipped_refuted h s R). intros u I. destruct (H u I) as [m ->]. split; reflexivity.
Qed.

(** *** Examples *)
Definition c64_tm (pred alt : bool) : meta := Meta pred alt 1 4 (fun _ => 5) (fun _ => 9) false false 0 (fun _ => 0) false false false 0 0.
Definition c64_with (use cnt : Z) : tg :=
  Tg (t_lfsr tg0) 1 7 (t_base tg0) (t_tag tg0) (fun _ _ => cnt) (fun _ _ => use) (t_sc tg0) (t_scl tg0) 18 (t_loop tg0).
Example c64_choice_ex :
  let tr p a d := Train 40 d (c64_tm p a) in
  (t_ua (update (c64_with 0 3) (tr true true true)), t_sc (update (c64_with 0 3) (tr true true true)) (sc_idx 40),
   t_ua (update (c64_with 0 3) (tr true true false)), t_use (update (c64_with 1 3) (tr false true false)) 1%nat 5,
   t_use (update (c64_with 1 3) (tr false true true)) 1%nat 5, t_use (update (c64_with 1 3) (tr true true true)) 1%nat 5)
  = (6, 0, 8, 2, 0, 0).
Proof. vm_compute. reflexivity. Qed.
Example c64_stale_ex : t_use (trained_by (repeat (Train 40 true (c64_tm true true)) 3) (c64_with 3 7)) 1%nat 6 = 3.
Proof. vm_compute. reflexivity. Qed.

Print Assumptions c64_weak_choice.
Print Assumptions c64_loop_used.
Print Assumptions c64_choice_trained.
Print Assumptions c64_usefulness.
Print Assumptions c64_stale_useful_refuted.
Print Assumptions c64_core_loop_dead_refuted.
