From Verif Require Import Base BaseLemmas CsrModel CsrSpec.
From Coq Require Import Btauto.

Lemma on_bit x k : 0 <= k -> on x (2 ^ k) = Z.testbit x k.
Proof.
  intros K. unfold on, nz. destruct (Z.testbit x k) eqn:T.
  - destruct (Z.eqb_spec (Z.land x (2 ^ k)) 0) as [E|]; [|reflexivity]. exfalso.
    assert (Z.testbit (Z.land x (2 ^ k)) k = true) by (rewrite Z.land_spec, T, Z.pow2_bits_true by lia; reflexivity). rewrite E, Z.testbit_0_l in H. discriminate.
  - destruct (Z.eqb_spec (Z.land x (2 ^ k)) 0) as [E|E]; [reflexivity|]. exfalso. apply E. apply Z.bits_inj'. intros n N. rewrite Z.land_spec, Z.testbit_0_l.
    rewrite Z.pow2_bits_eqb by lia. destruct (Z.eqb_spec k n) as [<-|]; [now rewrite T|apply andb_false_r].
Qed.
Ltac on_bits := repeat match goal with
  | |- context [on ?x MSTATUS_MIE] => change (on x MSTATUS_MIE) with (on x (2 ^ 3)); rewrite (on_bit x 3) by lia
  | |- context [on ?x MSTATUS_MPIE] => change (on x MSTATUS_MPIE) with (on x (2 ^ 7)); rewrite (on_bit x 7) by lia
  | |- context [on ?x MSTATUS_SIE] => change (on x MSTATUS_SIE) with (on x (2 ^ 1)); rewrite (on_bit x 1) by lia
  | |- context [on ?x MSTATUS_SPIE] => change (on x MSTATUS_SPIE) with (on x (2 ^ 5)); rewrite (on_bit x 5) by lia
  | |- context [on ?x MIP_MSIP] => change (on x MIP_MSIP) with (on x (2 ^ 3)); rewrite (on_bit x 3) by lia
  | |- context [on ?x MIP_MTIP] => change (on x MIP_MTIP) with (on x (2 ^ 7)); rewrite (on_bit x 7) by lia
  | |- context [on ?x MIP_MEIP] => change (on x MIP_MEIP) with (on x (2 ^ 11)); rewrite (on_bit x 11) by lia
  | |- context [on ?x MIP_SSIP] => change (on x MIP_SSIP) with (on x (2 ^ 1)); rewrite (on_bit x 1) by lia
  | |- context [on ?x MIP_STIP] => change (on x MIP_STIP) with (on x (2 ^ 5)); rewrite (on_bit x 5) by lia
  | |- context [on ?x MIP_SEIP] => change (on x MIP_SEIP) with (on x (2 ^ 9)); rewrite (on_bit x 9) by lia
  end.
Lemma dlg_bit d k : 0 <= k -> dlg d k = Z.testbit d k.
Proof.
  intros K. unfold dlg. change (nz (Z.land (Z.shiftr d k) 1)) with (on (Z.shiftr d k) (2 ^ 0)). rewrite on_bit by lia. rewrite Z.shiftr_spec by lia. f_equal.
Qed.
Lemma put_bit b m x k : Z.testbit (put b m x) k = if Z.testbit m k then b else Z.testbit x k.
Proof. unfold put. destruct b; rewrite ?Z.lor_spec, ?Z.ldiff_spec; destruct (Z.testbit m k), (Z.testbit x k); reflexivity. Qed.
(** Masks as bit lists. *)
Lemma const_bits c l : 0 <= c < 2 ^ 32 -> (forall k, In k l -> 0 <= k < 32) ->
  forallb (fun n => Bool.eqb (Z.testbit c (Z.of_nat n)) (mem (Z.of_nat n) l)) (seq 0 32) = true ->
  forall k, 0 <= k -> Z.testbit c k = mem k l.
Proof.
  intros C L F k K. destruct (Z.ltb_spec k 32) as [H|H].
  - rewrite forallb_forall in F. specialize (F (Z.to_nat k)). rewrite Z2Nat.id in F by lia. apply Bool.eqb_prop, F. apply in_seq. lia.
  - rewrite (is_w_testbit 32 c k) by (unfold is_w; lia). symmetry. unfold mem. destruct (existsb (Z.eqb k) l) eqn:E; [|reflexivity].
    apply existsb_exists in E. destruct E as (x & X & Y). apply Z.eqb_eq in Y. subst x. specialize (L k X). lia.
Qed.
Ltac cb l := intros k K; apply (const_bits _ l); [split; [discriminate|reflexivity]| |reflexivity|exact K];
  let x := fresh in intros x; let H := fresh in intros H; cbn in H; repeat match goal with H : _ \/ _ |- _ => destruct H end; try contradiction; subst; lia.
Lemma ss_bits : forall k, 0 <= k -> Z.testbit SSTATUS_MASK k = mem k SSTATUS_BITS. Proof. cb SSTATUS_BITS. Qed.
Lemma ms_bits : forall k, 0 <= k -> Z.testbit MSTATUS_MASK k = mem k MSTATUS_BITS. Proof. cb MSTATUS_BITS. Qed.
Lemma mi_bits : forall k, 0 <= k -> Z.testbit MIE_MASK k = mem k MINT_BITS. Proof. cb MINT_BITS. Qed.
Lemma si_bits : forall k, 0 <= k -> Z.testbit SIE_MASK k = mem k SINT_BITS. Proof. cb SINT_BITS. Qed.
Lemma mpp_bits : forall k, 0 <= k -> Z.testbit MSTATUS_MPP k = mem k [11; 12]. Proof. cb [11; 12]. Qed.
Lemma mie_bits : forall k, 0 <= k -> Z.testbit MSTATUS_MIE k = mem k [3]. Proof. cb [3]. Qed.
Lemma mpie_bits : forall k, 0 <= k -> Z.testbit MSTATUS_MPIE k = mem k [7]. Proof. cb [7]. Qed.
Lemma sie_bits : forall k, 0 <= k -> Z.testbit MSTATUS_SIE k = mem k [1]. Proof. cb [1]. Qed.
Lemma spie_bits : forall k, 0 <= k -> Z.testbit MSTATUS_SPIE k = mem k [5]. Proof. cb [5]. Qed.
Lemma spp_bits : forall k, 0 <= k -> Z.testbit MSTATUS_SPP k = mem k [8]. Proof. cb [8]. Qed.
Lemma mtip_bits : forall k, 0 <= k -> Z.testbit MIP_MTIP k = mem k [7]. Proof. cb [7]. Qed.
Lemma meip_bits : forall k, 0 <= k -> Z.testbit MIP_MEIP k = mem k [11]. Proof. cb [11]. Qed.
Ltac mbits K := repeat first [rewrite put_bit|rewrite Z.lor_spec|rewrite Z.ldiff_spec|rewrite Z.land_spec]; rewrite ?put_bit, ?Z.lor_spec, ?Z.ldiff_spec, ?Z.land_spec, ?(ss_bits _ K), ?(ms_bits _ K), ?(mi_bits _ K), ?(si_bits _ K), ?(mpp_bits _ K),
  ?(mie_bits _ K), ?(mpie_bits _ K), ?(sie_bits _ K), ?(spie_bits _ K), ?(spp_bits _ K), ?(mtip_bits _ K), ?(meip_bits _ K).

Lemma cset_eq r c v : cset r c v c = v.
Proof. unfold cset. destruct c; reflexivity. Qed.
Lemma cset_ne r c d v : d <> c -> cset r c v d = r d.
Proof. unfold cset. intros H. destruct (cname_beq d c) eqn:E; [|reflexivity]. exfalso. apply H. destruct d, c; (reflexivity || discriminate). Qed.

(** *** C17 *)
Lemma view_land bs c m : (forall k, 0 <= k -> Z.testbit c k = mem k bs) -> is_view bs (Z.land m c) m.
Proof. intros H k K. rewrite Z.land_spec, (H k K). apply andb_comm. Qed.
(** A view modified inside its bits and written through. *)
Lemma view_back bs c s m : (forall k, 0 <= k -> Z.testbit c k = mem k bs) -> (forall k, 0 <= k -> mem k bs = false -> Z.testbit s k = false) ->
  is_view bs s (Z.lor (Z.ldiff m c) (Z.land s c)).
Proof. intros H S k K. rewrite Z.lor_spec, Z.ldiff_spec, Z.land_spec, (H k K). specialize (S k K). destruct (mem k bs); cbn; [|now rewrite S]. now rewrite andb_true_r, andb_false_r. Qed.
Lemma mem_not k l x : mem k l = false -> In x l -> (k =? x) = false.
Proof. intros H I. destruct (k =? x) eqn:E; [|reflexivity]. exfalso. assert (mem k l = true); [|congruence]. apply existsb_exists. eauto. Qed.

Lemma exception_views st i r1 pv f : views (rf st) -> exception st i = (r1, pv, f) -> views r1.
Proof.
  intros (Vs & Ve & Vp) E. unfold exception in E.
  destruct (m_trap st i).
  { injection E as <- _ _. split; [|split].
    - cbn -[Z.land Z.ldiff Z.lor put SSTATUS_MASK]. apply view_land, ss_bits.
    - exact Ve.
    - exact Vp. }
  destruct (s_trap st i).
  { injection E as <- _ _. split; [|split]; [|exact Ve|exact Vp].
    cbn -[Z.land Z.ldiff Z.lor put SSTATUS_MASK SSTATUS_BITS]. apply view_back; [apply ss_bits|]. intros k K N.
    mbits K. unfold mem, existsb. rewrite !(mem_not k SSTATUS_BITS) by (exact N || (cbn; tauto)). cbn [orb].
    rewrite (Vs k K), N. reflexivity. }
  destruct (x_mret i).
  { injection E as <- _ _. split; [|split]; [|exact Ve|exact Vp]. cbn -[Z.land Z.ldiff Z.lor put SSTATUS_MASK]. apply view_land, ss_bits. }
  destruct (x_sret i).
  { injection E as <- _ _. split; [|split]; [|exact Ve|exact Vp].
    cbn -[Z.land Z.ldiff Z.lor put SSTATUS_MASK SSTATUS_BITS]. apply view_back; [apply ss_bits|]. intros k K N.
    mbits K. unfold mem, existsb. rewrite !(mem_not k SSTATUS_BITS) by (exact N || (cbn; tauto)). cbn [orb].
    rewrite (Vs k K), N. reflexivity. }
  injection E as <- _ _. repeat split; assumption.
Qed.
Lemma write_views c w r r1 : views r1 -> views (apply_write c w r r1).
Proof.
  intros (Vs & Ve & Vp). destruct c; cbn -[Z.land Z.ldiff Z.lor SSTATUS_MASK MSTATUS_MASK MIE_MASK SIE_MASK]; unfold views;
  (split; [|split]); try assumption; cbn -[Z.land Z.ldiff Z.lor SSTATUS_MASK MSTATUS_MASK MIE_MASK SIE_MASK]; try assumption; first [apply view_land, ss_bits|apply view_land, si_bits].
Qed.
Lemma inject_views o m r : views r -> views (inject o m r).
Proof.
  intros (Vs & Ve & Vp). unfold inject. destruct o as [b|]; [|repeat split; assumption].
  split; [exact Vs|split; [exact Ve|]]. cbn -[Z.land put SIE_MASK]. apply view_land, si_bits.
Qed.
Lemma step_views st i st' : views (rf st) -> csr_step st i = Some st' -> views (rf st').
Proof.
  intros V E. unfold csr_step in E. destruct (exception st i) as [[r1 pv] f] eqn:X. pose proof (exception_views _ _ _ _ _ V X) as V1.
  destruct (x_commit i && p_we st).
  - destruct (cvt (p_idx st)) as [c|]; [|discriminate]. injection E as <-. cbn [rf]. now apply inject_views, inject_views, write_views.
  - injection E as <-. cbn [rf]. now apply inject_views, inject_views.
Qed.
Lemma rmw_bits f3 w old k : In f3 [1; 2; 3; 5; 6; 7] -> Z.testbit (rmw (Z.land f3 3) w old) k = isa_new f3 w old k.
Proof.
  intros F. cbn in F. repeat match goal with H : _ \/ _ |- _ => destruct H end; try contradiction; subst f3; unfold rmw, isa_new; cbn -[Z.testbit];
  rewrite ?Z.lor_spec, ?Z.ldiff_spec; reflexivity.
Qed.
Lemma isa_new_ext f3 w o1 o2 k : Z.testbit o1 k = Z.testbit o2 k -> isa_new f3 w o1 k = isa_new f3 w o2 k.
Proof. unfold isa_new. now intros ->. Qed.
Lemma apply_written c w r d k : views r -> 0 <= k -> Z.testbit (apply_write c w r r d) k = written c r (Z.testbit w) d k.
Proof.
  intros _ K. unfold written, base_bit. destruct c; destruct d; cbn -[Z.land Z.ldiff Z.lor SSTATUS_MASK MSTATUS_MASK MIE_MASK SIE_MASK Z.testbit SSTATUS_BITS MSTATUS_BITS MINT_BITS SINT_BITS mem];
  try reflexivity; mbits K; repeat match goal with |- context [mem k ?l] => destruct (mem k l) end; cbn; rewrite ?andb_true_r, ?andb_false_r, ?orb_false_r; reflexivity.
Qed.
