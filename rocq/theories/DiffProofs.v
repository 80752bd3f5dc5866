(** Proofs about the lock-step check. *)
From Verif Require Import Base BaseLemmas ExecModel CsrModel RefModel DiffModel DiffSpec.
Ltac Zify.zify_post_hook ::= Z.div_mod_to_equations.
#[local] Opaque Z.pow Z.land Z.lor Z.lxor Z.shiftl Z.shiftr Z.ldiff.

Lemma irq_csr_spec i : irq_csr i = true <-> irq_access i.
Proof.
  unfold irq_csr, irq_access. rewrite Bool.andb_true_iff, Bool.orb_true_iff, !Z.eqb_eq.
  rewrite !Z.shiftr_div_pow2 by lia. change 0x7f with (Z.ones 7). rewrite Z.land_ones by lia. reflexivity.
Qed.
Lemma bit_2176 b : 0 <= b -> Z.testbit (Z.lor MIP_MEIP MIP_MTIP) b = (b =? 7) || (b =? 11).
Proof.
  intros B. change MIP_MEIP with (2 ^ 11). change MIP_MTIP with (2 ^ 7). rewrite Z.lor_spec, !Z.pow2_bits_eqb by lia.
  rewrite (Z.eqb_sym 11), (Z.eqb_sym 7). now destruct (b =? 7), (b =? 11).
Qed.
Lemma mask_eq x y : Z.ldiff x (Z.lor MIP_MEIP MIP_MTIP) = Z.ldiff y (Z.lor MIP_MEIP MIP_MTIP) <->
  (forall b, b <> 7 -> b <> 11 -> Z.testbit x b = Z.testbit y b).
Proof.
  split.
  - intros H b N1 N2. destruct (Z_lt_dec b 0); [now rewrite !Z.testbit_neg_r by lia|].
    apply (f_equal (fun z => Z.testbit z b)) in H. rewrite !Z.ldiff_spec, bit_2176 in H by lia.
    replace (b =? 7) with false in H by lia. replace (b =? 11) with false in H by lia. cbn [orb negb] in H. now rewrite !Bool.andb_true_r in H.
  - intros H. apply Z.bits_inj'. intros b B. rewrite !Z.ldiff_spec, bit_2176 by lia.
    destruct (Z.eqb_spec b 7); [now rewrite !Bool.andb_false_r|]. destruct (Z.eqb_spec b 11); [now rewrite !Bool.andb_false_r|].
    rewrite (H b) by assumption. reflexivity.
Qed.
Lemma hide_bit o m n v b : m = 2 ^ n -> 0 <= n -> Z.testbit (hide o m v) b = Z.testbit v b && negb ((b =? n) && driven o).
Proof.
  intros -> N. destruct o; cbn [hide driven]; [|now rewrite Bool.andb_false_r, Bool.andb_true_r].
  rewrite Bool.andb_true_r. destruct (Z_lt_dec b 0); [now rewrite !Z.testbit_neg_r by lia|].
  rewrite Z.ldiff_spec, Z.pow2_bits_eqb by lia. now rewrite (Z.eqb_sym n).
Qed.
(** Without a resynchronisation the reported mip is the core's without the driven lines. *)
Lemma report_mip k b : ~ resyncs k ->
  Z.testbit (report_csr k mip) b = Z.testbit (k_csr k mip) b && negb ((b =? 7) && driven (k_tim k)) && negb ((b =? 11) && driven (k_ext k)).
Proof.
  intros N. unfold report_csr. cbv zeta. unfold cset at 1. cbn [cname_beq]. unfold cset. rewrite cname_beq_refl || cbn [cname_beq].
  destruct (irq_csr (k_inst k)) eqn:E.
  - assert (A := proj1 (irq_csr_spec _) E). destruct (k_ext k) eqn:X; [exfalso; apply N; do 5 right; split; [exact A|left; now rewrite X]|].
    destruct (k_tim k) eqn:Y; [exfalso; apply N; do 5 right; split; [exact A|right; now rewrite Y]|].
    cbn [show driven]. now rewrite !Bool.andb_false_r, !Bool.andb_true_r.
  - rewrite (hide_bit _ _ 7) by (reflexivity || lia). rewrite (hide_bit _ _ 11) by (reflexivity || lia).
    rewrite <- !Bool.andb_assoc. f_equal. apply Bool.andb_comm.
Qed.
Lemma cset_eq r c v : cset r c v c = v.
Proof. unfold cset. now rewrite (internal_cname_dec_lb c c eq_refl). Qed.
Lemma cset_ne r c v x : x <> c -> cset r c v x = r x.
Proof. intros N. unfold cset. destruct (cname_beq x c) eqn:E; [|reflexivity]. now apply internal_cname_dec_bl in E. Qed.
Lemma report_other k c : c <> mip -> c <> sip -> report_csr k c = k_csr k c.
Proof. intros. unfold report_csr. cbv zeta. now rewrite !cset_ne. Qed.
Lemma report_sip k : report_csr k sip = Z.land (report_csr k mip) 0x333.
Proof. unfold report_csr. cbv zeta. rewrite cset_eq. rewrite (cset_ne _ sip _ mip) by discriminate. now rewrite cset_eq. Qed.
Lemma masked_other c x : x <> mip -> x <> sip -> masked c x = c x.
Proof. intros. unfold masked. cbv zeta. now rewrite !cset_ne. Qed.
Lemma masked_mip c : masked c mip = Z.ldiff (c mip) (Z.lor MIP_MEIP MIP_MTIP).
Proof. unfold masked. cbv zeta. rewrite cset_ne by discriminate. apply cset_eq. Qed.
Lemma masked_sip c : masked c sip = Z.land (Z.ldiff (c mip) (Z.lor MIP_MEIP MIP_MTIP)) 0x333.
Proof. unfold masked. cbv zeta. apply cset_eq. Qed.
Lemma all_csrs c : In c CSRS.
Proof. destruct c; cbn; tauto. Qed.
Lemma csrs_all (f : cname -> bool) : forallb f CSRS = true <-> forall c, f c = true.
Proof. rewrite forallb_forall. split; [intros H c; apply H, all_csrs|intros H c _; apply H]. Qed.
Lemma gprs_all (f : Z -> bool) : forallb (fun i => f (Z.of_nat i)) (seq 0 32) = true <-> forall i, 0 <= i < 32 -> f i = true.
Proof.
  rewrite forallb_forall. split.
  - intros H i B. replace i with (Z.of_nat (Z.to_nat i)) by lia. apply H, in_seq. lia.
  - intros H i B. apply in_seq in B. apply H. lia.
Qed.
Lemma cname_3 c : c = mip \/ c = sip \/ (c <> mip /\ c <> sip).
Proof. destruct c; (now left) || (now right; left) || (right; right; split; discriminate). Qed.

(** The store. *)
Lemma off4 x : Z.land x 3 = x mod 4.
Proof. change 3 with (Z.ones 2). now rewrite Z.land_ones by lia. Qed.
Lemma store_word_eq f3 pa v : 0 <= v < 2 ^ 32 ->
  shl (if f3 =? 0 then Z.land v 0xFF else if f3 =? 1 then Z.land v 0xFFFF else v) (Z.land pa 3 * 8) = in_word f3 pa v.
Proof.
  intros B. unfold in_word, shl, w32, width. rewrite off4. rewrite Z.shiftl_mul_pow2 by lia. rewrite (Z.mul_comm 8).
  do 2 f_equal. destruct (f3 =? 0); [change 0xFF with (Z.ones 8); apply Z.land_ones; lia|].
  destruct (f3 =? 1); [change 0xFFFF with (Z.ones 16); apply Z.land_ones; lia|]. symmetry. apply Z.mod_small, B.
Qed.

Lemma report_store_cases d k : ~ resyncs k -> 0 <= k_qdata k < 2 ^ 32 ->
  (wrote k /\ report_store d k = (true, k_qpa k, in_word (k_qf3 k) (k_qpa k) (k_qdata k), false)) \/
  (~ wrote k /\ report_store d k = (false, d_sa d, d_sd d, false)).
Proof.
  intros N B. unfold report_store, wrote. destruct (k_store k) eqn:S; [|right; split; [intros (? & _); discriminate|reflexivity]].
  destruct (k_pfs k) eqn:F; [right; split; [intros (_ & ? & _); discriminate|reflexivity]|]. cbn [andb negb].
  destruct (k_qsup k) eqn:Q; [right; split; [intros (_ & _ & ?); discriminate|reflexivity]|].
  destruct (k_qpav k && k_qdv k) eqn:V; cbn [negb].
  - left. split; [easy|]. now rewrite store_word_eq.
  - exfalso. apply N. do 4 right. left. split; [repeat split; assumption|]. now apply Bool.andb_false_iff in V.
Qed.

Lemma sync_iff d k : snd (prepare d k) = true <-> resyncs k.
Proof.
  unfold prepare. destruct (report_store d k) as [[[st sa] sd] y] eqn:E. cbn [snd].
  assert (Y : y = true <-> wrote k /\ (k_qpav k = false \/ k_qdv k = false)).
  { revert E. unfold report_store, wrote. destruct (k_store k) eqn:S; [|intros [= <- <- <- <-]; split; [discriminate|intros ((? & _) & _); discriminate]].
    destruct (k_pfs k) eqn:F; [intros [= <- <- <- <-]; split; [discriminate|intros ((_ & ? & _) & _); discriminate]|]. cbn [andb negb].
    destruct (k_qsup k) eqn:Q; [intros [= <- <- <- <-]; split; [discriminate|intros ((_ & _ & ?) & _); discriminate]|].
    destruct (k_qpav k) eqn:A, (k_qdv k) eqn:V; cbn [andb negb]; intros [= <- <- <- <-]; split; try discriminate; try tauto; intros (_ & [C|C]); discriminate. }
  rewrite !Bool.orb_true_iff, !Bool.andb_true_iff, !Bool.negb_true_iff, Bool.orb_true_iff, irq_csr_spec, Y.
  unfold resyncs. change (@is_some bool) with driven. tauto.
Qed.

Definition reported (d : dcpu) (k : commit) : dcpu := fst (prepare d k).
Lemma check_iff s d k : ~ resyncs k -> 0 <= k_qdata k < 2 ^ 32 -> check s (reported d k) = true <-> same s k.
Proof.
  intros N B.
  assert (RM := fun b => report_mip k b N). assert (RS := report_sip k). assert (RO := report_other k).
  unfold reported, prepare. destruct (report_store d k) as [[[st sa] sd] y] eqn:E. cbn [fst].
  unfold check. cbv zeta. cbn [d_gpr d_csr d_pc d_st d_sa d_sd d_sb d_inst d_pfi d_pfl d_pfs].
  rewrite !Bool.andb_true_iff, !Bool.orb_true_iff, !Bool.eqb_true_iff, !Z.eqb_eq, Bool.negb_true_iff.
  rewrite (gprs_all (fun i => r_gpr s i =? k_gpr k i)), csrs_all.
  assert (ST : (r_store s = false \/ (st = r_store s /\ sd = r_sdata s) /\ sa = r_saddr s) <->
    (r_store s = true -> wrote k /\ r_saddr s = k_qpa k /\ r_sdata s = in_word (k_qf3 k) (k_qpa k) (k_qdata k))).
  { destruct (report_store_cases d k N B) as [(W & X)|(W & X)]; rewrite X in E; injection E as <- <- <- <-; destruct (r_store s); split; intuition congruence. }
  rewrite !Bool.andb_true_iff, !Bool.eqb_true_iff, !Z.eqb_eq.
  assert (PC : (if k_jump k || k_flush k then k_diag k else w32 (k_pc k + 4)) = goes_to k) by reflexivity. rewrite PC.
  assert (CS : (forall c, ((if irq_csr (r_inst s) then r_csr s else masked (r_csr s)) c =? (if irq_csr (r_inst s) then report_csr k else masked (report_csr k)) c) = true) <->
    (forall c, c <> mip -> c <> sip -> r_csr s c = k_csr k c) /\
    (forall b, ~ irq_access (r_inst s) -> b <> 7 -> b <> 11 -> Z.testbit (r_csr s mip) b = Z.testbit (k_csr k mip) b) /\
    (irq_access (r_inst s) ->
      (forall b, Z.testbit (r_csr s mip) b = Z.testbit (k_csr k mip) b && negb ((b =? 7) && driven (k_tim k)) && negb ((b =? 11) && driven (k_ext k))) /\
      r_csr s sip = Z.land (r_csr s mip) 0x333)).
  { destruct (irq_csr (r_inst s)) eqn:I.
    - assert (A := proj1 (irq_csr_spec _) I). split.
      + intros H. assert (H' : forall c, r_csr s c = report_csr k c) by (intros c; apply Z.eqb_eq, H). split; [|split].
        * intros c N1 N2. rewrite H'. now apply RO.
        * intros b C. contradiction.
        * intros _. split; [intros b; rewrite H'; apply RM|]. now rewrite !H'.
      + intros (H1 & _ & H3) c. destruct (H3 A) as (H4 & H5). apply Z.eqb_eq.
        assert (M : r_csr s mip = report_csr k mip) by (apply Z.bits_inj'; intros b _; rewrite H4; symmetry; apply RM).
        destruct (cname_3 c) as [C|[C|(C1 & C2)]]; [now rewrite C|rewrite C, H5, RS; now rewrite M|]. rewrite RO by assumption. now apply H1.
    - assert (A : ~ irq_access (r_inst s)) by (intros C; apply irq_csr_spec in C; congruence).
      assert (MM : (forall b, b <> 7 -> b <> 11 -> Z.testbit (r_csr s mip) b = Z.testbit (report_csr k mip) b) <->
                   (forall b, b <> 7 -> b <> 11 -> Z.testbit (r_csr s mip) b = Z.testbit (k_csr k mip) b)).
      { split; intros H b N1 N2; specialize (H b N1 N2); rewrite RM in *; replace (b =? 7) with false in * by lia; replace (b =? 11) with false in * by lia;
        cbn [andb negb] in *; now rewrite !Bool.andb_true_r in *. }
      split.
      + intros H. split; [|split; [|intros C; contradiction]].
        * intros c N1 N2. specialize (H c). apply Z.eqb_eq in H. rewrite !masked_other in H by assumption. now rewrite H, RO.
        * intros b _. apply (proj1 MM). apply mask_eq. specialize (H mip). apply Z.eqb_eq in H. now rewrite !masked_mip in H.
      + intros (H1 & H2 & _) c. apply Z.eqb_eq. assert (H2' := proj2 (mask_eq _ _) (proj2 MM (fun b => H2 b A))).
        destruct (cname_3 c) as [C|[C|(C1 & C2)]]; [rewrite C, !masked_mip; exact H2'|rewrite C, !masked_sip; now rewrite H2'|].
        rewrite !masked_other by assumption. rewrite RO by assumption. now apply H1. }
  rewrite CS, ST. split.
  - intros (((((((P & I) & F1) & F2) & F3) & G) & C1 & C2 & C3) & S). constructor; try assumption.
    + intros F. destruct I as [I|I]; [congruence|exact I].
    + easy.
    + intros i L. apply Z.eqb_eq. now apply G.
  - intros [P I (F1 & F2 & F3) G C1 C2 C3 S]. repeat apply conj; try assumption.
    + destruct (f_pfi (r_flags s)); [now left|right; now apply I].
    + intros i L. apply Z.eqb_eq. now apply G.
Qed.

(** Runs. *)
Lemma told_env sf d k : lock_env sf (reported d k) k = told sf k.
Proof. unfold lock_env, told, reported, prepare. destruct (report_store d k) as [[[? ?] ?] ?]. reflexivity. Qed.
Lemma lockstep_quiet sf d s k : ~ resyncs k -> 0 <= k_qdata k < 2 ^ 32 -> forall d' s',
  lockstep sf d s k = Go d' s' <-> d' = reported d k /\ exec (told sf k) s = Done s' /\ same s' k.
Proof.
  intros N B d' s'. unfold lockstep. assert (T := told_env sf d k). assert (C := fun z => check_iff z d k N B).
  assert (SY : snd (prepare d k) = false) by (destruct (snd (prepare d k)) eqn:E; [apply sync_iff in E; contradiction|reflexivity]).
  unfold reported in *. destruct (prepare d k) as [dd y]. cbn [fst snd] in *. subst y. rewrite T.
  destruct (exec (told sf k) s) as [z| |]; [|split; [discriminate|intros (_ & ? & _); discriminate]..].
  destruct (check z dd) eqn:K.
  - split; [intros [= <- <-]; split; [easy|]; split; [easy|now apply C]|]. intros (-> & [= <-] & _). reflexivity.
  - split; [discriminate|]. intros (_ & [= <-] & X). apply C in X. congruence.
Qed.
Definition data_ok (l : list commit) : Prop := forall k, In k l -> 0 <= k_qdata k < 2 ^ 32.
Definition quiet (l : list commit) : Prop := forall k, In k l -> ~ resyncs k.
Lemma lockrun_quiet sf : forall l d s, quiet l -> data_ok l ->
  (exists d' s', lockrun sf d s l = Go d' s') <->
  (forall pre k post, l = pre ++ k :: post -> exists sm, refrun sf s (pre ++ [k]) = Done sm /\ same sm k).
Proof.
  induction l as [|k l IH]; intros d s Q W.
  - split; [|intros _; eexists; eexists; reflexivity]. intros _ pre k post E. destruct pre; discriminate.
  - assert (Q1 : ~ resyncs k) by (apply Q; now left). assert (W1 : 0 <= k_qdata k < 2 ^ 32) by (apply W; now left).
    assert (Q2 : quiet l) by (intros x X; apply Q; now right). assert (W2 : data_ok l) by (intros x X; apply W; now right).
    cbn [lockrun]. split.
    + intros (d' & s' & H). destruct (lockstep sf d s k) as [d1 s1| |] eqn:E; try discriminate.
      apply lockstep_quiet in E; [|assumption..]. destruct E as (-> & X & S).
      intros [|p pre] x post EQ; cbn [app] in EQ; injection EQ as <- ->.
      * exists s1. cbn [app refrun]. now rewrite X.
      * cbn [app refrun]. rewrite X. apply (proj1 (IH (reported d k) s1 Q2 W2)) with (post := post); [eauto|reflexivity].
    + intros H. destruct (H [] k l eq_refl) as (s1 & X & S). cbn [app refrun] in X. destruct (exec (told sf k) s) as [z| |] eqn:E; try discriminate. injection X as ->.
      assert (L : lockstep sf d s k = Go (reported d k) s1) by (apply lockstep_quiet; auto). rewrite L.
      apply (proj2 (IH (reported d k) s1 Q2 W2)). intros pre x post EQ. destruct (H (k :: pre) x post) as (sm & X & S'); [now rewrite EQ|].
      cbn [app refrun] in X. rewrite E in X. eauto.
Qed.
Lemma lockrun_last sf : forall l d s d' s', quiet l -> data_ok l -> lockrun sf d s l = Go d' s' -> refrun sf s l = Done s'.
Proof.
  induction l as [|k l IH]; intros d s d' s' Q W H; [now injection H as <- <-|].
  cbn [lockrun] in H. destruct (lockstep sf d s k) as [d1 s1| |] eqn:E; try discriminate.
  apply lockstep_quiet in E; [|apply Q; now left|apply W; now left]. destruct E as (-> & X & S). cbn [refrun]. rewrite X.
  eapply IH; [intros x I; apply Q; now right|intros x I; apply W; now right|exact H].
Qed.
Lemma lock_resv sf : forall l d s d' s', lockrun sf d s l = Go d' s' -> d_resv d' = d_resv d /\ d_raddr d' = d_raddr d /\ d_sb d' = d_sb d.
Proof.
  induction l as [|k l IH]; intros d s d' s' H; [now injection H as <- <-|].
  cbn [lockrun] in H. destruct (lockstep sf d s k) as [d1 s1| |] eqn:E; try discriminate.
  apply IH in H. destruct H as (-> & -> & ->). revert E. unfold lockstep, prepare. destruct (report_store d k) as [[[? ?] ?] ?].
  match goal with |- context [if ?c then _ else _] => destruct c end; [now intros [= <- <-]|].
  destruct (exec _ s) as [zz| |]; try discriminate. destruct (check zz _); [now intros [= <- <-]|discriminate].
Qed.
