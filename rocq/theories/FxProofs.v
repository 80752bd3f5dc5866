(** The composite meets the instruction cache's assumptions about its surroundings. *)
From Verif Require Import Base BaseLemmas MemSpec MemModel DcModel DcSpec DcLemmas DcInv DcReach DcLoad DcRound RtModel RtSpec RtProofs RtProps.
From Verif Require IcModel IcSpec IcInv IcReach FxIc.
From Verif Require Import FxSpec.
Ltac Zify.zify_post_hook ::= Z.div_mod_to_equations.

Lemma mcycle_hist x i r g x' : mcycle x i r g x' -> exists l, y_hist (m_y x') = y_hist (m_y x) ++ l.
Proof.
  intros C. destruct C as [ti o y1 n y2 ro wait rq g rt LO ST CL RS RQ E F]. cbn [m_y].
  destruct (hist_mono _ _ _ _ ST) as [l1 E1]. destruct (fast_hist _ _ _ F) as [l2 E2]. exists (l1 ++ l2). rewrite E2, E1. now rewrite app_assoc.
Qed.
Lemma source_mono m0 l h l' h' x d : source m0 l h x d -> source m0 (l ++ l') (h ++ h') x d.
Proof.
  intros [(z & I & E)|(z & j & I & L & W & O)].
  - left. exists z. split; auto. apply in_or_app; auto.
  - right. exists z, j. split; [apply in_or_app; auto|]. rewrite app_length. split; [lia|]. split; auto.
    rewrite firstn_app. replace (j - length h)%nat with 0%nat by lia. cbn [firstn]. now rewrite app_nil_r.
Qed.
Lemma env_mono strict (P Q : Z -> Z -> Prop) y c b : (forall x d, P x d -> Q x d) -> IcSpec.env_ok strict P y c b -> IcSpec.env_ok strict Q y c b.
Proof.
  intros H []. constructor; auto.
  - intros k l E. destruct (en_rsp _ _ E) as (a & f & A & B). exists a, f. split; auto.
  - intros d E. destruct (en_dc _ E) as (a & f & A & B). exists a, f. split; auto.
Qed.
Lemma ic_mono strict (P Q : Z -> Z -> Prop) y0 y : (forall x d, P x d -> Q x d) -> IcSpec.reach strict P y0 y -> IcSpec.reach strict Q y0 y.
Proof.
  intros H R. induction R as [|y c b o y' R IH S]; [constructor|]. eapply IcSpec.reachS; [exact IH|]. destruct S as [s' o1 o2 E C]. econstructor; eauto. eapply env_mono; eauto.
Qed.
Lemma no_icache_answer x i r g x' : mcycle x i r g x' -> t_owner (m_rt x) <> OIcache -> ro_ic r = None.
Proof.
  intros C N. destruct C as [ti o y1 n y2 ro wait rq g rt LO ST CL RS RQ E F]. unfold comb_response in RS.
  destruct (la_ld1 (to_pend o)) as [p|]; [|injection RS as <- <-; reflexivity].
  destruct (negb (owner_eqb (t_owner (m_rt x)) ONone) && _); [|injection RS as <- <-; reflexivity].
  destruct (t_owner (m_rt x)); try congruence; cbn [owner_eqb] in RS; destruct (lp_replay p); injection RS as <- <-; reflexivity.
Qed.

(** The invariant. *)
Record FJ (m0 : Z -> Z) (l : list fsys) (z : fsys) : Prop := mkFJ {
  fj_m : mreach m0 (f_m z);
  fj_j : IcInv.Jy true (fun _ _ => True) (f_i z);
  fj_k : FxIc.K (f_i z);
  fj_0 : match IcSpec.y_pb0 (f_i z) with
         | Some (x, f) => served (f_m z) = Some (OIcache, x) /\ IcSpec.y_pb1 (f_i z) = None /\
             exists zp i r g, mreach m0 (f_m zp) /\ mcycle (f_m zp) i r g (f_m z) /\ (f = true -> In zp l)
         | None => t_owner (m_rt (f_m z)) <> OIcache
         end;
  fj_1 : match IcSpec.y_pb1 (f_i z) with
         | Some (x, f) => exists d, f_r z = Some d /\ (f = true -> forall w, d = Some w -> source m0 l (y_hist (m_y (f_m z))) (x / 4) w)
         | None => f_r z = None
         end;
  fj_o : forall k a, IcSpec.y_out (f_i z) k = Some (a, true) -> forall m, In m (f_ms z k) -> exists z', In z' l /\ m = mem_of z' }.

Lemma FJ_env m0 l z c b : FJ m0 l z -> fenv z c b -> IcSpec.env_ok true (source m0 (l ++ [z]) (y_hist (m_y (f_m z)))) (f_i z) c b.
Proof.
  intros J []. constructor; auto.
  - intros k ln E. destruct (fe_rsp _ _ E) as (NA & a & f & O & D). exists a, f. split; auto. intros -> n Hn.
    destruct (D n Hn) as (m & I & ->). left. unfold ms_now in I.
    assert (E0 : match IcModel.c_acc c with Some k' => Nat.eqb k' k | None => false end = false).
    { destruct (IcModel.c_acc c) as [k'|]; auto. destruct (Nat.eqb_spec k' k); auto. congruence. }
    rewrite E0 in I. destruct I as [<-|I].
    + exists z. split; auto. apply in_or_app. right. now left.
    + assert (O' : IcSpec.y_out (f_i z) k = Some (a, true)).
      { unfold IcSpec.out_now in O. destruct (IcModel.c_acc c) as [k'|]; auto. unfold fupd in O. rewrite Nat.eqb_sym in E0. rewrite E0 in O. exact O. }
      destruct (fj_o _ _ _ J _ _ O' _ I) as (z' & I' & ->). exists z'. split; auto. apply in_or_app; auto.
  - intros _ k ln E. apply (fe_rsp _ _ E).
  - intros d E. pose proof (fj_1 _ _ _ J) as F1. rewrite fe_dc in E. rewrite E in F1.
    destruct (IcSpec.y_pb1 (f_i z)) as [[x f]|]; [|discriminate]. destruct F1 as (d' & E' & W). injection E' as <-. exists x, f. split; auto.
    intros F w Hw. rewrite <- (app_nil_r (y_hist _)). apply source_mono. auto.
  - intros _ N. pose proof (fj_1 _ _ _ J) as F1. rewrite fe_dc. destruct (IcSpec.y_pb1 (f_i z)) as [[x f]|]; [|congruence]. destruct F1 as (d & -> & _). discriminate.
Qed.
Lemma fstep_ic m0 l z c b i o r z' : FJ m0 l z -> fstep z c b i o r z' ->
  IcSpec.step true (source m0 (l ++ [z]) (y_hist (m_y (f_m z)))) (f_i z) c b o (f_i z').
Proof. intros J S. destruct S as [s' o1 o2 r g x' E C P M]. cbn [f_i]. econstructor; eauto. apply FJ_env; auto. Qed.

Lemma FJ_step m0 l z c b i o r z' : FJ m0 l z -> fstep z c b i o r z' -> FJ m0 (l ++ [z]) z'.
Proof.
  intros J S. pose proof (fstep_ic _ _ _ _ _ _ _ _ _ J S) as IS.
  assert (IT : IcSpec.step true (fun _ _ => True) (f_i z) c b o (f_i z')).
  { destruct IS as [s' o1 o2 E C]. econstructor; eauto. eapply env_mono; [|exact E]. auto. }
  destruct (IcReach.step_J _ _ _ _ _ _ _ (fj_j _ _ _ J) IT) as [J' _]. pose proof (FxIc.step_K _ _ _ _ _ _ _ IT) as K'.
  destruct S as [s' o1 o2 r g x' E C P M]. cbn [f_i] in *. destruct (mcycle_hist _ _ _ _ _ M) as [hl HH].
  pose proof (mreachS m0 _ _ _ _ _ (fj_m _ _ _ J) M) as MR.
  destruct (c57_served_exact _ _ _ _ _ M) as [SV _]. unfold requests in SV. rewrite P in SV.
  pose proof (fj_0 _ _ _ J) as F0. pose proof (fj_1 _ _ _ J) as F1.
  assert (NP : IcSpec.y_pb0 (f_i z) <> None -> IcModel.o_probe o2 = None).
  { intros N. eapply FxIc.no_probe_after; [exact (fj_j _ _ _ J)|exact (fj_k _ _ _ J)|exact N| |exact C].
    rewrite (fe_dc _ _ _ E). destruct (IcSpec.y_pb0 (f_i z)) as [[x f]|]; [|congruence]. destruct F0 as (_ & N1 & _). rewrite N1 in F1. exact F1. }
  constructor; cbn [f_m f_i f_r f_ms]; auto.
  - unfold IcSpec.step_sys. cbn [IcSpec.y_pb0 IcSpec.y_pb1]. destruct (IcModel.o_probe o2) as [x|] eqn:OP.
    + assert (N0 : IcSpec.y_pb0 (f_i z) = None) by (destruct (IcSpec.y_pb0 (f_i z)); auto; specialize (NP ltac:(discriminate)); discriminate).
      rewrite N0 in F0. split; [|split; [exact N0|]].
      * cbn [winner] in SV. destruct (owner_eqb OIcache (t_owner (m_rt (f_m z)))) eqn:OE; [|exact SV]. destruct (t_owner (m_rt (f_m z))); try discriminate; congruence.
      * exists z, i, r, g. sp; auto. exact (fj_m _ _ _ J). intros _. apply in_or_app. right. now left.
    + cbn [winner] in SV. intros TO. unfold served in SV. rewrite TO in SV.
      clear - SV. destruct (t_owner (m_rt (f_m z))), (rr_walk i), (rr_dtlb i), (rr_itlb i); discriminate.
  - unfold IcSpec.step_sys. cbn [IcSpec.y_pb1]. destruct (IcSpec.y_pb0 (f_i z)) as [[x f]|] eqn:PB.
    + destruct F0 as (S0 & N1 & zp & ip & rp & gp & RP & MP & IN). pose proof (c57_probe_answered m0 _ _ _ _ _ _ _ _ _ RP MP M) as PA. rewrite S0 in PA.
      destruct PA as (d & D1 & D2). exists d. split; auto. intros F w W. specialize (D2 w W). destruct D2 as (j & L & IW & O). right.
      exists zp, j. split; [apply in_or_app; auto|]. split; auto. split.
      * unfold is_word in *. intros k Hk. rewrite (IW k Hk). f_equal. lia.
      * destruct O as [O|(e & O1 & O2 & O3)]; auto. right. exists e. sp; auto. lia.
    + eapply no_icache_answer; eauto.
  - intros k a O m I. unfold IcSpec.step_sys in O. cbn [IcSpec.y_out] in O.
    assert (O1 : IcSpec.out_now (f_i z) c k = Some (a, true)).
    { destruct (IcModel.c_rsp c) as [[k' ln]|]; auto. destruct (IcModel.o_rrdy o2); auto. unfold fupd in O. destruct (Nat.eqb k k'); [discriminate|exact O]. }
    unfold ms_now in I. destruct (match IcModel.c_acc c with Some k' => Nat.eqb k' k | None => false end) eqn:E0.
    + destruct I as [<-|[]]. exists z. split; auto. apply in_or_app. right. now left.
    + destruct I as [<-|I]; [exists z; split; auto; apply in_or_app; right; now left|].
      assert (O' : IcSpec.y_out (f_i z) k = Some (a, true)).
      { unfold IcSpec.out_now in O1. destruct (IcModel.c_acc c) as [k'|]; auto. unfold fupd in O1. rewrite Nat.eqb_sym in E0. rewrite E0 in O1. exact O1. }
      destruct (fj_o _ _ _ J _ _ O' _ I) as (z' & I' & ->). exists z'. split; auto. apply in_or_app; auto.
Qed.
Lemma FJ0 m0 : FJ m0 [] (fsys0 m0).
Proof.
  constructor; cbn [fsys0 f_m f_i f_r f_ms].
  - constructor.
  - apply IcInv.J0.
  - intros N. contradiction N. reflexivity.
  - cbn. discriminate.
  - reflexivity.
  - intros k a H. discriminate H.
Qed.
Lemma freach_FJ m0 z0 l z : FJ m0 [] z0 -> freach z0 l z -> FJ m0 l z /\ IcSpec.reach true (source m0 l (y_hist (m_y (f_m z)))) (f_i z0) (f_i z).
Proof.
  intros J R. induction R as [|l z c b i o r z' R [IH1 IH2] S]; [split; [auto|constructor]|].
  split; [eapply FJ_step; eauto|]. pose proof (fstep_ic _ _ _ _ _ _ _ _ _ IH1 S) as IS.
  assert (HH : exists hl, y_hist (m_y (f_m z')) = y_hist (m_y (f_m z)) ++ hl) by (destruct S; eapply mcycle_hist; eauto). destruct HH as [hl HH]. rewrite HH.
  eapply IcSpec.reachS.
  - eapply ic_mono; [|exact IH2]. intros x d. apply source_mono.
  - destruct IS as [s' o1 o2 E C]. econstructor; eauto. eapply env_mono; [|exact E]. intros x d H. rewrite <- (app_nil_r (l ++ [z])). apply source_mono. exact H.
Qed.
(** Start observing afresh. *)
Definition fobs (z : fsys) : fsys := mkfs (IcSpec.unvouched (f_i z)) (f_m z) (f_r z) (f_ms z).
Lemma FJ_obs m0 l z c i o r z' : FJ m0 l z -> fstep z c false i o r z' -> IcModel.c_fencei c = true -> FJ m0 [] (fobs z').
Proof.
  intros J S F. pose proof (FJ_step _ _ _ _ _ _ _ _ _ J S) as J'.
  assert (IT : IcSpec.step true (fun _ _ => True) (f_i z) c false o (f_i z')).
  { pose proof (fstep_ic _ _ _ _ _ _ _ _ _ J S) as IS. destruct IS as [s' o1 o2 E C]. econstructor; eauto. eapply env_mono; [|exact E]. auto. }
  pose proof (IcReach.fence_J _ _ (fun _ _ => True) _ _ _ _ (fj_j _ _ _ J) IT F) as JU. clear J S IT F. destruct J' as [A1 A2 A3 A4 A5 A6].
  constructor; unfold fobs, IcSpec.unvouched in *; cbn [f_m f_i f_r f_ms IcSpec.y_pb0 IcSpec.y_pb1 IcSpec.y_out IcSpec.y_ic] in *; auto.
  - unfold FxIc.K in *. cbn [IcSpec.y_pb0 IcSpec.y_ic]. intros N. apply A3. destruct (IcSpec.y_pb0 (f_i z')); [discriminate|exact N].
  - destruct (IcSpec.y_pb0 (f_i z')) as [[x f]|]; cbn [IcSpec.forget]; auto. destruct A4 as (B1 & B2 & zp & i' & r' & g' & B3 & B4 & _). rewrite B2. sp; auto.
    exists zp, i', r', g'. sp; auto. discriminate.
  - destruct (IcSpec.y_pb1 (f_i z')) as [[x f]|]; cbn [IcSpec.forget]; auto. destruct A5 as (d & B1 & _). exists d. split; auto. discriminate.
  - intros k a H. destruct (IcSpec.y_out (f_i z') k) as [[a' f']|]; cbn [IcSpec.forget] in H; discriminate H.
Qed.
