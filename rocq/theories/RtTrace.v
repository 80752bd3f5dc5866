(** Runs of the memory side over whole CPU cycles, main memory either answering
    reads at once or not answering at all; it never accepts a write. *)
From Verif Require Import Base BaseLemmas MemSpec MemModel DcModel DcSpec DcLemmas DcLoad DcRound DcTrace RtModel RtSpec RtProofs.

Definition ax_in (b : bool) (rq : request) (clr : bool) (y : sys) : tick_in :=
  if b then auto_in rq clr y else mkti false false None None rq clr.
Definition tk (b : bool) (rq : request) (clr : bool) (y : sys) : tick_out * sys :=
  let i := ax_in b rq clr y in
  let '(s', o) := tick i (y_d y) in
  (o, mksys s' (y_mem y) (y_wr y)
        (match ti_rresp i with Some (id, _) => if to_rready o then fupd (rd_now i y) id None else rd_now i y | None => rd_now i y end)
        (y_hist y ++ new_stores (y_d y) o)
        (if read_taken i o then length (y_hist y) else y_arr y)).
Lemma tk_step b rq clr y : y_wr y = None -> rq_ok rq -> step y (ax_in b rq clr y) (fst (tk b rq clr y)) (snd (tk b rq clr y)) /\ y_wr (snd (tk b rq clr y)) = None.
Proof.
  intros W R. destruct b; [exact (auto_step rq clr y W R)|].
  unfold tk. destruct (tick (ax_in false rq clr y) (y_d y)) as [s' o] eqn:T. cbn [fst snd y_wr]. split; [|exact W].
  set (i := ax_in false rq clr y) in *.
  replace (y_wr y) with (if ti_wresp i then None else wr_now i y) by reflexivity.
  apply (step_intro y i (y_mem y) s' o); auto.
  constructor; try discriminate. reflexivity.
Qed.
Fixpoint tk_fast (b : bool) (n : nat) (y : sys) : sys := match n with O => y | S k => snd (tk b no_request false (tk_fast b k y)) end.
Lemma tk_fast_ok b n y : y_wr y = None -> fast y n (tk_fast b n y) /\ y_wr (tk_fast b n y) = None.
Proof.
  intros W. induction n as [|n [IH IW]]; [split; [constructor|auto]|]. cbn [tk_fast].
  destruct (tk_step b no_request false (tk_fast b n y) IW) as [S E]; [repeat split|]. split; auto. destruct b; eapply fastS; eauto; reflexivity.
Qed.
(** The published answers do not depend on the request of the same tick. *)
Lemma tick_pend a b c d rq rq' clr s : to_pend (snd (tick (mkti a b c d rq clr) s)) = to_pend (snd (tick (mkti a b c d rq' clr) s)).
Proof.
  assert (E : comb_outputs (mkti a b c d rq clr) s = comb_outputs (mkti a b c d rq' clr) s) by reflexivity.
  unfold tick. rewrite E. clear E. set (m := comb_outputs _ s). clearbody m. cbv zeta. cbn [ti_rq ti_rresp ti_clear].
  destruct (forward _ _) as [p2 fr]. destruct (stage1 rq _ _ _ _ _), (stage1 rq' _ _ _ _ _). reflexivity.
Qed.
Lemma tk_to b rq clr y : to_pend (fst (tk b rq clr y)) = to_pend (snd (tick (ax_in b rq clr y) (y_d y))).
Proof. unfold tk. destruct (tick _ _). reflexivity. Qed.
Lemma tk_pend b rq rq' clr y : to_pend (fst (tk b rq clr y)) = to_pend (fst (tk b rq' clr y)).
Proof. rewrite !tk_to. destruct b; unfold ax_in, auto_in; apply tick_pend. Qed.

(** One CPU cycle of [S n] fast ticks. *)
Definition m_run (b : bool) (n : nat) (x : msys) (i : rreq) : rout * option (owner * Z) * msys :=
  let '(ro, wait) := comb_response (to_pend (fst (tk b no_request true (m_y x)))) (m_rt x) in
  let '(rq, g, rt) := comb_request i wait (m_rt x) in
  (ro, g, mkm (tk_fast b (S n) (snd (tk b rq true (m_y x)))) rt).
Definition adr_ok (a : option Z) : Prop := match a with Some v => is_w 32 v | None => True end.
Definition rr_ok (i : rreq) : Prop :=
  lsu_ok (rr_lsu i) /\ rq_ok (rr_lsu i) /\ adr_ok (rr_ic i) /\ adr_ok (rr_walk i) /\ adr_ok (rr_dtlb i) /\ adr_ok (rr_itlb i).
Lemma comb_request_ok i wait s : rr_ok i -> rq_ok (fst (fst (comb_request i wait s))).
Proof.
  intros (_ & (L0 & L1 & S0 & S1) & A & B & C & D). unfold comb_request, choose.
  destruct (negb (owner_eqb (t_owner s) OIcache)), (negb (owner_eqb (t_owner s) OWalk)), (negb (owner_eqb (t_owner s) ODtlb)), (negb (owner_eqb (t_owner s) OItlb)), (rr_ic i), (rr_walk i), (rr_dtlb i), (rr_itlb i);
    cbn [owner_eqb fst]; (split; [assumption|split; [assumption|split; assumption]]).
Qed.
Lemma m_run_ok b n x i : y_wr (m_y x) = None -> rr_ok i ->
  mcycle x i (fst (fst (m_run b n x i))) (snd (fst (m_run b n x i))) (snd (m_run b n x i)) /\ y_wr (m_y (snd (m_run b n x i))) = None.
Proof.
  intros W R. unfold m_run. destruct (comb_response _ _) as [ro wait] eqn:CR. pose proof (comb_request_ok i wait (m_rt x) R) as RQ.
  destruct (comb_request i wait (m_rt x)) as [[rq g] rt] eqn:CQ. cbn [fst snd] in *.
  destruct (tk_step b rq true (m_y x) W RQ) as [S E]. destruct (tk_fast_ok b (Datatypes.S n) _ E) as [F E2]. split; [|exact E2].
  eapply mcycle_intro with (ti := ax_in b rq true (m_y x)) (wait := wait); eauto.
  - apply R.
  - destruct b; reflexivity.
  - rewrite (tk_pend b rq no_request). exact CR.
  - destruct b; reflexivity.
Qed.
Definition m_next (b : bool) (n : nat) (x : msys) (i : rreq) : msys := snd (m_run b n x i).
Definition m_runs (b : bool) (n : nat) (l : list rreq) (x : msys) : msys := fold_left (m_next b n) l x.
Lemma m_runs_ok m0 b n l x : mreach m0 x -> y_wr (m_y x) = None -> Forall rr_ok l -> mreach m0 (m_runs b n l x) /\ y_wr (m_y (m_runs b n l x)) = None.
Proof.
  revert x. induction l as [|i l IH]; intros x R W F; [auto|]. inversion F; subst. destruct (m_run_ok b n x i W) as [S E]; auto.
  apply IH; auto. eapply mreachS; eauto.
Qed.
(** requests *)
Definition quiet : request := mkrq None None None None 2.
Definition st_in (a d : Z) : rreq := mkrr (st_rq a d) None None None None.
Definition ld1_in (a id : Z) (walk : option Z) : rreq := mkrr (mkrq None (Some (mklr a id)) None None 2) None walk None None.
Definition ic_in (a : Z) : rreq := mkrr quiet (Some a) None None None.
Definition walk_in (a : Z) : rreq := mkrr quiet None (Some a) None None.
Definition dtlb_in (a : Z) : rreq := mkrr quiet None None (Some a) None.
Definition none_in : rreq := mkrr quiet None None None None.
