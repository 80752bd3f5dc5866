(** Runs of the walker with the memory side of RtTrace, the load/store unit and the
    instruction cache being quiet. *)
From Verif Require Import Base BaseLemmas MemSpec MemModel DcModel DcSpec DcLemmas DcLoad DcRound DcTrace RtModel RtSpec RtProofs RtTrace RtProps PtwModel Sv32Spec PtwSpec PtwProofs PtwMain.

Definition pnone : pin := mkpi None false None false.
Definition quiet_in (p : client -> pin) (f : client -> bool) : vin := mkvi quiet None p f.
Definition nothing : vin := quiet_in (fun _ => pnone) (fun _ => false).
Definition asking (c : client) (q : wreq) : vin := quiet_in (fun d => if client_eqb d c then mkpi None false (Some q) false else pnone) (fun _ => false).
Definition both (q q' : wreq) : vin := quiet_in (fun d => mkpi None false (Some match d with Dtlb => q | Itlb => q' end) false) (fun _ => false).
Definition taking (c : client) : vin := quiet_in (fun d => if client_eqb d c then mkpi None false None true else pnone) (fun _ => false).
Definition flushing (c : client) : vin := quiet_in (fun _ => pnone) (fun d => client_eqb d c).

Definition politeb (p : ptw) (i : vin) : bool :=
  forallb (fun c => match i_wreq (vi_port i c) with None => true | Some _ => wready p c || vi_flush i c end && match i_mreq (vi_port i c) with None => true | Some _ => false end) [Dtlb; Itlb].
Definition v_next (b : bool) (n : nat) (x : vsys) (i : vin) : vsys :=
  let p1 := comb_begin (vi_port i) (v_p x) in
  let '(ro, g, m') := m_run b n (v_m x) (asks p1 i) in
  mkv m' (pseq (vi_flush i) (comb_finish g (ro_ev ro) (ro_wake ro) p1)).
Fixpoint v_runs (b : bool) (n : nat) (l : list vin) (x : vsys) (tr : list (vsys * vin)) : list (vsys * vin) * vsys :=
  match l with [] => (tr, x) | i :: l => v_runs b n l (v_next b n x i) ((x, i) :: tr) end.
Fixpoint v_polite (b : bool) (n : nat) (l : list vin) (x : vsys) : bool :=
  match l with [] => true | i :: l => politeb (v_p x) i && v_polite b n l (v_next b n x i) end.
Definition is_quiet (i : vin) : Prop := vi_lsu i = quiet /\ vi_ic i = None.

Lemma v_next_ok m0 b n tr x i : vreach m0 tr x -> no_mem tr -> y_wr (m_y (v_m x)) = None -> is_quiet i -> politeb (v_p x) i = true ->
  vcycle x i (v_next b n x i) /\ (forall c, i_mreq (vi_port i c) = None) /\ y_wr (m_y (v_m (v_next b n x i))) = None.
Proof.
  intros R N W [Q1 Q2] P. unfold politeb in P. cbn [forallb] in P. rewrite andb_true_r in P. apply andb_true_iff in P. destruct P as [P1 P2]. apply andb_true_iff in P1. apply andb_true_iff in P2. destruct P1 as [P1 M1], P2 as [P2 M2].
  assert (M : forall c, i_mreq (vi_port i c) = None) by (intros []; [destruct (i_mreq (vi_port i Dtlb))|destruct (i_mreq (vi_port i Itlb))]; auto; discriminate).
  assert (PO : polite (v_p x) i).
  { intros c H. destruct c; [destruct (i_wreq (vi_port i Dtlb)); [|congruence]|destruct (i_wreq (vi_port i Itlb)); [|congruence]]; now apply orb_true_iff. }
  destruct (mq_reach _ _ _ R N) as [MQ _].
  assert (MB : mquiet (comb_begin (vi_port i) (v_p x))) by (unfold comb_begin; apply mq_select, mq_port; auto; apply mq_port; auto).
  unfold v_next. cbv zeta. set (p1 := comb_begin (vi_port i) (v_p x)) in *.
  assert (OK : rr_ok (asks p1 i)).
  { unfold rr_ok, asks. cbn [rr_lsu rr_ic rr_walk rr_dtlb rr_itlb]. rewrite Q1, Q2. unfold mem_read. rewrite (proj1 (MB Dtlb)), (proj1 (MB Itlb)). repeat split; cbn; auto.
    unfold walk_read. destruct (pw_act p1); cbn; auto. destruct (pw_st p1); cbn; auto; apply w32_range. }
  destruct (m_run_ok b n (v_m x) (asks p1 i) W OK) as [C E]. destruct (m_run b n (v_m x) (asks p1 i)) as [[ro g] m'] eqn:MR. cbn [fst snd] in *.
  split; [|split; auto]. eapply vcycle_intro; eauto.
Qed.
Lemma v_runs_ok m0 b n l : Forall is_quiet l -> forall x tr, vreach m0 tr x -> no_mem tr -> y_wr (m_y (v_m x)) = None -> v_polite b n l x = true ->
  vreach m0 (fst (v_runs b n l x tr)) (snd (v_runs b n l x tr)) /\ no_mem (fst (v_runs b n l x tr)).
Proof.
  induction 1 as [|i l Q F IH]; intros x tr R N W P; [auto|]. cbn [v_runs v_polite] in *. apply andb_true_iff in P. destruct P as [P1 P2].
  destruct (v_next_ok m0 b n tr x i R N W Q P1) as (C & M & E). apply IH; auto; [econstructor; eauto|]. constructor; auto.
Qed.
Definition run (b : bool) (l : list vin) (m : Z -> Z) := v_runs b 14 l (vsys0 m) [].
Lemma run_ok b l m : Forall is_quiet l -> v_polite b 14 l (vsys0 m) = true -> vreach m (fst (run b l m)) (snd (run b l m)) /\ no_mem (fst (run b l m)).
Proof. intros. apply v_runs_ok; auto; constructor. Qed.
Lemma bytes_word W a : is_word (bytes_of W) a (W (a / 4)).
Proof. intros k K. unfold bytes_of. replace ((a / 4 * 4 + k) / 4) with (a / 4) by (Z.div_mod_to_equations; lia). now replace ((a / 4 * 4 + k) mod 4) with k by (Z.div_mod_to_equations; lia). Qed.
