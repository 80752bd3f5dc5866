(** Runs of the composite: the stimulus of a cycle, the rest follows.  The second
    call (predecode correction) is not used; pages translate to themselves. *)
From Verif Require Import Base BaseLemmas MemSpec MemModel DcModel DcSpec DcLemmas DcLoad DcRound DcTrace RtModel RtSpec RtTrace.
From Verif Require IcModel IcSpec.
From Verif Require Import FxSpec.

(** [u_acc]: the read on offer is accepted; [u_rsp]: the read with this id is
    answered with main memory's present line; [u_b]: main memory answers the data
    cache in this cycle. *)
Record stim := mku { u_v : bool; u_pc : Z; u_refetch : bool; u_fence : bool; u_ready : bool; u_acc : bool; u_rsp : option nat;
                     u_b : bool; u_lsu : request }.
Definition idn (v : Z) : IcModel.trans := IcModel.TOk (v mod 2 ^ 20).
Definition u_in (z : fsys) (u : stim) : IcModel.cinp :=
  IcModel.mkcinp (u_v u) (u_pc u) (u_refetch u) (u_fence u) false false (u_ready u)
    (if u_acc u then match IcSpec.y_pres (f_i z) with Some (k, _) => Some k | None => None end else None)
    (match u_rsp u with
     | Some k => match IcSpec.y_out (f_i z) k with Some (a, _) => Some (k, fun n => mem_of z (a / 4 + n)) | None => None end
     | None => None
     end)
    (f_r z) idn.
Definition u_rr (z : fsys) (u : stim) : rreq :=
  let '(_, _, o2) := IcModel.ic_cycle (u_in z u) false (IcSpec.y_ic (f_i z)) in mkrr (u_lsu u) (IcModel.o_probe o2) None None None.
Definition f_run (n : nat) (z : fsys) (u : stim) : IcModel.mout * rout * fsys :=
  let c := u_in z u in
  let '(s', o1, o2) := IcModel.ic_cycle c false (IcSpec.y_ic (f_i z)) in
  let '(r, _, x') := m_run (u_b u) n (f_m z) (u_rr z u) in
  (o1, r, mkfs (IcSpec.step_sys (f_i z) c false s' o1 o2) x' (ro_ic r) (ms_now z c)).
(** what the surroundings promise, decided *)
Definition u_okb (z : fsys) (u : stim) : bool :=
  (if u_v u then negb (u_refetch u) && IcModel.glue_ready false (IcSpec.y_ic (f_i z)) else true) &&
  negb (u_acc u && match u_rsp u with Some _ => true | None => false end) &&
  match rr_ic (u_rr z u) with Some a => (0 <=? a) && (a <? 2 ^ 32) | None => true end.
Lemma u_env z u : u_okb z u = true -> fenv z (u_in z u) false.
Proof.
  intros H. apply andb_prop in H. destruct H as [H _]. apply andb_prop in H. destruct H as [H1 H2]. constructor; cbn [u_in IcModel.c_v IcModel.c_pc IcModel.c_refetch IcModel.c_fencei IcModel.c_inval IcModel.c_acc IcModel.c_rsp IcModel.c_dc IcModel.c_tr]; auto.
  - intros V. rewrite V in H1. apply andb_prop in H1. destruct H1 as [A B]. split; [destruct (u_refetch u); auto|eauto].
  - discriminate.
  - intros v p E. injection E as <-. unfold is_w. apply Z.mod_pos_bound. lia.
  - intros k E. destruct (u_acc u); [|discriminate]. unfold IcSpec.offered. destruct (IcSpec.y_pres (f_i z)) as [[k' a]|]; [|discriminate]. injection E as <-. rewrite Nat.eqb_refl. discriminate.
  - intros k l E. destruct (u_rsp u) as [k'|] eqn:UR; [|discriminate]. destruct (IcSpec.y_out (f_i z) k') as [[a f]|] eqn:O; [|discriminate]. injection E as <- <-.
    destruct (u_acc u) eqn:A; [discriminate|]. split; [discriminate|]. exists a, f. unfold IcSpec.out_now, ms_now. cbn [u_in IcModel.c_acc]. rewrite A. split; auto.
    intros n Hn. eexists. split; [left; reflexivity|]. reflexivity.
Qed.
Lemma f_run_ok n z u : y_wr (m_y (f_m z)) = None -> lsu_ok (u_lsu u) -> rq_ok (u_lsu u) -> u_okb z u = true ->
  fstep z (u_in z u) false (u_rr z u) (fst (fst (f_run n z u))) (snd (fst (f_run n z u))) (snd (f_run n z u)) /\
  y_wr (m_y (f_m (snd (f_run n z u)))) = None.
Proof.
  intros W L R B. pose proof (u_env _ _ B) as E. unfold f_run.
  assert (RO : rr_ok (u_rr z u)).
  { apply andb_prop in B. destruct B as [_ B]. unfold u_rr in *. destruct (IcModel.ic_cycle _ _ _) as [[s' o1] o2]. cbn [rr_ic] in B. unfold rr_ok. cbn [rr_lsu rr_ic rr_walk rr_dtlb rr_itlb adr_ok].
    split; auto. split; auto. split; auto. unfold adr_ok. destruct (IcModel.o_probe o2); auto. unfold is_w. apply andb_prop in B. destruct B as [B1 B2]. apply Z.leb_le in B1. apply Z.ltb_lt in B2. lia. }
  destruct (m_run_ok (u_b u) n (f_m z) (u_rr z u) W RO) as [M W'].
  assert (P : rr_ic (u_rr z u) = IcModel.o_probe (snd (IcModel.ic_cycle (u_in z u) false (IcSpec.y_ic (f_i z))))).
  { unfold u_rr. destruct (IcModel.ic_cycle _ _ _) as [[s' o1] o2]. reflexivity. }
  destruct (IcModel.ic_cycle (u_in z u) false (IcSpec.y_ic (f_i z))) as [[s' o1] o2] eqn:C. destruct (m_run (u_b u) n (f_m z) (u_rr z u)) as [[r g] x']. cbn [fst snd f_m] in *.
  split; [|exact W']. eapply fstep_intro; eauto.
Qed.
Definition f_next (n : nat) (z : fsys) (u : stim) : fsys := snd (f_run n z u).
Definition f_runs (n : nat) (l : list stim) (z : fsys) : fsys := fold_left (f_next n) l z.
Fixpoint f_trail (n : nat) (l : list stim) (z : fsys) : list fsys := match l with [] => [] | u :: t => z :: f_trail n t (f_next n z u) end.
Fixpoint f_okb (n : nat) (l : list stim) (z : fsys) : bool := match l with [] => true | u :: t => u_okb z u && f_okb n t (f_next n z u) end.
Definition u_req (u : stim) : Prop := lsu_ok (u_lsu u) /\ rq_ok (u_lsu u).
Lemma f_runs_app n l l' z : f_runs n (l ++ l') z = f_runs n l' (f_runs n l z).
Proof. unfold f_runs. apply fold_left_app. Qed.
Lemma freach_cons z0 c b i o r z1 l z : fstep z0 c b i o r z1 -> freach z1 l z -> freach z0 (z0 :: l) z.
Proof.
  intros S R. induction R as [|l z c' b' i' o' r' z' R IH S']; [exact (freachS z0 [] z0 c b i o r z1 (freach0 z0) S)|].
  exact (freachS z0 (z0 :: l) z c' b' i' o' r' z' IH S').
Qed.
Lemma f_runs_ok n l z : y_wr (m_y (f_m z)) = None -> Forall u_req l -> f_okb n l z = true ->
  freach z (f_trail n l z) (f_runs n l z) /\ y_wr (m_y (f_m (f_runs n l z))) = None.
Proof.
  revert z. induction l as [|u l IH]; intros z W F B; [split; [constructor|auto]|]. inversion F as [|? ? [F1 F2] F3]; subst. cbn [f_okb] in B. apply andb_prop in B. destruct B as [B1 B2].
  destruct (f_run_ok n z u W F1 F2 B1) as [S W']. destruct (IH (f_next n z u)) as [R W'']; auto. split; [|exact W''].
  eapply freach_cons; eauto.
Qed.
