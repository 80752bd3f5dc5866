(** Runs of the TLBs, with the load/store unit's own accesses and instruction fetches
    left out. *)
From Verif Require Import Base BaseLemmas MemSpec MemModel DcModel DcSpec DcTrace RtModel RtSpec RtTrace PtwModel Sv32Spec PtwSpec PtwProofs PtwMain PtwTrace TlbModel TlbSpec TlbProofs TlbMain.

Definition u_next (b : bool) (n : nat) (u : usys) (i : uin) : usys := mku (v_next b n (u_v u) (vin_of u i)) (clocked u i).
Fixpoint u_runs (b : bool) (n : nat) (l : list uin) (u : usys) (tr : list (usys * uin)) : list (usys * uin) * usys :=
  match l with [] => (tr, u) | i :: l => u_runs b n l (u_next b n u i) ((u, i) :: tr) end.
Definition csrs_okb (c : csrs) : bool := (0 <=? s_satp c) && (s_satp c <? 4294967296) && (0 <=? s_priv c) && (s_priv c <? 4) && (0 <=? s_mpp c) && (s_mpp c <? 4).
Definition u_okb (i : uin) : bool :=
  match io_va (ui_i i) with Some _ => negb (io_flush (ui_i i)) && negb (io_cancel (ui_i i)) | None => true end &&
  forallb (fun c => match csr_in i c with Some s => csrs_okb s | None => true end) [Dtlb; Itlb].
Definition calm (i : uin) : Prop := ui_lsu i = quiet /\ ui_ic i = None /\ u_okb i = true.
Lemma calm_ok i : calm i -> iop_ok (ui_i i) /\ (forall c s, csr_in i c = Some s -> csrs_ok s).
Proof.
  intros (_ & _ & H). unfold u_okb in H. cbn [forallb] in H. rewrite andb_true_r in H. apply andb_true_iff in H. destruct H as [H1 H2]. apply andb_true_iff in H2. destruct H2 as [H2 H3]. split.
  - intros N. destruct (io_va (ui_i i)); [|congruence]. apply andb_true_iff in H1. destruct H1 as [A B]. apply negb_true_iff in A, B. auto.
  - assert (K : forall s, csrs_okb s = true -> csrs_ok s).
    { intros s E. unfold csrs_okb in E. repeat (apply andb_true_iff in E; destruct E as [E ?]). unfold csrs_ok. change (2 ^ 32) with 4294967296. lia. }
    intros [] s E; [rewrite E in H2|rewrite E in H3]; auto.
Qed.
Lemma u_next_ok m0 b n tr u i : ureach m0 tr u -> y_wr (m_y (v_m (u_v u))) = None -> calm i ->
  ucycle u i (u_next b n u i) /\ y_wr (m_y (v_m (u_v (u_next b n u i)))) = None.
Proof.
  intros R W C. pose proof (ureach_UI _ _ _ R) as I. destruct (calm_ok i C) as [OK CK]. pose proof (UI_polite _ _ _ i I OK CK) as PO.
  assert (PB : politeb (v_p (u_v u)) (vin_of u i) = true).
  { unfold politeb. cbn [forallb vin_of vi_port vi_flush drive i_mreq i_wreq]. rewrite !andb_true_r. apply andb_true_iff.
    split; [specialize (PO Dtlb)|specialize (PO Itlb)]; cbn [vin_of vi_port vi_flush drive i_wreq] in PO; destruct (b_req _); auto; destruct (PO ltac:(discriminate)) as [-> | ->]; auto; apply orb_true_r. }
  assert (NM : no_mem (vtr tr)) by (apply Forall_forall; intros x X; apply in_map_iff in X; destruct X as (y & <- & _); reflexivity).
  destruct C as (Q1 & Q2 & _). destruct (v_next_ok m0 b n (vtr tr) (u_v u) (vin_of u i) (ui_v _ _ _ I) NM W (conj Q1 Q2) PB) as (VC & _ & E). split; [|exact E].
  unfold u_next. remember (v_next b n (u_v u) (vin_of u i)) as x eqn:X. clear X. destruct VC as [p1 ro g m' _ P1 MC]. apply ucycle_intro; auto.
Qed.
Lemma u_runs_ok m0 b n l : Forall calm l -> forall u tr, ureach m0 tr u -> y_wr (m_y (v_m (u_v u))) = None -> ureach m0 (fst (u_runs b n l u tr)) (snd (u_runs b n l u tr)) /\ y_wr (m_y (v_m (u_v (snd (u_runs b n l u tr))))) = None.
Proof.
  induction 1 as [|i l Q F IH]; intros u tr R W; [auto|]. cbn [u_runs]. destruct (u_next_ok m0 b n tr u i R W Q) as (C & E). apply IH; auto. econstructor; eauto.
Qed.
Definition urun (l : list uin) (m : Z -> Z) := u_runs true 14 l (usys0 m) [].
Lemma urun_ok l m : Forall calm l -> ureach m (fst (urun l m)) (snd (urun l m)).
Proof. intros. apply u_runs_ok; auto; constructor. Qed.
(** One more cycle. *)
Lemma urun_next l m i : Forall calm l -> calm i -> ucycle (snd (urun l m)) i (u_next true 14 (snd (urun l m)) i).
Proof. intros F C. destruct (u_runs_ok m true 14 l F (usys0 m) []) as [R W]; [constructor|reflexivity|]. apply (u_next_ok m true 14 _ _ i R W C). Qed.

(** Inputs: the data side [d], the instruction side [j]. *)
Definition io_none : iop := mkio false false None csrs0.
Definition inp (d : dop) (j : iop) : uin := mkui quiet None j d.
Definition load (c : csrs) (va : Z) : uin := inp (DPorts c [Some va; None] [None; None]) io_none.
Definition store (c : csrs) (va : Z) : uin := inp (DPorts c [None; None] [Some va; None]) io_none.
Definition fetch (c : csrs) (va : Z) : uin := inp (DPorts csrs0 [] []) (mkio false false (Some va) c).
Definition outs (c : client) (i : uin) (u : usys) : list (Z * Z) := map (fun r => (po_result r, po_pa r)) (snd (result u i c)).
