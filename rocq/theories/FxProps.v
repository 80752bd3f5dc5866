(** C58: instruction fetch after fence.i. *)
From Verif Require Import Base BaseLemmas MemSpec MemModel DcModel DcSpec DcLemmas DcInv DcReach DcLoad DcRound DcTrace RtModel RtSpec RtProofs RtProps RtTrace.
From Verif Require IcModel IcSpec IcInv IcReach IcProps FxIc.
From Verif Require Import FxSpec FxProofs FxTrace.
Ltac Zify.zify_post_hook ::= Z.div_mod_to_equations.

(** What the instruction cache's theorems assume of the data-cache side holds of the
    routing block and the data cache: every probe is answered in the second cycle
    after it, nothing else is. *)
Theorem c58_probe_contract m0 l z : freach (fsys0 m0) l z ->
  IcSpec.reach true (source m0 l (y_hist (m_y (f_m z)))) IcSpec.sys0 (f_i z) /\ (f_r z <> None <-> IcSpec.y_pb1 (f_i z) <> None).
Proof.
  intros R. destruct (freach_FJ m0 _ _ _ (FJ0 m0) R) as [J I]. split; auto. pose proof (fj_1 _ _ _ J) as F.
  destruct (IcSpec.y_pb1 (f_i z)) as [[x f]|]; [destruct F as (d & -> & _); split; discriminate|rewrite F; tauto].
Qed.
(** Every word fetched after a fence.i comes from main memory, or from the data
    cache as the program saw it, since the fence.  What is missing for coherence
    is that the word from main memory be current. *)
Theorem c58_fetch_sources_partial m0 l0 z c i o r z1 l z2 c' b i' o' r' z3 rs :
  freach (fsys0 m0) l0 z -> fstep z c false i o r z1 -> IcModel.c_fencei c = true ->
  freach (fobs z1) l z2 -> fstep z2 c' b i' o' r' z3 -> IcModel.o_rsp o' = Some rs ->
  exists pc, IcSpec.serving (f_i z2) c' = Some pc /\
    IcSpec.answer_ok (source m0 (l ++ [z2]) (y_hist (m_y (f_m z2)))) pc (IcSpec.pages (f_i z2) c') (IcModel.c_tr c' (pc / 4096)) rs.
Proof.
  intros R S F R2 S2 E. destruct (freach_FJ m0 _ _ _ (FJ0 m0) R) as [J I]. pose proof (FJ_obs _ _ _ _ _ _ _ _ J S F) as J1.
  destruct (freach_FJ m0 _ _ _ J1 R2) as [J2 I2]. pose proof (fstep_ic _ _ _ _ _ _ _ _ _ J S) as IS. pose proof (fstep_ic _ _ _ _ _ _ _ _ _ J2 S2) as IS2.
  assert (I' : IcSpec.reach true (source m0 (l0 ++ [z]) (y_hist (m_y (f_m z)))) IcSpec.sys0 (f_i z)).
  { eapply ic_mono; [|exact I]. intros x d H. rewrite <- (app_nil_r (y_hist _)). apply source_mono. exact H. }
  assert (I2' : IcSpec.reach true (source m0 (l ++ [z2]) (y_hist (m_y (f_m z2)))) (IcSpec.unvouched (f_i z1)) (f_i z2)).
  { eapply ic_mono; [|exact I2]. intros x d H. rewrite <- (app_nil_r (y_hist _)). apply source_mono. exact H. }
  exact (IcProps.c55_fence_i _ _ _ _ _ _ _ I' IS F _ _ _ _ _ I2' IS2 _ E).
Qed.

(** [d] is the word at word address [x] as the program saw it when at least [n] of
    the stores of [h] had been acknowledged. *)
Definition current (m0 : Z -> Z) (n : nat) (h : list dstore) (x d : Z) : Prop :=
  exists j, (n <= j <= length h)%nat /\ is_word (after_stores (bytes_of m0) (firstn j h)) (4 * x) d.
(** The line of [x] has been written back: main memory has the program's value and
    no miss register is after it. *)
Definition clean (m0 : Z -> Z) (z : fsys) (x : Z) : Prop :=
  is_word (view m0 (m_y (f_m z))) (4 * x) (mem_of z x) /\
  forall e, (e < 8)%nat -> me_valid (ms_ent (d_ms (y_d (m_y (f_m z)))) e) = true -> me_addr (ms_ent (d_ms (y_d (m_y (f_m z)))) e) / 64 <> x / 16.
Lemma fhist z c b i o r z' : fstep z c b i o r z' -> exists l, y_hist (m_y (f_m z')) = y_hist (m_y (f_m z)) ++ l.
Proof. intros S. destruct S. eapply mcycle_hist; eauto. Qed.
Lemma freach_hist z0 l z : freach z0 l z -> forall z', In z' (l ++ [z]) -> exists h1 h2, y_hist (m_y (f_m z')) = y_hist (m_y (f_m z0)) ++ h1 /\ y_hist (m_y (f_m z)) = y_hist (m_y (f_m z')) ++ h2.
Proof.
  intros R. induction R as [|l z c b i o r z' R IH S]; intros w I.
  - destruct I as [<-|[]]. exists [], []. rewrite app_nil_r. auto.
  - destruct (fhist _ _ _ _ _ _ _ S) as [h E]. apply in_app_or in I. destruct I as [I|[<-|[]]].
    + destruct (IH w I) as (h1 & h2 & A & B). exists h1, (h2 ++ h). split; auto. rewrite E, B. now rewrite app_assoc.
    + destruct (IH z) as (h1 & h2 & A & _); [apply in_or_app; right; now left|]. exists (h1 ++ h), []. rewrite E, A, app_assoc, app_nil_r. auto.
Qed.
(** A word of a line that stays written back after the fence is fetched current. *)
Theorem c58_clean_line_coherent m0 l0 z c i o r z1 l z2 c' b i' o' r' z3 pc pf ln :
  freach (fsys0 m0) l0 z -> fstep z c false i o r z1 -> IcModel.c_fencei c = true ->
  freach (fobs z1) l z2 -> fstep z2 c' b i' o' r' z3 -> IcModel.o_rsp o' = Some (pc, pf, ln) -> pf = false ->
  exists p, In p (IcSpec.pages (f_i z2) c') /\ forall n, 0 <= n < 16 ->
    let x := p * 1024 + (pc mod 4096) / 64 * 16 + n in
    (forall w, In w (l ++ [z2]) -> clean m0 w x) ->
    current m0 (length (y_hist (m_y (f_m z1)))) (y_hist (m_y (f_m z2))) x (ln n).
Proof.
  intros R S F R2 S2 E ->. destruct (c58_fetch_sources_partial _ _ _ _ _ _ _ _ _ _ _ _ _ _ _ _ _ R S F R2 S2 E) as (pc' & _ & A). cbn [IcSpec.answer_ok] in A.
  destruct A as (<- & p & I & A). exists p. split; auto. intros n Hn x C. specialize (A n Hn). fold x in A. clearbody x.
  pose proof (freach_hist _ _ _ R2) as HH. change (y_hist (m_y (f_m (fobs z1)))) with (y_hist (m_y (f_m z1))) in HH.
  destruct A as [(w & IW & ->)|(w & j & IW & L & W & O)].
  - destruct (HH w IW) as (h1 & h2 & A & B). destruct (C w IW) as [CW _]. exists (length (y_hist (m_y (f_m w)))). rewrite B at 1. rewrite app_length. rewrite A at 1. rewrite app_length. split; [lia|].
    rewrite B, firstn_app, Nat.sub_diag, firstn_all. cbn [firstn]. rewrite app_nil_r. exact CW.
  - destruct (HH w IW) as (h1 & h2 & A & B). destruct (C w IW) as [_ CM]. exists j. split; auto. split; auto.
    destruct O as [O|(e & O1 & O2 & O3)]; [rewrite A, app_length in O; lia|]. exfalso. exact (CM e O1 O2 O3).
Qed.

(** ** The fence does not make stores visible to fetches *)
Definition rest (b : bool) (q : request) : stim := mku false 0 false false true false None b q.
Definition a_fence b : stim := mku false 0 true true true false None b quiet.
Definition a_fetch b pc : stim := mku true pc false false true false None b quiet.
Definition a_acc b : stim := mku false 0 false false true true None b quiet.
Definition a_ans b : stim := mku false 0 false false true false (Some 0%nat) b quiet.
(** A store of 77 to 4104, a line not in the data cache, is acknowledged; fence.i;
    fetch at 4104. *)
Definition w1_pre : list stim := [rest false (st_rq 4104 77); rest false quiet; rest false quiet].
Definition w1_post : list stim := [rest false quiet; a_fetch false 4104; rest false quiet; rest false quiet; rest false quiet; a_acc false; rest false quiet].
(** The same with the line brought in and dirty before the fence; the fetch's probe
    meets a load of another line in the same bank. *)
Definition w2_pre : list stim := [rest true (st_rq 4104 77); rest true quiet; rest true quiet; rest true (ld_rq 8192); rest true quiet; rest true quiet; rest true quiet].
Definition w2_post : list stim := [rest true quiet; a_fetch true 4104; rest true quiet; rest true (ld_rq 8192); rest true quiet; rest true quiet; a_acc true; rest true quiet].
Section Witness.
  Variables (b : bool) (pre post : list stim).
  Let z := f_runs 14 pre (fsys0 ex_m).
  Let z1 := f_next 14 z (a_fence b).
  Let z2 := f_runs 14 post (fobs z1).
  Definition w_ok : bool := f_okb 14 pre (fsys0 ex_m) && u_okb z (a_fence b) && f_okb 14 post (fobs z1) && u_okb z2 (a_ans b).
  Definition w_word : option Z := match IcModel.o_rsp (fst (fst (f_run 14 z2 (a_ans b)))) with Some (pc, false, ln) => if pc =? 4104 then Some (ln 2) else None | _ => None end.
  Definition w_pages : list Z := IcSpec.pages (f_i z2) (u_in z2 (a_ans b)).
  Definition w_free : bool := forallb (fun w => forallb (fun e => negb (me_valid (ms_ent (d_ms (y_d (m_y (f_m w)))) e))) (seq 0 8)) (f_trail 14 post (fobs z1) ++ [z2]).
  Lemma witness : Forall u_req pre -> Forall u_req post -> w_ok = true -> w_word = Some (ex_m 1026) -> forallb (Z.eqb 1) w_pages = true ->
    y_hist (m_y (f_m z1)) = [mkds 4104 77 15] -> y_hist (m_y (f_m z2)) = [mkds 4104 77 15] ->
    exists l0 z c i o r z1 l z2 c' b i' o' r' z3 rs,
      freach (fsys0 ex_m) l0 z /\ fstep z c false i o r z1 /\ IcModel.c_fencei c = true /\
      freach (fobs z1) l z2 /\ fstep z2 c' b i' o' r' z3 /\ IcModel.o_rsp o' = Some rs /\
      (w_free = true -> forall w, In w (l ++ [z2]) -> forall e, (e < 8)%nat -> me_valid (ms_ent (d_ms (y_d (m_y (f_m w)))) e) = false) /\
      ~ exists pc, IcSpec.serving (f_i z2) c' = Some pc /\
          IcSpec.answer_ok (current ex_m (length (y_hist (m_y (f_m z1)))) (y_hist (m_y (f_m z2)))) pc (IcSpec.pages (f_i z2) c') (IcModel.c_tr c' (pc / 4096)) rs.
  Proof.
    intros F1 F2 OK W PG H1 H2. apply andb_prop in OK. destruct OK as [OK B4]. apply andb_prop in OK. destruct OK as [OK B3]. apply andb_prop in OK. destruct OK as [B1 B2].
    destruct (f_runs_ok 14 pre (fsys0 ex_m) eq_refl F1 B1) as [R1 W1]. fold z in R1, W1.
    assert (QQ : lsu_ok quiet /\ rq_ok quiet) by (repeat split).
    destruct (f_run_ok 14 z (a_fence b) W1 (proj1 QQ) (proj2 QQ) B2) as [S1 W2].
    destruct (f_runs_ok 14 post (fobs z1) W2 F2 B3) as [R2 W3]. fold z2 in R2, W3.
    destruct (f_run_ok 14 z2 (a_ans b) W3 (proj1 QQ) (proj2 QQ) B4) as [S2 _].
    unfold w_word in W. destruct (IcModel.o_rsp (fst (fst (f_run 14 z2 (a_ans b))))) as [rs|] eqn:RS; [|discriminate W].
    exists (f_trail 14 pre (fsys0 ex_m)), z, (u_in z (a_fence b)), (u_rr z (a_fence b)), (fst (fst (f_run 14 z (a_fence b)))), (snd (fst (f_run 14 z (a_fence b)))), z1.
    exists (f_trail 14 post (fobs z1)), z2, (u_in z2 (a_ans b)), false, (u_rr z2 (a_ans b)), (fst (fst (f_run 14 z2 (a_ans b)))), (snd (fst (f_run 14 z2 (a_ans b)))), (snd (f_run 14 z2 (a_ans b))), rs.
    split; [exact R1|]. split; [exact S1|]. split; [reflexivity|]. split; [exact R2|]. split; [exact S2|]. split; [exact RS|]. split.
    - intros WF w I e He. unfold w_free in WF. rewrite forallb_forall in WF. specialize (WF w I). rewrite forallb_forall in WF. specialize (WF e ltac:(apply in_seq; lia)).
      destruct (me_valid _); [discriminate WF|reflexivity].
    - intros (pc & SV & A). destruct rs as [[pc' pf] ln]. destruct pf; [discriminate W|]. destruct (pc' =? 4104) eqn:PE; [|discriminate W]. apply Z.eqb_eq in PE. injection W as W.
      destruct A as (<- & p & IP & A). fold w_pages in IP. rewrite forallb_forall in PG. apply PG, Z.eqb_eq in IP. subst p. specialize (A 2 ltac:(lia)). subst pc'. rewrite W, H1, H2 in A.
      destruct A as (j & L & IW). cbn [length] in L. assert (j = 1%nat) as -> by lia. specialize (IW 0 ltac:(lia)). vm_compute in IW. discriminate IW.
  Qed.
End Witness.
Lemma w_reqs : Forall u_req w1_pre /\ Forall u_req w1_post /\ Forall u_req w2_pre /\ Forall u_req w2_post.
Proof. repeat split; repeat first [apply Forall_cons | apply Forall_nil]; repeat split; cbn; unfold is_w; lia. Qed.

Theorem c58_store_then_fence_refuted :
  ~ forall m0 l0 z c i o r z1 l z2 c' b i' o' r' z3 rs,
    freach (fsys0 m0) l0 z -> fstep z c false i o r z1 -> IcModel.c_fencei c = true ->
    freach (fobs z1) l z2 -> fstep z2 c' b i' o' r' z3 -> IcModel.o_rsp o' = Some rs ->
    exists pc, IcSpec.serving (f_i z2) c' = Some pc /\
      IcSpec.answer_ok (current m0 (length (y_hist (m_y (f_m z1)))) (y_hist (m_y (f_m z2)))) pc (IcSpec.pages (f_i z2) c') (IcModel.c_tr c' (pc / 4096)) rs.
Proof.
  intros H. destruct w_reqs as (Q1 & Q2 & _ & _).
  destruct (witness false w1_pre w1_post Q1 Q2) as (l0 & z & c & i & o & r & z1 & l & z2 & c' & b & i' & o' & r' & z3 & rs & A1 & A2 & A3 & A4 & A5 & A6 & _ & N); try (vm_compute; reflexivity).
  apply N. eapply H; eauto.
Qed.
(** Not even if no miss register is in use from the fence on. *)
Theorem c58_probe_conflict_refuted :
  ~ forall m0 l0 z c i o r z1 l z2 c' b i' o' r' z3 rs,
    freach (fsys0 m0) l0 z -> fstep z c false i o r z1 -> IcModel.c_fencei c = true ->
    freach (fobs z1) l z2 -> fstep z2 c' b i' o' r' z3 -> IcModel.o_rsp o' = Some rs ->
    (forall w, In w (l ++ [z2]) -> forall e, (e < 8)%nat -> me_valid (ms_ent (d_ms (y_d (m_y (f_m w)))) e) = false) ->
    exists pc, IcSpec.serving (f_i z2) c' = Some pc /\
      IcSpec.answer_ok (current m0 (length (y_hist (m_y (f_m z1)))) (y_hist (m_y (f_m z2)))) pc (IcSpec.pages (f_i z2) c') (IcModel.c_tr c' (pc / 4096)) rs.
Proof.
  intros H. destruct w_reqs as (_ & _ & Q1 & Q2).
  assert (WF : w_free true w2_pre w2_post = true) by (vm_compute; reflexivity).
  destruct (witness true w2_pre w2_post Q1 Q2) as (l0 & z & c & i & o & r & z1 & l & z2 & c' & b & i' & o' & r' & z3 & rs & A1 & A2 & A3 & A4 & A5 & A6 & FR & N); try (vm_compute; reflexivity).
  apply N. eapply H; eauto.
Qed.
(** Without the load in the way all sixteen probes hit, and the fetch is current. *)
Definition w3_post : list stim := [rest true quiet; a_fetch true 4104; rest true quiet] ++ repeat (rest true quiet) 48 ++ [a_acc true; rest true quiet].
Example c58_example_hit :
  let z1 := f_next 14 (f_runs 14 w2_pre (fsys0 ex_m)) (a_fence true) in
  let z2 := f_runs 14 w3_post (fobs z1) in
  f_okb 14 w3_post (fobs z1) = true /\
  match IcModel.o_rsp (fst (fst (f_run 14 z2 (a_ans true)))) with Some (_, _, ln) => map ln [1; 2; 3] | None => [] end = [ex_m 1025; 77; ex_m 1027].
Proof. vm_compute. split; reflexivity. Qed.
(** At the start every line is written back. *)
Example c58_example_clean x : clean ex_m (fsys0 ex_m) x.
Proof.
  split; [|intros e He H; discriminate H]. intros k Hk. unfold view, after_stores. cbn [fsys0 f_m msys0 m_y sys0 y_hist fold_left mem_of y_mem].
  unfold bytes_of. replace ((4 * x / 4 * 4 + k) / 4) with x by lia. replace ((4 * x / 4 * 4 + k) mod 4) with k by lia. reflexivity.
Qed.

Print Assumptions c58_probe_contract.
Print Assumptions c58_fetch_sources_partial.
Print Assumptions c58_clean_line_coherent.
Print Assumptions c58_store_then_fence_refuted.
Print Assumptions c58_probe_conflict_refuted.
