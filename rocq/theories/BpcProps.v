(** C67: where the front end fetches next, with the predictors' tables. *)
From Verif Require Import Base BaseLemmas IsaSpec FrontModel FrontSpec BpModel BpSpec BpProofs BpMain BpQueue BpProps.
From Verif Require Import TyModel TySpec TyProofs TyProps BtbModel BtbSpec BtbProofs BtbProps BpcModel BpcSpec BpcProofs.
From Coq Require Import Lia.
Local Open Scope nat_scope.

Section CYCLE.
  Variables (t : trace) (s : cst) (y : cinp) (s' : cst) (o : bout).
  Hypothesis R : creach t s.
  Hypothesis OK : cin_ok y.
  Hypothesis TG : forall b, ci_tage y b <> None.
  Hypothesis C : ccycle s y = Some (s', o).
  Hypothesis PT : bo_ptab o = true.
  Let pc0 := b_pc (c_bpu s).

  Lemma jumped_taken u : jumped (btr_of u) = true <-> taken u.
  Proof.
    unfold jumped, taken. cbn [btr_of br_dir br_type]. rewrite andb_true_iff, negb_true_iff, Z.eqb_neq. reflexivity.
  Qed.
  (** Fetch goes on after the block, to the return address on top of the stack, to
      a target some committed taken transfer had, or to a quarter of the address. *)
  Theorem c67_where :
    match first_taken pc0 (bo_dir o) 4 0 with
    | None => bo_next o = block_end pc0
    | Some i => let pc := pc_of pc0 i in
        (kind s pc = BR_RET /\ hd_error (spec_sk t) = Some (bo_next o)) \/
        (exists u, In u (committed t) /\ taken u /\ bank_of (u_pc u) = bank_of pc /\ u_target u = bo_next o) \/
        bo_next o = w32 (pc / 4 + 4)
    end.
  Proof.
    destruct (comp_prediction t s y s' o R OK TG C PT) as (_ & _ & _ & E). fold pc0 in E. rewrite E. clear E.
    pose proof (creach_inv t s R) as [B _ K F].
    destruct (first_taken pc0 (bo_dir o) 4 0) as [i|]; [|reflexivity]. cbv zeta. set (pc := pc_of pc0 i). rewrite K.
    set (b := bank_of pc). set (a := btb_predict _ _ _).
    assert (G: (exists u, In u (committed t) /\ taken u /\ bank_of (u_pc u) = b /\ u_target u = a) \/ a = w32 (pc / 4 + 4)).
    { destruct (predict_from (btb_hist b t) (pc / 4)%Z (kind s pc) (hist_known b t _ B F)) as [A|(v & I & J & A)]; [now right|left].
      destruct (hist_in b t v I) as (u & H & ->). destruct (trained_committed t _ b u B H) as [H1 H2]. exists u. split; [exact H1|].
      split; [now apply jumped_taken|]. split; [exact H2|]. exact A. }
    unfold target. destruct (Z.eqb_spec (kind s pc) 2) as [K2|K2]; [|now right].
    destruct (hd_error (spec_sk t)) as [r|]; [left; split; [exact K2|reflexivity]|now right].
  Qed.

  Lemma last_taken_of b pc a : b = bank_of pc -> last_target (btb_hist b t) (pc / 4)%Z = Some a -> (forall u, In u (trained b t) -> bank_of (u_pc u) = b) ->
    last_taken (trained b t) pc a.
  Proof.
    intros EB H HB. unfold last_target, btb_hist in H. destruct (find _ _) as [v|] eqn:F; [|discriminate]. injection H as H.
    assert (G: forall l, (forall u, In u l -> bank_of (u_pc u) = b) -> find (fun u => jumped u && same_place (br_pc u) (pc / 4)) (map btr_of (rev l)) = Some v ->
      exists l1 u r, l = l1 ++ u :: r /\ taken u /\ at_place u pc /\ v = btr_of u /\ forall w, In w r -> taken w -> ~ at_place w pc).
    { intros l. induction l as [|u l IH] using rev_ind; intros HL X; [discriminate|]. rewrite rev_app_distr in X. cbn [rev app map find] in X.
      destruct (jumped (btr_of u) && same_place (br_pc (btr_of u)) (pc / 4)) eqn:M.
      - injection X as X. apply andb_true_iff in M. destruct M as [M1 M2]. cbn [btr_of br_pc] in M2. rewrite bank_pc_eq in M2.
        exists l, u, []. split; [reflexivity|]. split; [now apply jumped_taken|].
        split; [split; [rewrite <- EB; apply HL, in_or_app; right; now left|exact M2]|]. split; [now symmetry|intros w []].
      - destruct IH as (l1 & u0 & r & E & T0 & P0 & V & N); [intros w I; apply HL, in_or_app; now left|exact X|].
        exists l1, u0, (r ++ [u]). split; [rewrite E, <- app_assoc; reflexivity|]. split; [exact T0|]. split; [exact P0|]. split; [exact V|].
        intros w I T. apply in_app_or in I. destruct I as [I|[<-|[]]]; [now apply N|]. intros [_ P]. apply jumped_taken in T.
        cbn [btr_of br_pc] in M. rewrite bank_pc_eq, T, P in M. discriminate. }
    destruct (G (trained b t) HB F) as (l1 & u & r & E & T0 & P & V & N). exists l1, u, r. rewrite V in H. cbn [btr_of br_tgt] in H.
    repeat (split; [assumption|]). exact N.
  Qed.
  Lemma no_last_taken b pc : b = bank_of pc -> last_target (btb_hist b t) (pc / 4)%Z = None ->
    forall u, In u (trained b t) -> taken u -> ~ at_place u pc.
  Proof.
    intros EB H u I T [_ P]. unfold last_target in H. destruct (find _ _) eqn:F; [discriminate|].
    pose proof (find_none _ _ F (btr_of u)) as X. cbn beta in X. apply jumped_taken in T. cbn [btr_of br_pc] in X. rewrite bank_pc_eq, P in X.
    rewrite T in X. discriminate X. unfold btb_hist. apply in_map. now apply -> in_rev.
  Qed.
  (** Conditional branches, jumps and calls: the target of the latest taken transfer
      trained at this place. *)
  Theorem c67_direct i : first_taken pc0 (bo_dir o) 4 0 = Some i -> let pc := pc_of pc0 i in
    kind s pc = BR_DIRECT \/ kind s pc = BR_CALL \/ kind s pc = BR_JAL ->
    last_taken (trained (bank_of pc) t) pc (bo_next o) \/ bo_next o = w32 (pc / 4 + 4).
  Proof.
    intros F pc KD. destruct (comp_prediction t s y s' o R OK TG C PT) as (_ & _ & _ & E). fold pc0 in E. rewrite F in E. cbv zeta in E. fold pc in E.
    pose proof (creach_inv t s R) as [B _ K FD]. rewrite K in E.
    assert (ID: is_direct (kind s pc) = true) by (destruct KD as [-> | [-> | -> ] ]; reflexivity).
    assert (NR: (kind s pc =? 2)%Z = false) by (destruct KD as [-> | [-> | -> ] ]; reflexivity).
    unfold target in E. rewrite NR in E.
    destruct (c66_direct_origin (btb_hist (bank_of pc) t) (pc / 4)%Z (kind s pc) (hist_known _ t _ B FD) ID) as [A|A]; rewrite <- E in A; [left|now right].
    apply last_taken_of; [reflexivity|exact A|]. intros u I. exact (proj2 (trained_committed t _ _ u B I)).
  Qed.

  (** In a program whose branches fit, a jump or call that is the first branch of
      its block is followed: the type tables hold at most two branches of its set,
      committed in different cycles, the target table at most four. *)
  Theorem c67_followed i T : i < 4 -> in_block pc0 i = true -> let pc := pc_of pc0 i in
    (forall j u, j < i -> In u (committed t) -> same_key (u_pc u) (pc_of pc0 j) -> u_type u = BR_NONCTL) ->
    last_said (commit_cycles t) pc = BR_JAL \/ last_said (commit_cycles t) pc = BR_CALL ->
    one_at_a_time (commit_cycles t) pc ->
    (exists p q, forall u, In u (committed t) -> same_set (u_pc u) pc -> u_type u <> BR_NONCTL -> same_key (u_pc u) p \/ same_key (u_pc u) q) ->
    (exists qs, length qs <= 4 /\ forall u, In u (committed t) -> taken u -> bank_of (u_pc u) = bank_of pc ->
       btb_idx (u_pc u / 4) = btb_idx (pc / 4) -> exists q, In q qs /\ same_place (u_pc u / 4) q = true) ->
    last_taken (trained (bank_of pc) t) pc T ->
    bo_next o = T /\ bo_dir o i = true /\ b_pc (c_bpu s') = T.
  Proof.
    intros L Bl pc NB LS ONE (p & q & TWO) (qs & FQ & FOUR) LT.
    destruct (comp_prediction t s y s' o R OK TG C PT) as (_ & P4 & DIR & E). fold pc0 in E, DIR.
    pose proof (creach_inv t s R) as [B YR K FD].
    assert (IC: forall us a ty, In us (commit_cycles t) -> In (a, ty) us -> exists u, In u (committed t) /\ u_pc u = a /\ u_type u = ty).
    { intros us a ty I J. unfold commit_cycles in I. apply in_map_iff in I. destruct I as (c & <- & I). apply in_map_iff in J.
      destruct J as (u & EU & J). injection EU as E1 E2. exists u. split; [|now split]. clear - I J. induction t as [|c' t' IH]; [destruct I|].
      cbn [committed]. apply in_or_app. destruct I as [->|I]; [now right|left; now apply IH]. }
    assert (KE: kind s pc = last_said (commit_cycles t) pc).
    { apply (c65_exact (commit_cycles t) (c_ty s) pc p q YR ONE). intros us a ty I J SS NN.
      destruct (IC us a ty I J) as (u & I' & <- & <-). now apply TWO. }
    assert (KJ: kind s pc = BR_JAL \/ kind s pc = BR_CALL) by now rewrite KE.
    assert (KN: forall j, j < i -> kind s (pc_of pc0 j) = BR_NONCTL).
    { intros j Lj. destruct (Z.eq_dec (kind s (pc_of pc0 j)) BR_NONCTL) as [Q|Q]; [exact Q|exfalso].
      destruct (c65_origin _ _ _ YR Q) as (later & us & earlier & EH & (a & p0 & b & EU & SK & _) & _).
      destruct (IC us p0 (kind s (pc_of pc0 j))) as (u & I' & U1 & U2).
      - rewrite EH. apply in_or_app. right. now left.
      - rewrite EU. apply in_or_app. right. now left.
      - apply Q. rewrite <- U2. rewrite <- U1 in SK. exact (NB j u Lj I' SK). }
    assert (DI: bo_dir o i = true).
    { rewrite DIR by exact L. rewrite Bl. fold pc. destruct (ci_tage y (bank_of pc)) as [[d m]|]; destruct KJ as [-> | -> ]; reflexivity. }
    assert (FT: first_taken pc0 (bo_dir o) 4 0 = Some i).
    { assert (G: forall n j, j <= i < j + n -> j + n <= 4 -> first_taken pc0 (bo_dir o) n j = Some i).
      { induction n as [|n IH]; intros j Hj Hn; [lia|]. cbn [first_taken]. destruct (Nat.eq_dec j i) as [->|N]; [now rewrite Bl, DI|].
        rewrite DIR by lia. rewrite KN by lia. unfold jumps. cbn [Z.eqb]. change (BR_NONCTL =? 4)%Z with true. cbv iota.
        rewrite !andb_false_r. destruct (ci_tage y _) as [[d m]|]; rewrite ?andb_false_r; apply IH; lia. }
      apply G; lia. }
    rewrite FT in E. cbv zeta in E. fold pc in E. rewrite K in E.
    assert (ID: is_direct (kind s pc) = true) by (destruct KJ as [-> | -> ]; reflexivity).
    assert (NR: (kind s pc =? 2)%Z = false) by (destruct KJ as [-> | -> ]; reflexivity).
    unfold target in E. rewrite NR in E.
    rewrite (c66_direct_exact _ _ _ qs (hist_known _ t _ B FD) ID FQ) in E.
    2: { intros v I J X. destruct (hist_in _ _ _ I) as (u & H & ->). destruct (trained_committed t _ _ u B H) as [H1 H2].
         cbn [btr_of br_pc] in *. rewrite bank_pc_eq in *. apply FOUR; [exact H1|now apply jumped_taken|exact H2|exact X]. }
    assert (HT: last_target (btb_hist (bank_of pc) t) (pc / 4)%Z = Some T).
    { destruct LT as (l & u & r & EL & TU & PU & UT & NN). unfold last_target, btb_hist. rewrite EL, rev_app_distr. cbn [rev].
      rewrite !map_app.
      assert (HB: forall v, In v r -> bank_of (u_pc v) = bank_of pc).
      { intros v I. apply (trained_committed t _ _ v B). rewrite EL. apply in_or_app. right. now right. }
      clear - TU PU UT NN HB.
      assert (G: forall rr, (forall v, In v rr -> taken v -> ~ at_place v pc) -> forall k,
         (forall v, In v rr -> bank_of (u_pc v) = bank_of pc) ->
         find (fun u => jumped u && same_place (br_pc u) (pc / 4)) (map btr_of rr ++ k) = find (fun u => jumped u && same_place (br_pc u) (pc / 4)) k).
      { induction rr as [|w rr IH]; intros N k HK; [reflexivity|]. cbn [map app find].
        destruct (jumped (btr_of w) && same_place (br_pc (btr_of w)) (pc / 4)) eqn:M.
        - exfalso. apply andb_true_iff in M. destruct M as [M1 M2]. cbn [btr_of br_pc] in M2. rewrite bank_pc_eq in M2.
          apply (N w (or_introl eq_refl)); [now apply jumped_taken|]. split; [apply HK; now left|exact M2].
        - apply IH; [intros v I; apply N; now right|intros v I; apply HK; now right]. }
      rewrite <- app_assoc, G.
      - cbn [map app find]. rewrite (proj2 (jumped_taken u) TU). destruct PU as [_ PU]. cbn [btr_of br_pc br_tgt]. rewrite bank_pc_eq, PU. cbn [andb btr_of br_tgt]. f_equal. exact UT.
      - intros v I. apply NN. now apply in_rev.
      - intros v I. apply HB. now apply in_rev. }
    rewrite HT in E. rewrite P4. now repeat split.
  Qed.

  (** A branch that is to be taken for the first time is not followed: fetch goes
      to a quarter of its address. *)
  Theorem c67_first_taken_refuted i : first_taken pc0 (bo_dir o) 4 0 = Some i -> let pc := pc_of pc0 i in
    kind s pc = BR_DIRECT -> (forall u, In u (committed t) -> taken u -> ~ at_place u pc) ->
    bo_next o = w32 (pc / 4 + 4) /\ b_pc (c_bpu s') = w32 (pc / 4 + 4).
  Proof.
    intros F pc KD N. destruct (comp_prediction t s y s' o R OK TG C PT) as (_ & P4 & _). rewrite P4.
    pose proof (creach_inv t s R) as [B _ _ _].
    destruct (c67_direct i F (or_introl KD)) as [(l & u & r & E & T & P & _)|A]; [exfalso|now split].
    apply (N u); [|exact T|exact P]. apply (trained_committed t _ (bank_of pc) u B). fold pc in E. rewrite E. apply in_or_app. right. now left.
  Qed.
End CYCLE.

(** Within 256 KiB only the instruction itself shares its target entry. *)
Theorem c67_own_entry u pc : word (u_pc u) -> word pc -> (u_pc u mod 4 = 0)%Z -> (pc mod 4 = 0)%Z ->
  (u_pc u / 2 ^ 18 = pc / 2 ^ 18)%Z -> at_place u pc -> u_pc u = pc.
Proof.
  intros W W' A A' E [Bk P]. unfold word in W, W'.
  assert (Q: (u_pc u / 4 / 4 = pc / 4 / 4)%Z).
  { apply c66_told_apart; [apply Z.div_pos; lia|apply Z.div_pos; lia| |exact P]. rewrite !Z.div_div by lia. exact E. }
  unfold bank_of in Bk. apply Z2Nat.inj in Bk; try (apply Z.mod_pos_bound; lia).
  assert (X: (u_pc u / 4 = pc / 4)%Z) by (rewrite (Z.div_mod (u_pc u / 4) 4), (Z.div_mod (pc / 4) 4) by lia; now rewrite Q, Bk).
  rewrite (Z.div_mod (u_pc u) 4), (Z.div_mod pc 4) by lia. now rewrite A, A', X.
Qed.

(** *** Runs *)
Fixpoint crun (ys : list cinp) (t : trace) (s : cst) : option (trace * cst) :=
  match ys with
  | [] => Some (t, s)
  | y :: ys => match ccycle s y with Some (s', o) => crun ys ((bound_in s y, o) :: t) s' | None => None end
  end.
Lemma crun_reach ys : forall t s t' s', creach t s -> (forall y, In y ys -> cin_ok y) -> crun ys t s = Some (t', s') -> creach t' s'.
Proof.
  induction ys as [|y ys IH]; intros t s t' s' R H E; cbn [crun] in E; [injection E as <- <-; exact R|].
  destruct (ccycle s y) as [[s1 o]|] eqn:C; [|discriminate]. apply (IH _ _ _ _ (cr_step t s y s1 o R (H y (or_introl eq_refl)) C)); [|exact E].
  intros z I. apply H. now right.
Qed.
Definition c67_at (d : bool) : cinp := CIn false 0 true (fun _ => None) (fun _ => Some (d, 0%Z)).
Definition c67_go (a : Z) : cinp := CIn true a false (fun _ => None) (fun _ => Some (false, 0%Z)).
Definition c67_commit (u : upd) : cinp := CIn false 0 false (fun i => match i with O => Some u | _ => None end) (fun _ => Some (false, 0%Z)).
Lemma c67_ok ys : forallb (fun y => (0 <=? ci_addr y)%Z && (ci_addr y <? M32)%Z &&
  match ci_upd y 0 with Some u => (0 <=? u_pc u)%Z && (u_pc u <? M32)%Z && (0 <=? u_target u)%Z && (u_target u <? M32)%Z && (0 <=? u_type u)%Z && (u_type u <=? 5)%Z | None => true end) ys = true ->
  (forall y, In y ys -> forall i u, ci_upd y (S i) = Some u -> False) -> forall y, In y ys -> cin_ok y.
Proof.
  intros H N y I. rewrite forallb_forall in H. specialize (H y I). rewrite !andb_true_iff in H. destruct H as ((H1 & H2) & H3).
  split; [unfold word; lia|]. intros [|i] u E; [|destruct (N y I i u E)]. rewrite E in H3. unfold word. lia.
Qed.
(** A branch at 0x80001000 committed once as not taken, then predicted taken: fetch
    goes to 0x20000404. *)
Definition c67_cold : list cinp :=
  [c67_commit (Upd 2147487744 false BR_DIRECT 2147487748 false 0); c67_go 2147487744; c67_at true].
Example c67_first_taken_ex : exists t s, crun c67_cold [] cst0 = Some (t, s) /\ creach t s /\ b_pc (c_bpu s) = 536871940%Z.
Proof.
  destruct (crun c67_cold [] cst0) as [[t s]|] eqn:E.
  - exists t, s. split; [reflexivity|]. split.
    + refine (crun_reach c67_cold [] cst0 t s cr_init _ E). apply c67_ok; [vm_compute; reflexivity|].
      intros y [<-|[<-|[<-|[]]]] i u X; discriminate X.
    + assert (G: match crun c67_cold [] cst0 with Some (_, s) => b_pc (c_bpu s) | None => 0%Z end = 536871940%Z) by (vm_compute; reflexivity).
      rewrite E in G. exact G.
  - assert (G: match crun c67_cold [] cst0 with Some _ => true | None => false end = true) by (vm_compute; reflexivity).
    rewrite E in G. discriminate.
Qed.
(** A jump from 0x80001008 to 0x80002000, committed once, is followed. *)
Definition c67_warm : list cinp :=
  [c67_commit (Upd 2147487752 true BR_JAL 2147491840 false 0); c67_go 2147487744; c67_at true].
Example c67_followed_ex : exists t s, crun c67_warm [] cst0 = Some (t, s) /\ creach t s /\ b_pc (c_bpu s) = 2147491840%Z.
Proof.
  destruct (crun c67_warm [] cst0) as [[t s]|] eqn:E.
  - exists t, s. split; [reflexivity|]. split.
    + refine (crun_reach c67_warm [] cst0 t s cr_init _ E). apply c67_ok; [vm_compute; reflexivity|].
      intros y [<-|[<-|[<-|[]]]] i u X; discriminate X.
    + assert (G: match crun c67_warm [] cst0 with Some (_, s) => b_pc (c_bpu s) | None => 0%Z end = 2147491840%Z) by (vm_compute; reflexivity).
      rewrite E in G. exact G.
  - assert (G: match crun c67_warm [] cst0 with Some _ => true | None => false end = true) by (vm_compute; reflexivity).
    rewrite E in G. discriminate.
Qed.

Print Assumptions c67_where.
Print Assumptions c67_direct.
Print Assumptions c67_followed.
Print Assumptions c67_first_taken_refuted.
Print Assumptions c67_own_entry.
