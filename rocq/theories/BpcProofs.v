(** C67: lemmas. *)
From Verif Require Import Base BaseLemmas FrontModel FrontSpec BpModel BpSpec BpProofs BpMain BpQueue BpProps.
From Verif Require Import TyModel TySpec TyProofs TyProps BtbModel BtbSpec BtbProofs BtbProps BpcModel BpcSpec.
From Coq Require Import Lia.
Local Open Scope nat_scope.

Lemma word_w32 x : word (w32 x).
Proof. unfold word. rewrite w32_M32. apply Z.mod_pos_bound. reflexivity. Qed.
Lemma bank_pc_eq pc : bank_pc pc = (pc / 4)%Z.
Proof. unfold bank_pc. rewrite Z.shiftr_div_pow2 by lia. reflexivity. Qed.

(** The target given was taken by some training, or is the fall-back. *)
Lemma predict_from h p ty : known h ->
  btb_predict (after h) p ty = w32 (p + 4) \/ exists u, In u h /\ jumped u = true /\ br_tgt u = btb_predict (after h) p ty.
Proof.
  intros K.
  assert (L: forall a, last_target h p = Some a -> exists u, In u h /\ jumped u = true /\ br_tgt u = a).
  { intros a H. unfold last_target in H. destruct (find _ h) as [u|] eqn:F; [|discriminate]. injection H as H.
    apply find_some in F. destruct F as [I F]. apply andb_true_iff in F. exists u. repeat split; [exact I|apply F|exact H]. }
  destruct (Z.eq_dec ty BR_IDIRECT) as [->|N].
  - destruct (c66_indirect_origin h p K) as [(u & I & J & _ & T)|[A|A]]; [right|right; now apply L|now left].
    exists u. split; [exact I|]. split; [|exact T]. unfold jumped. apply andb_true_iff in J. destruct J as [D J]. apply Z.eqb_eq in J. now rewrite D, J.
  - destruct (is_direct ty) eqn:D.
    + destruct (c66_direct_origin h p ty K D) as [A|A]; [right; now apply L|now left].
    + left. unfold btb_predict. apply Z.eqb_neq in N. now rewrite N, D.
Qed.

Definition fed (t : trace) : Prop := forall u, In u (committed t) -> word (u_pc u) /\ word (u_target u) /\ (0 <= u_type u <= 5)%Z.
Definition btb_hist (b : nat) (t : trace) : list btr := map btr_of (rev (trained b t)).

Lemma trained_committed t s b u : breach t s -> In u (trained b t) -> In u (committed t) /\ bank_of (u_pc u) = b.
Proof.
  intros R I. destruct (c63_trained_in_order t s b R) as (w & E & _).
  assert (J: In u (filter (of_bank b) (committed t))) by (rewrite E; apply in_or_app; now left).
  apply filter_In in J. destruct J as [J B]. split; [exact J|]. now apply Nat.eqb_eq in B.
Qed.
Lemma hist_in b t v : In v (btb_hist b t) -> exists u, In u (trained b t) /\ v = btr_of u.
Proof. unfold btb_hist. intros I. apply in_map_iff in I. destruct I as (u & E & I). exists u. split; [now apply in_rev|now symmetry]. Qed.
Lemma hist_known b t s : breach t s -> fed t -> known (btb_hist b t).
Proof.
  intros R F v I. destruct (hist_in b t v I) as (u & J & ->). destruct (trained_committed t s b u R J) as [C _]. exact (proj2 (proj2 (F u C))).
Qed.

Record cinv (t : trace) (s : cst) : Prop := {
  ci_b : breach t (c_bpu s);
  ci_t : yreach (commit_cycles t) (c_ty s);
  ci_k : forall b, c_btb s b = after (btb_hist b t);
  ci_f : fed t }.

Lemma bound_ok t s y : cinv t s -> cin_ok y -> bin_ok (bound_in s y).
Proof.
  intros [B _ K F] [A U]. split; [exact A|]. split; [|intros i u E; exact (proj1 (U i u E))].
  intros b a E. cbn [bound_in bi_btb] in E. unfold bank_target in E. destruct (pred_req _ _ b) as [p|]; [|discriminate]. injection E as <-. rewrite K.
  destruct (predict_from (btb_hist b t) p (bank_type s y b) (hist_known b t _ B F)) as [E|(v & I & _ & E)]; rewrite <- ?E; [rewrite E; apply word_w32|].
  destruct (hist_in b t v I) as (u & J & ->). cbn [btr_of br_tgt]. apply (F u). exact (proj1 (trained_committed t _ b u B J)).
Qed.
Lemma creach_inv t s : creach t s -> cinv t s.
Proof.
  induction 1 as [|t s y s' o R IH OK C].
  - split; [constructor|constructor|reflexivity|intros u []].
  - pose proof (bound_ok t s y IH OK) as BO. destruct IH as [B T K F]. unfold ccycle in C. destruct (bcycle (c_bpu s) (bound_in s y)) as [[b' o']|] eqn:E; [|discriminate].
    injection C as <- <-. split; cbn [c_bpu c_ty c_btb].
    + now constructor 2 with (c_bpu s).
    + cbn [commit_cycles map fst]. now constructor.
    + intros b. rewrite K. unfold btb_hist. cbn [trained]. destruct (bo_btb o' b) as [u|]; [|now rewrite app_nil_r].
      rewrite rev_app_distr. reflexivity.
    + intros u I. cbn [committed fst] in I. apply in_app_or in I. destruct I as [I|I]; [now apply F|].
      rewrite commits_eq in I. destruct OK as [_ OK]. cbn [bound_in bi_upd] in I.
      destruct (ci_upd y 0) as [u0|] eqn:E0, (ci_upd y 1) as [u1|] eqn:E1; cbn [app In] in I;
        repeat match type of I with _ \/ _ => destruct I as [I|I] end; try contradiction; subst; eauto.
Qed.

(** The target predictor of a slot's bank gets that slot's type. *)
Lemma bank_type_is s y i : word (p_pc (c_bpu s) (asked y)) -> i < 4 -> in_block (p_pc (c_bpu s) (asked y)) i = true ->
  bank_type s y (bank_of (pc_of (p_pc (c_bpu s) (asked y)) i)) = slot_type s y i.
Proof.
  intros W L B. unfold bank_type. set (pc := p_pc (c_bpu s) (asked y)) in *.
  assert (C: forall j, j < 4 -> p_on (c_bpu s) (asked y) j && (p_bank (c_bpu s) (asked y) j =? bank_of (pc_of pc i)) = (j =? i)).
  { intros j Lj. rewrite p_on_spec by assumption. rewrite p_bank_eq. fold pc. destruct (Nat.eqb_spec j i) as [->|N].
    - rewrite B, Nat.eqb_refl. reflexivity.
    - destruct (in_block pc j) eqn:Bj; [|reflexivity]. cbn [andb]. apply Nat.eqb_neq. intros X. apply N. now apply (bank_inj pc). }
  change (seq 0 NF) with [0; 1; 2; 3]. cbn [fold_left]. rewrite !C by lia.
  assert (D: i = 0 \/ i = 1 \/ i = 2 \/ i = 3) by lia. destruct D as [-> | [-> | [-> | -> ] ] ]; reflexivity.
Qed.
Lemma bank_target_is s y i : word (p_pc (c_bpu s) (asked y)) -> p_do (c_bpu s) (asked y) = true -> i < 4 ->
  in_block (p_pc (c_bpu s) (asked y)) i = true -> let pc := pc_of (p_pc (c_bpu s) (asked y)) i in
  bank_target s y (bank_of pc) = Some (btb_predict (c_btb s (bank_of pc)) (pc / 4)%Z (slot_type s y i)).
Proof.
  intros W D L B pc. unfold bank_target. unfold pc. rewrite (pred_req_is (c_bpu s) (asked y) i) by assumption. now rewrite bank_type_is.
Qed.
Lemma first_taken_in pc dir n : forall j i, first_taken pc dir n j = Some i -> j <= i < j + n /\ in_block pc i = true /\ dir i = true /\
  forall k, j <= k < i -> in_block pc k && dir k = false.
Proof.
  induction n as [|n IH]; intros j i H; [discriminate|]. cbn [first_taken] in H. destruct (in_block pc j && dir j) eqn:A.
  - injection H as <-. apply andb_true_iff in A. split; [lia|]. split; [apply A|]. split; [apply A|]. intros k Hk. lia.
  - destruct (IH _ _ H) as (P & Q & R & S). split; [lia|]. split; [exact Q|]. split; [exact R|]. intros k Hk.
    destruct (Nat.eq_dec k j) as [->|N]; [exact A|]. apply S. lia.
Qed.

(** The slot's predicted type *)
Definition kind (s : cst) (pc : Z) : Z := ty_of (ty_predict (c_ty s) pc).

Lemma comp_prediction t s y s' o : creach t s -> cin_ok y -> (forall b, ci_tage y b <> None) ->
  ccycle s y = Some (s', o) -> bo_ptab o = true ->
  let pc0 := b_pc (c_bpu s) in
  bo_pc o = pc0 /\ b_pc (c_bpu s') = bo_next o /\
  (forall i, i < 4 -> bo_dir o i = match ci_tage y (bank_of (pc_of pc0 i)) with
      Some (d, _) => in_block pc0 i && jumps (kind s (pc_of pc0 i)) d | None => in_block pc0 i && jumps (kind s (pc_of pc0 i)) false end) /\
  bo_next o = match first_taken pc0 (bo_dir o) 4 0 with
    | Some i => let pc := pc_of pc0 i in
        target (kind s pc) (hd_error (spec_sk t)) (btb_predict (c_btb s (bank_of pc)) (pc / 4)%Z (kind s pc))
    | None => block_end pc0 end.
Proof.
  intros R OK TG C PT pc0. pose proof (creach_inv t s R) as I. pose proof (bound_ok t s y I OK) as BO. destruct I as [B _ _ _].
  unfold ccycle in C. destruct (bcycle (c_bpu s) (bound_in s y)) as [[b' o']|] eqn:E; [|discriminate]. injection C as <- <-. cbn [c_bpu].
  assert (EP: p_do (c_bpu s) (asked y) = true /\ p_pc (c_bpu s) (asked y) = pc0).
  { destruct (bcycle_inv _ _ _ _ E) as (e & wr & cnt & _ & _ & EO). rewrite EO in PT. cbn [bo_ptab] in PT.
    apply andb_true_iff in PT. destruct PT as [D NR]. split; [exact D|]. cbn [bound_in bi_refetch] in NR. apply negb_true_iff in NR.
    unfold p_pc. cbn [asked bi_refetch]. now rewrite NR. }
  destruct EP as [D EP].
  assert (W: word (p_pc (c_bpu s) (asked y))) by exact (p_pc_word t (c_bpu s) (bound_in s y) (breach_inv t _ B) BO).
  assert (ST: forall i, slot_type s y i = kind s (pc_of pc0 i)).
  { intros i. unfold slot_type, kind, ty_of. now rewrite EP, slot_pc_eq. }
  destruct (c62_prediction t (c_bpu s) (bound_in s y) b' o' B BO E PT) as (P1 & P2 & P3 & P4).
  { intros b NN. split; [|apply TG]. cbn [bound_in bi_btb]. unfold bank_target. change (pred_req (c_bpu s) (bound_in s y) b) with (pred_req (c_bpu s) (asked y) b) in NN.
    destruct (pred_req (c_bpu s) (asked y) b); [discriminate|congruence]. }
  fold pc0 in P1, P2, P3. split; [exact P1|]. split; [exact P4|]. split.
  - intros i L. destruct (P2 i) as [Q|Q]; [|lia]. rewrite Q. cbn [bound_in bi_tage bi_type]. now rewrite ST.
  - destruct (first_taken pc0 (bo_dir o') 4 0) as [i|] eqn:F; [|now injection P3].
    destruct (first_taken_in _ _ _ _ _ F) as (L & Bl & _). cbn [bound_in bi_btb bi_type] in P3.
    rewrite <- EP in P3 at 1. rewrite bank_target_is in P3 by (assumption || lia || (rewrite EP; assumption)).
    rewrite EP, ST in P3. cbv zeta. now injection P3.
Qed.
