(** C56: the load/store unit's loads on the shared port.  C57: the requests that
    borrow the port. *)
From Verif Require Import Base BaseLemmas MemSpec MemModel MemProofs DcModel DcSpec DcLemmas DcInv DcStage DcMiss DcFill DcTick DcReach DcLoad DcRound RtModel RtSpec RtDc RtProofs RtTrace.
Ltac Zify.zify_post_hook ::= Z.div_mod_to_equations.
#[local] Opaque Z.pow Z.land Z.lor Z.shiftl Z.shiftr.

Lemma served_owner x w a : served x = Some (w, a) <-> (t_owner (m_rt x) = w /\ t_addr (m_rt x) = a /\ w <> ONone).
Proof. unfold served. destruct (t_owner (m_rt x)); split; try (intros H; injection H as <- <-; repeat split; auto; discriminate); try discriminate; intros (<- & <- & N); try reflexivity; congruence. Qed.

(** Who gets the port. *)
Theorem c57_served_exact x0 i0 r0 g0 x1 : mcycle x0 i0 r0 g0 x1 ->
  served x1 = winner (t_owner (m_rt x0)) (requests i0) /\
  g0 = match served x1 with Some (OIcache, _) | None => None | Some (o, _) => Some (o, t_id (m_rt x1)) end.
Proof.
  intros C. destruct C as [ti o y1 n y2 ro wait rq g rt LO ST CL RS RQ E F]. cbn [m_rt]. apply request_open in RQ. destruct RQ as (_ & _ & _ & _ & W).
  unfold served. cbn [m_rt]. destruct (winner _ _) as [[w a]|].
  - destruct W as (N & _ & _ & -> & -> & -> & -> & _). destruct w; auto; congruence.
  - destruct W as (_ & _ & -> & ->). auto.
Qed.

(** The published answer of port 1, seen by the routing block. *)
Lemma mine_some m0 x0 i0 r0 g0 x1 i1 r1 g1 x2 o a : mreach m0 x0 -> mcycle x0 i0 r0 g0 x1 -> mcycle x1 i1 r1 g1 x2 -> served x1 = Some (o, a) ->
  exists rq p wait q, comb_response p (m_rt x1) = (r1, wait) /\ t_wait (m_rt x2) = wait /\ pub m0 x0 rq p x1 x2 /\ la_ld1 p = Some q /\ lp_id q = t_id (m_rt x1) /\
    (lp_replay q = HIT -> word_since m0 x0 x2 a (lp_data q)) /\ rq_icache rq = (if owner_eqb o OIcache then 1 else 2)%nat /\
    t_rep (m_rt x1) = match rq_ld1 (rr_lsu i0) with Some l => Some (lq_id l) | None => None end /\ is_route (lp_id q) = true /\ rq_ld0 rq = rq_ld0 (rr_lsu i0).
Proof.
  intros R C0 C1 S. destruct (two_cycles m0 _ _ _ _ _ _ _ _ _ R C0 C1) as (w0 & rq & p & wait & RQ & RS & WT & PB). destruct (mreach_reach _ _ R) as [_ NX].
  pose proof (request_open _ _ _ _ _ _ RQ) as (L0 & _ & _ & _ & W). apply served_owner in S. destruct S as (S1 & S2 & S3).
  destruct (winner _ _) as [[o' a']|].
  - destruct W as (N & LD & IC & G & TO & TA & TI & TR). assert (o' = o) by congruence. assert (a' = a) by congruence. subst o' a'.
    pose proof (pb_l _ _ _ _ _ _ PB 1%nat ltac:(lia)) as P1. cbn [ldL] in P1. rewrite LD in P1. destruct P1 as (q & Q1 & Q2 & Q3). cbn [lq_id lq_addr] in *. cbn [latL] in Q1.
    exists rq, p, wait, q. rewrite S1 in IC. rewrite S2 in Q3. sp; auto; try (intros; congruence). rewrite Q2. apply route_hi. exact NX.
  - destruct W as (_ & _ & _ & W). congruence.
Qed.
Lemma mine_none m0 x0 i0 r0 g0 x1 i1 r1 g1 x2 : mreach m0 x0 -> mcycle x0 i0 r0 g0 x1 -> mcycle x1 i1 r1 g1 x2 -> served x1 = None ->
  exists rq p wait, comb_response p (m_rt x1) = (r1, wait) /\ t_wait (m_rt x2) = wait /\ pub m0 x0 rq p x1 x2 /\ t_owner (m_rt x1) = ONone /\ rq_ld0 rq = rq_ld0 (rr_lsu i0) /\ rq_ld1 rq = rq_ld1 (rr_lsu i0).
Proof.
  intros R C0 C1 S. destruct (two_cycles m0 _ _ _ _ _ _ _ _ _ R C0 C1) as (w0 & rq & p & wait & RQ & RS & WT & PB).
  pose proof (request_open _ _ _ _ _ _ RQ) as (L0 & _ & _ & _ & W). destruct (winner _ _) as [[o' a']|].
  - destruct W as (N & LD & IC & G & TO & TA & TI & TR). exfalso. unfold served in S. rewrite TO in S. destruct o'; congruence.
  - destruct W as (W1 & _ & _ & W). exists rq, p, wait. sp; auto.
Qed.

(** Every load the unit presents is answered in the next cycle, once, on its own
    port and with its own id; a hit carries the word; a load pushed aside is told
    to try again. *)
Theorem c56_lsu_load_answered m0 x0 i0 r0 g0 x1 i1 r1 g1 x2 k : mreach m0 x0 -> mcycle x0 i0 r0 g0 x1 -> mcycle x1 i1 r1 g1 x2 -> (k < 2)%nat ->
  match ldL k (rr_lsu i0) with
  | None => ansL k r1 = None
  | Some q => exists p, ansL k r1 = Some p /\ lp_id p = lq_id q /\ (lp_replay p = HIT -> word_since m0 x0 x2 (lq_addr q) (lp_data p)) /\
                (k = 1%nat -> served x1 <> None -> lp_replay p = CONFLICT)
  end.
Proof.
  intros R C0 C1 Hk. assert (LS : lsu_ok (rr_lsu i0)) by (destruct C0; auto). destruct LS as [LS0 LS1].
  assert (KEEP : forall (q : loadreq) a, 0 <= lq_id q < 2 ^ 31 -> lp_id a = lq_id q -> hide (Some a) = Some a) by (intros q a H1 H2; unfold hide; rewrite H2, route_lo by auto; reflexivity).
  destruct (served x1) as [[o a]|] eqn:S.
  - destruct (mine_some m0 _ _ _ _ _ _ _ _ _ _ _ R C0 C1 S) as (rq & p & wait & q & RS & WT & PB & LQ & QI & QH & IC & TR & QR & L0).
    unfold comb_response in RS. rewrite LQ, QI, Z.eqb_refl in RS. apply served_owner in S. destruct S as (S1 & S2 & S3). rewrite S1 in RS.
    assert (owner_eqb o ONone = false) as ON by (destruct o; try reflexivity; congruence). rewrite ON in RS. cbn [negb andb] in RS.
    assert (A0 : ro_l0 r1 = hide (la_ld0 p) /\ ro_l1 r1 = match t_rep (m_rt x1) with Some id => Some (mklp 0 CONFLICT id) | None => None end).
    { destruct (lp_replay q); injection RS as <- <-; auto. }
    destruct A0 as [A0 A1]. destruct k as [|[|k]]; [| |lia]; cbn [ldL ansL].
    + pose proof (pb_l _ _ _ _ _ _ PB 0%nat ltac:(lia)) as P0. cbn [ldL latL] in P0. rewrite L0 in P0. rewrite A0. destruct (rq_ld0 (rr_lsu i0)) as [l|]; [|rewrite P0; reflexivity].
      destruct P0 as (b & B1 & B2 & B3). rewrite B1. cbn [lsu_id] in LS0. exists b. rewrite (KEEP l b) by auto. sp; auto; try lia.
    + rewrite A1, TR. destruct (rq_ld1 (rr_lsu i0)) as [l|]; [|reflexivity]. eexists. sp; [reflexivity|reflexivity|discriminate|reflexivity].
  - destruct (mine_none m0 _ _ _ _ _ _ _ _ _ R C0 C1 S) as (rq & p & wait & RS & WT & PB & TO & L0 & L1).
    unfold comb_response in RS. rewrite TO in RS. cbn [owner_eqb negb andb] in RS.
    assert (A0 : ro_l0 r1 = hide (la_ld0 p) /\ ro_l1 r1 = hide (la_ld1 p)).
    { destruct (la_ld1 p); injection RS as <- <-; auto. }
    destruct A0 as [A0 A1].
    pose proof (pb_l _ _ _ _ _ _ PB k Hk) as P. destruct k as [|[|k]]; [| |lia]; cbn [ldL latL ansL] in *.
    + rewrite L0 in P. rewrite A0. destruct (rq_ld0 (rr_lsu i0)) as [l|]; [|rewrite P; reflexivity]. destruct P as (b & B1 & B2 & B3). rewrite B1. exists b. rewrite (KEEP l b) by auto. sp; auto. congruence.
    + rewrite L1 in P. rewrite A1. destruct (rq_ld1 (rr_lsu i0)) as [l|]; [|rewrite P; reflexivity]. destruct P as (b & B1 & B2 & B3). rewrite B1. exists b. rewrite (KEEP l b) by auto. sp; auto. congruence.
Qed.

(** A probe of the instruction cache is answered in the next cycle: with the word,
    or as a miss.  No other answer is given. *)
Theorem c57_probe_answered m0 x0 i0 r0 g0 x1 i1 r1 g1 x2 : mreach m0 x0 -> mcycle x0 i0 r0 g0 x1 -> mcycle x1 i1 r1 g1 x2 ->
  match served x1 with
  | Some (OIcache, a) => exists d, ro_ic r1 = Some d /\ forall w, d = Some w -> word_since m0 x0 x2 a w
  | _ => ro_ic r1 = None
  end.
Proof.
  intros R C0 C1. destruct (served x1) as [[o a]|] eqn:S.
  - destruct (mine_some m0 _ _ _ _ _ _ _ _ _ _ _ R C0 C1 S) as (rq & p & wait & q & RS & WT & PB & LQ & QI & QH & IC & TR & QR & L0).
    unfold comb_response in RS. rewrite LQ, QI, Z.eqb_refl in RS. apply served_owner in S. destruct S as (S1 & S2 & S3). rewrite S1 in RS.
    destruct o; [congruence| | | |]; cbn [owner_eqb negb andb] in RS; destruct (lp_replay q) eqn:H; injection RS as <- <-; cbn [ro_ic]; auto;
      eexists; (split; [reflexivity|]); intros w X; try discriminate; injection X as <-; auto.
  - destruct (mine_none m0 _ _ _ _ _ _ _ _ _ R C0 C1 S) as (rq & p & wait & RS & WT & PB & TO & L0 & L1).
    unfold comb_response in RS. rewrite TO in RS. cbn [owner_eqb negb andb] in RS. destruct (la_ld1 p); injection RS as <- <-; reflexivity.
Qed.
(** A page-table read served is in the next cycle answered with the word, or woken
    to ask again, or kept waiting for a line; just one of these, unless it was
    waiting already. *)
Theorem c57_read_answered m0 x0 i0 r0 g0 x1 i1 r1 g1 x2 o a : mreach m0 x0 -> mcycle x0 i0 r0 g0 x1 -> mcycle x1 i1 r1 g1 x2 ->
  served x1 = Some (o, a) -> o <> OIcache ->
  let ev := exists e, ro_ev r1 = Some e /\ v_owner e = o in let woken := flag o (ro_wake r1) = true in let waiting := flag o (t_wait (m_rt x2)) = true in
  (ev \/ woken \/ waiting) /\
  (flag o (t_wait (m_rt x1)) = false -> ~ (ev /\ woken) /\ ~ (ev /\ waiting) /\ ~ (woken /\ waiting)).
Proof.
  intros R C0 C1 S NI. cbv zeta.
  destruct (mine_some m0 _ _ _ _ _ _ _ _ _ _ _ R C0 C1 S) as (rq & p & wait & q & RS & WT & PB & LQ & QI & QH & IC & TR & QR & L0).
  unfold comb_response in RS. rewrite LQ, QI, Z.eqb_refl in RS. apply served_owner in S. destruct S as (S1 & S2 & S3). rewrite S1 in RS. rewrite WT.
  destruct o; try congruence; cbn [owner_eqb negb andb] in RS; destruct (lp_replay q) eqn:H, (la_fill p); injection RS as <- <-;
    cbn [ro_ev ro_wake flag p_dtlb p_itlb p_walk or3 only owner_eqb none3 orb]; (split; [eauto 6|intros WF; cbn [flag] in WF; rewrite ?WF]); sp; intros [X1 X2]; try discriminate; try (destruct X1 as (e & E & _); discriminate E).
Qed.
(** A word is handed out only for the read that asked for it. *)
Theorem c57_event_exact m0 x0 i0 r0 g0 x1 i1 r1 g1 x2 e : mreach m0 x0 -> mcycle x0 i0 r0 g0 x1 -> mcycle x1 i1 r1 g1 x2 -> ro_ev r1 = Some e ->
  served x1 = Some (v_owner e, v_addr e) /\ g0 = Some (v_owner e, v_id e) /\ word_since m0 x0 x2 (v_addr e) (v_data e).
Proof.
  intros R C0 C1 EV. destruct (c57_served_exact _ _ _ _ _ C0) as [_ G]. destruct (served x1) as [[o a]|] eqn:S.
  - destruct (mine_some m0 _ _ _ _ _ _ _ _ _ _ _ R C0 C1 S) as (rq & p & wait & q & RS & WT & PB & LQ & QI & QH & IC & TR & QR & L0).
    unfold comb_response in RS. rewrite LQ, QI, Z.eqb_refl in RS. apply served_owner in S. destruct S as (S1 & S2 & S3). rewrite S1 in RS.
    destruct o; [congruence| | | |]; cbn [owner_eqb negb andb] in RS; destruct (lp_replay q) eqn:H; injection RS as <- <-; cbn [ro_ev] in EV; try discriminate; injection EV as <-; cbn [v_owner v_addr v_id v_data]; rewrite S2; auto.
  - destruct (mine_none m0 _ _ _ _ _ _ _ _ _ R C0 C1 S) as (rq & p & wait & RS & WT & PB & TO & L0 & L1).
    unfold comb_response in RS. rewrite TO in RS. cbn [owner_eqb negb andb] in RS. destruct (la_ld1 p); injection RS as <- <-; discriminate.
Qed.
(** A requester is woken only if it asked in the cycle before or is waiting. *)
Theorem c57_wake_exact m0 x0 i0 r0 g0 x1 i1 r1 g1 x2 o : mreach m0 x0 -> mcycle x0 i0 r0 g0 x1 -> mcycle x1 i1 r1 g1 x2 -> flag o (ro_wake r1) = true ->
  (exists a, served x1 = Some (o, a)) \/ flag o (t_wait (m_rt x1)) = true.
Proof.
  intros R C0 C1 F. destruct (served x1) as [[o' a]|] eqn:S.
  - destruct (mine_some m0 _ _ _ _ _ _ _ _ _ _ _ R C0 C1 S) as (rq & p & wait & q & RS & WT & PB & LQ & QI & QH & IC & TR & QR & L0).
    unfold comb_response in RS. rewrite LQ, QI, Z.eqb_refl in RS. apply served_owner in S. destruct S as (S1 & S2 & S3). rewrite S1 in RS.
    destruct o', o; try (left; eauto; fail); right; cbn [owner_eqb negb andb] in RS; destruct (lp_replay q), (la_fill p); injection RS as <- <-; cbn in F; try discriminate F; exact F.
  - destruct (mine_none m0 _ _ _ _ _ _ _ _ _ R C0 C1 S) as (rq & p & wait & RS & WT & PB & TO & L0 & L1). right.
    unfold comb_response in RS. rewrite TO in RS. cbn [owner_eqb negb andb] in RS. destruct (la_ld1 p), (la_fill p); injection RS as <- <-; cbn [ro_wake] in F; auto; destruct o; discriminate F.
Qed.
(** The walker, once waiting, waits until it is woken, if the two other readers do
    not use the port. *)
Theorem c57_walk_not_forgotten m0 x0 i0 r0 g0 x1 i1 r1 g1 x2 : mreach m0 x0 -> mcycle x0 i0 r0 g0 x1 -> mcycle x1 i1 r1 g1 x2 ->
  (forall a, served x1 <> Some (ODtlb, a) /\ served x1 <> Some (OItlb, a)) ->
  flag OWalk (t_wait (m_rt x1)) = true -> flag OWalk (ro_wake r1) = true \/ flag OWalk (t_wait (m_rt x2)) = true.
Proof.
  intros R C0 C1 N F. cbn [flag] in *. destruct (served x1) as [[o' a]|] eqn:S.
  - destruct (mine_some m0 _ _ _ _ _ _ _ _ _ _ _ R C0 C1 S) as (rq & p & wait & q & RS & WT & PB & LQ & QI & QH & IC & TR & QR & L0).
    assert (NW : o' = OIcache -> lp_replay q = HIT \/ lp_replay q = CONFLICT).
    { intros ->. cbn [owner_eqb] in IC. pose proof (pb_w _ _ _ _ _ _ PB q LQ) as X. destruct (lp_replay q); auto; destruct (X eq_refl); congruence. }
    unfold comb_response in RS. rewrite LQ, QI, Z.eqb_refl in RS. pose proof S as S'. apply served_owner in S. destruct S as (S1 & S2 & S3). rewrite S1 in RS. rewrite WT.
    destruct o'; [congruence| |destruct (N a); congruence|destruct (N a); congruence|]; cbn [owner_eqb negb andb] in RS.
    + destruct (NW eq_refl) as [H|H]; rewrite H in RS; destruct (la_fill p); injection RS as <- <-; cbn [ro_wake p_walk or3 only owner_eqb orb]; auto.
    + destruct (lp_replay q), (la_fill p); injection RS as <- <-; cbn [ro_wake p_walk or3 only owner_eqb orb]; auto.
  - destruct (mine_none m0 _ _ _ _ _ _ _ _ _ R C0 C1 S) as (rq & p & wait & RS & WT & PB & TO & L0 & L1). rewrite WT.
    unfold comb_response in RS. rewrite TO in RS. cbn [owner_eqb negb andb] in RS. destruct (la_ld1 p), (la_fill p); injection RS as <- <-; cbn [ro_wake]; auto.
Qed.
(** Whoever waits, waits for something: a line written and about to be announced,
    or a miss register in use. *)
Theorem c57_wait_has_cause m0 x o : mreach m0 x -> flag o (t_wait (m_rt x)) = true ->
  la_fill (d_pend (y_d (m_y x))) <> None \/ exists e, (e < 8)%nat /\ me_valid (ms_ent (d_ms (y_d (m_y x))) e) = true.
Proof.
  intros R. revert o. induction R as [|x1 i1 r1 g1 x2 R IH C1]; intros o F; [destruct o; discriminate F|].
  change (la_fill (d_pend (y_d (m_y x2))) <> None \/ anyv (d_ms (y_d (m_y x2)))).
  destruct R as [|x0 i0 r0 g0 x1 R C0].
  - exfalso. destruct C1 as [ti oo ya n yb ro wait0 rq g rt LO ST CL RS RQ E Fs]. cbn [m_y m_rt msys0] in *. apply request_open in RQ. destruct RQ as (_ & _ & _ & TW & _).
    unfold comb_response in RS. cbn in RS. rewrite TW in F. destruct (la_ld1 _), (la_fill _); injection RS as <- <-; destruct o; discriminate F.
  - destruct (served x1) as [[o' a]|] eqn:S.
    + destruct (mine_some m0 _ _ _ _ _ _ _ _ _ _ _ R C0 C1 S) as (rq & p & wait & q & RS & WT & PB & LQ & QI & QH & IC & TR & QR & L0).
      pose proof (pb_w _ _ _ _ _ _ PB q LQ) as PW. pose proof (pb_k _ _ _ _ _ _ PB) as PK.
      unfold comb_response in RS. rewrite LQ, QI, Z.eqb_refl in RS. apply served_owner in S. destruct S as (S1 & S2 & S3). rewrite S1 in RS. rewrite WT in F.
      assert (owner_eqb o' ONone = false) as ON by (destruct o'; try reflexivity; congruence). rewrite ON in RS. cbn [negb andb] in RS.
      destruct (la_fill p) eqn:FL; [destruct (lp_replay q); injection RS as <- <-; destruct o; discriminate F|].
      destruct (lp_replay q) eqn:H; injection RS as <- <-; try (apply PK; auto; apply (IH o F)); apply PW; auto.
    + destruct (mine_none m0 _ _ _ _ _ _ _ _ _ R C0 C1 S) as (rq & p & wait & RS & WT & PB & TO & L0 & L1). pose proof (pb_k _ _ _ _ _ _ PB) as PK.
      unfold comb_response in RS. rewrite TO in RS. cbn [owner_eqb negb andb] in RS. rewrite WT in F.
      destruct (la_fill p) eqn:FL; [destruct (la_ld1 p); injection RS as <- <-; destruct o; discriminate F|].
      destruct (la_ld1 p); injection RS as <- <-; apply PK; auto; apply (IH o F).
Qed.
(** Nobody who matters starves: the instruction cache is served within two cycles
    of asking, the walker within three. *)
Theorem c57_probe_within_two x0 i0 r0 g0 x1 i1 r1 g1 x2 : mcycle x0 i0 r0 g0 x1 -> mcycle x1 i1 r1 g1 x2 -> rr_ic i0 <> None -> rr_ic i1 <> None ->
  exists x a, In x [x1; x2] /\ served x = Some (OIcache, a).
Proof.
  intros C0 C1 A0 A1. destruct (c57_served_exact _ _ _ _ _ C0) as [W0 _]. destruct (c57_served_exact _ _ _ _ _ C1) as [W1 _].
  unfold requests in *. destruct (rr_ic i0) as [a0|]; [|congruence]. destruct (rr_ic i1) as [a1|]; [|congruence]. cbn [winner] in W0, W1.
  destruct (owner_eqb OIcache (t_owner (m_rt x1))) eqn:E1; [|exists x2, a1; split; [right; now left|exact W1]].
  exists x1, (t_addr (m_rt x1)). split; [now left|]. apply served_owner. destruct (t_owner (m_rt x1)); try discriminate. repeat split; discriminate.
Qed.
Theorem c57_walk_within_three x0 i0 r0 g0 x1 i1 r1 g1 x2 i2 r2 g2 x3 : mcycle x0 i0 r0 g0 x1 -> mcycle x1 i1 r1 g1 x2 -> mcycle x2 i2 r2 g2 x3 ->
  rr_walk i0 <> None -> rr_walk i1 <> None -> rr_walk i2 <> None -> exists x a, In x [x1; x2; x3] /\ served x = Some (OWalk, a).
Proof.
  intros C0 C1 C2 A0 A1 A2. destruct (c57_served_exact _ _ _ _ _ C0) as [W0 _]. destruct (c57_served_exact _ _ _ _ _ C1) as [W1 _]. destruct (c57_served_exact _ _ _ _ _ C2) as [W2 _].
  unfold requests in *. destruct (rr_walk i1) as [a1|]; [|congruence]. destruct (rr_walk i2) as [a2|]; [|congruence].
  destruct (served x1) as [[o1 b1]|] eqn:S1; [pose proof (proj1 (served_owner _ _ _) S1) as (T1 & _ & N1)|assert (T1 : t_owner (m_rt x1) = ONone) by (unfold served in S1; destruct (t_owner (m_rt x1)); congruence)];
  (destruct (served x2) as [[o2 b2]|] eqn:S2; [pose proof (proj1 (served_owner _ _ _) S2) as (T2 & _ & N2)|assert (T2 : t_owner (m_rt x2) = ONone) by (unfold served in S2; destruct (t_owner (m_rt x2)); congruence)]);
  rewrite T1 in W1; rewrite T2 in W2; cbn [winner] in W1, W2;
  try (destruct o1; try congruence; try (exists x1, b1; split; [now left|exact S1]; fail)); try (destruct o2; try congruence; try (exists x2, b2; split; [right; now left|exact S2]; fail));
  destruct (rr_ic i1), (rr_ic i2); cbn [owner_eqb] in W1, W2; try discriminate; try (exists x3; eexists; split; [right; right; now left|exact W2]; fail).
Qed.

(** ** Examples: main memory with word [x] holding [1000 + x] *)
Definition ex_m : Z -> Z := fun x => 1000 + x.
Ltac rrok := repeat first [apply Forall_cons | apply Forall_nil]; repeat split; cbn; unfold is_w; lia.
Definition ex_at (l : list rreq) : msys := m_runs true 14 l (msys0 ex_m).
Definition ex_go (l : list rreq) (i : rreq) := m_run true 14 (ex_at l) i.
Lemma ex_ok b l : Forall rr_ok l -> mreach ex_m (m_runs b 14 l (msys0 ex_m)) /\ y_wr (m_y (m_runs b 14 l (msys0 ex_m))) = None.
Proof. intros F. apply m_runs_ok; auto. constructor. Qed.
(** A load on port 1 hits; the same load, pushed aside by the walker, is told to
    try again, and the walker gets its word. *)
Definition ex_warm : list rreq := [walk_in 4096; none_in; none_in].
Example c56_example :
  Forall rr_ok (ex_warm ++ [ld1_in 4100 5 None; none_in]) /\ Forall rr_ok (ex_warm ++ [ld1_in 4100 5 (Some 4104); none_in]) /\
  ro_l1 (fst (fst (ex_go (ex_warm ++ [ld1_in 4100 5 None]) none_in))) = Some (mklp (ex_m 1025) HIT 5) /\
  let r := fst (fst (ex_go (ex_warm ++ [ld1_in 4100 5 (Some 4104)]) none_in)) in
  ro_l1 r = Some (mklp 0 CONFLICT 5) /\ ro_ev r = Some (mkevt OWalk (ex_m 1026) 4104 (ROUTE_ID + 1)).
Proof. split; [rrok|]. split; [rrok|]. vm_compute. repeat split. Qed.
(** A probe of an absent line misses; after the line has come it hits. *)
Example c57_example_probe :
  ro_ic (fst (fst (ex_go [ic_in 4100] none_in))) = Some None /\ ro_ic (fst (fst (ex_go (ex_warm ++ [ic_in 4100]) none_in))) = Some (Some (ex_m 1025)).
Proof. vm_compute. repeat split. Qed.
(** With main memory silent the walker is kept waiting; when memory answers it is woken. *)
Example c57_example_wait :
  let x := m_runs false 14 [walk_in 4096; none_in] (msys0 ex_m) in
  mreach ex_m x /\ flag OWalk (t_wait (m_rt x)) = true /\
  flag OWalk (ro_wake (fst (fst (m_run true 14 (m_next true 14 x none_in) none_in)))) = true.
Proof. split; [apply ex_ok; rrok|]. vm_compute. repeat split. Qed.
(** One register serves all three readers: a second reader told to wait makes the
    block forget the first, which is then never woken. *)
Theorem c57_wait_forgotten_refuted :
  ~ forall m0 x0 i0 r0 g0 x1 i1 r1 g1 x2 o, mreach m0 x0 -> mcycle x0 i0 r0 g0 x1 -> mcycle x1 i1 r1 g1 x2 ->
      flag o (t_wait (m_rt x1)) = true -> flag o (ro_wake r1) = true \/ flag o (t_wait (m_rt x2)) = true.
Proof.
  intros H.
  pose (l := [dtlb_in 4096]). pose (x0 := m_runs false 14 l (msys0 ex_m)).
  destruct (ex_ok false l) as [R W]; [rrok|]. fold x0 in R, W.
  destruct (m_run_ok false 14 x0 (walk_in 8192) W) as [C0 W1]; [rrok|].
  destruct (m_run_ok false 14 _ none_in W1) as [C1 _]; [rrok|].
  specialize (H _ _ _ _ _ _ _ _ _ _ ODtlb R C0 C1). clear - H.
  assert (E : flag ODtlb (t_wait (m_rt (snd (m_run false 14 x0 (walk_in 8192))))) = true) by (vm_compute; reflexivity).
  assert (E1 : flag ODtlb (ro_wake (fst (fst (m_run false 14 (snd (m_run false 14 x0 (walk_in 8192))) none_in)))) = false) by (vm_compute; reflexivity).
  assert (E2 : flag ODtlb (t_wait (m_rt (snd (m_run false 14 (snd (m_run false 14 x0 (walk_in 8192))) none_in)))) = false) by (vm_compute; reflexivity).
  specialize (H E). rewrite E1, E2 in H. destruct H as [H|H]; discriminate H.
Qed.

Print Assumptions c56_lsu_load_answered.
Print Assumptions c57_served_exact.
Print Assumptions c57_probe_answered.
Print Assumptions c57_read_answered.
Print Assumptions c57_event_exact.
Print Assumptions c57_wake_exact.
Print Assumptions c57_walk_not_forgotten.
Print Assumptions c57_wait_has_cause.
Print Assumptions c57_probe_within_two.
Print Assumptions c57_walk_within_three.
Print Assumptions c57_wait_forgotten_refuted.
