(** The invariant of the instruction cache. *)
From Verif Require Import Base IcModel IcSpec IcProofs.
Ltac Zify.zify_post_hook ::= Z.div_mod_to_equations.

Definition lw (r : regs) : Z := r_ppn r * 1024 + idx_of (r_pc r) * 16.
Definition la (r : regs) : Z := line_addr (r_ppn r) (r_pc r).
Definition refilling (r : regs) : Prop := r_st r = SWAP_IN \/ r_st r = WAIT_DC.
Definition tab_ok (P : Z -> Z -> Prop) (t : tabs) : Prop :=
  forall ix way, fst (t_meta t ix way) = true -> forall n, 0 <= n < 16 -> P (snd (t_meta t ix way) * 1024 + ix * 16 + n) (t_data t ix way n).

Record J (strict : bool) (P : Z -> Z -> Prop) (r : regs) (t : tabs) (pend : option Z) (seen : list Z)
         (pres late : option (nat * Z)) (out : nat -> option (Z * bool)) (gone : nat -> bool)
         (pb0 pb1 : option (Z * bool)) : Prop := mkJ {
  j_pend : pend = if r_rv r then Some (r_pc r) else None;
  j_idle : r_st r = IDLE -> r_txv r = false /\ r_busy r = false;
  j_swap : r_st r = SWAP_IN -> r_rv r = true /\ r_txv r = true /\ (r_tx r < 16)%nat;
  j_wait : r_st r = WAIT_DC -> r_rv r = true /\ r_txv r = false /\ r_busy r = false;
  j_canc : r_st r = CANCEL_WAIT -> r_rv r = false /\ r_txv r = true /\ r_busy r = false /\ (r_tx r < 16)%nat;
  j_drain : r_st r <> DRAIN;
  j_out : forall k a f, out k = Some (a, f) -> (k < 16)%nat /\
          (gone k = true \/ (r_inf r k = true /\
             (r_can r k = true \/ (r_st r = SWAP_IN /\ r_busy r = true /\ r_tx r = k /\ a = la r /\ f = true))));
  j_busy : r_st r = SWAP_IN -> r_busy r = true ->
           r_inf r (r_tx r) = true /\ r_can r (r_tx r) = false /\ gone (r_tx r) = false /\ out (r_tx r) = Some (la r, true);
  j_free : (r_st r = SWAP_IN /\ r_busy r = false) \/ r_st r = CANCEL_WAIT -> r_inf r (r_tx r) = false /\ r_can r (r_tx r) = false;
  j_ci : forall k, r_can r k = true -> r_inf r k = true;
  j_ii : forall k, r_inf r k = true -> r_can r k = true \/ (r_st r = SWAP_IN /\ r_busy r = true /\ r_tx r = k);
  j_leak : strict = true -> forall k, r_inf r k = true -> out k <> None /\ gone k = false;
  j_pres : forall k a, pres = Some (k, a) -> r_st r = SWAP_IN /\ r_busy r = false /\ k = r_tx r /\ a = la r;
  j_late : forall k a, late = Some (k, a) ->
           (r_st r = SWAP_IN /\ r_busy r = false /\ r_seen r = true /\ k = r_tx r /\ a = la r) \/
           (r_st r = CANCEL_WAIT /\ k = r_tx r);
  j_pb0 : forall x f, pb0 = Some (x, f) -> refilling r -> r_pi r = true /\ x = la r + r_pw r * 4 /\ f = true;
  j_pb1 : forall x f, pb1 = Some (x, f) -> refilling r -> r_pi r = true -> x = la r + r_pw r * 4 /\ f = true;
  j_pi : r_pi r = true -> refilling r /\ r_pd r = false;
  j_pil : strict = true -> r_pi r = true -> pb0 <> None \/ pb1 <> None;
  j_pw : 0 <= r_pw r < 16;
  j_pl : refilling r -> forall n, 0 <= n < r_pw r -> P (lw r + n) (r_pl r n);
  j_pd : refilling r -> r_pd r = true -> r_ph r = true -> forall n, 0 <= n < 16 -> P (lw r + n) (r_pl r n);
  j_md : r_st r = WAIT_DC -> forall n, 0 <= n < 16 -> P (lw r + n) (r_md r n);
  j_tab : tab_ok P t;
  j_ppn : refilling r -> In (r_ppn r) seen /\ is_w 20 (r_ppn r) }.

Definition Jy strict P (y : sys) : Prop :=
  J strict P (ic_r (y_ic y)) (ic_t (y_ic y)) (y_pend y) (y_seen y) (y_pres y) (y_late y) (y_out y) (fun _ => false) (y_pb0 y) (y_pb1 y).

Lemma J0 : forall strict P, Jy strict P sys0.
Proof.
  intros. unfold Jy. split; cbn; intros; try discriminate; try congruence; auto; try lia.
  all: try (destruct H; discriminate).
Qed.

Lemma la_word : forall r n, is_w 20 (r_ppn r) -> la r / 4 + n = lw r + n.
Proof. unfold la, lw, is_w; intros. rewrite line_addr_eq by lia. lia. Qed.
Lemma la_word_p : forall r n, is_w 20 (r_ppn r) -> (la r + n * 4) / 4 = lw r + n.
Proof. unfold la, lw, is_w; intros. rewrite line_addr_eq by lia. lia. Qed.

(** What the call receives, in the shape used below. *)
Definition gone_of (c : cinp) (o : mout) : nat -> bool :=
  fun k => match c_rsp c with Some (id, _) => Nat.eqb id k && o_rrdy o | None => false end.
Definition late_of (y : sys) (c : cinp) : option (nat * Z) :=
  if c_ready c then match c_acc c with None => y_pres y | Some _ => None end else None.
Definition pb_of (o : mout) : option (Z * bool) := match o_probe o with Some x => Some (x, true) | None => None end.

Lemma offered_pres : forall strict P y, Jy strict P y -> forall k, offered y k <> None ->
  k = r_tx (ic_r (y_ic y)) /\
  ((r_st (ic_r (y_ic y)) = SWAP_IN /\ r_busy (ic_r (y_ic y)) = false /\ offered y k = Some (la (ic_r (y_ic y)))) \/
   (r_st (ic_r (y_ic y)) = CANCEL_WAIT)).
Proof.
  intros strict P y HJ k H. unfold offered in *.
  assert (Hp := j_pres _ _ _ _ _ _ _ _ _ _ _ _ HJ). assert (Hl := j_late _ _ _ _ _ _ _ _ _ _ _ _ HJ).
  assert (HL : forall v, match y_late y with Some (k', a) => if Nat.eqb k' k then Some a else None | None => None end = v ->
     v <> None -> k = r_tx (ic_r (y_ic y)) /\ ((r_st (ic_r (y_ic y)) = SWAP_IN /\ r_busy (ic_r (y_ic y)) = false /\ v = Some (la (ic_r (y_ic y)))) \/
       (r_st (ic_r (y_ic y)) = CANCEL_WAIT))).
  { intros v Hv Hn. destruct (y_late y) as [[k' a] |]; [| congruence].
    destruct (Nat.eqb_spec k' k); [subst k' | congruence].
    destruct (Hl k a eq_refl) as [[A [B [C [D E]]]] | [A B]]; split; auto. left; sp; congruence. }
  destruct (y_pres y) as [[k' a] |].
  - destruct (Nat.eqb_spec k' k).
    + subst k'. destruct (Hp k a eq_refl) as [A [B [C D]]]. split; [auto | left; sp; congruence].
    + apply (HL _ eq_refl H).
  - apply (HL _ eq_refl H).
Qed.

Ltac cb := cbn [s_req s_rdy s_st s_md s_ppn s_tx s_id s_inf s_pr clr_probe drop_miss
  r_rv r_pc r_rdy r_st r_busy r_md r_repl r_ppn r_txv r_tx r_seen r_inf r_can r_pi r_pd r_ph r_pw r_pl
  e_w e_rdy e_fast e_rsp e_mem e_rrdy e_probe e_lreq e_tw e_gnt
  o_rsp o_rdy o_mmu o_mem o_rrdy o_probe o_lreq o_tw fst snd] in *.


Lemma J_mk_idle : forall strict P r t pend seen out gone pb0 pb1,
  r_st r = IDLE -> r_txv r = false -> r_busy r = false -> r_pi r = false -> 0 <= r_pw r < 16 ->
  pend = (if r_rv r then Some (r_pc r) else None) ->
  (forall k a f, out k = Some (a, f) -> (k < 16)%nat /\ (gone k = true \/ (r_inf r k = true /\ r_can r k = true))) ->
  (forall k, r_can r k = true -> r_inf r k = true) -> (forall k, r_inf r k = true -> r_can r k = true) ->
  (strict = true -> forall k, r_inf r k = true -> out k <> None /\ gone k = false) ->
  tab_ok P t -> J strict P r t pend seen None None out gone pb0 pb1.
Proof.
  intros. assert (NR : ~ refilling r) by (intros [? | ?]; congruence).
  split; auto; intros; try congruence; try tauto.
  - destruct (H5 _ _ _ H10) as [A [B | [B C]]]; auto.
  - destruct H10 as [[A _] | A]; congruence.
Qed.
Lemma J_mk_canc : forall strict P r t pend seen late out gone pb0 pb1,
  r_st r = CANCEL_WAIT -> r_txv r = true -> (r_tx r < 16)%nat -> r_busy r = false -> r_pi r = false -> 0 <= r_pw r < 16 -> r_rv r = false ->
  pend = None -> r_inf r (r_tx r) = false -> r_can r (r_tx r) = false ->
  (forall k a, late = Some (k, a) -> k = r_tx r) ->
  (forall k a f, out k = Some (a, f) -> (k < 16)%nat /\ (gone k = true \/ (r_inf r k = true /\ r_can r k = true))) ->
  (forall k, r_can r k = true -> r_inf r k = true) -> (forall k, r_inf r k = true -> r_can r k = true) ->
  (strict = true -> forall k, r_inf r k = true -> out k <> None /\ gone k = false) ->
  tab_ok P t -> J strict P r t pend seen None late out gone pb0 pb1.
Proof.
  intros strict P r t pend seen late out gone pb0 pb1 H H0 Htx H1 H2 H3 H4 H5 H6 H7 H8 H9 H10 H10' H11 H12.
  assert (NR : ~ refilling r) by (intros [? | ?]; congruence).
  split; auto; intros; try congruence; try tauto.
  - rewrite H4. auto.
  - destruct (H9 _ _ _ H13) as [A [B | [B C]]]; auto.
  - right. split; auto. eapply H8; eauto.
Qed.
Lemma tab_keep : forall P f t, tab_ok P t -> tab_ok P (tab_write f None t).
Proof.
  unfold tab_ok, tab_write; cbn [t_meta t_data]; intros. destruct f; cbn [fst snd] in *; [discriminate | auto].
Qed.
Lemma tab_flush : forall P t, tab_ok P (tab_write true None t).
Proof. unfold tab_ok, tab_write; cbn [t_meta fst]; intros; discriminate. Qed.
Lemma tab_new : forall P ix way l tag t, tab_ok P t -> (forall n, 0 <= n < 16 -> P (tag * 1024 + ix * 16 + n) (l n)) ->
  tab_ok P (tab_write false (Some (ix, way, l, tag)) t).
Proof.
  unfold tab_ok, tab_write; cbn [t_meta t_data]; intros.
  destruct ((ix0 =? ix) && Nat.eqb way0 way) eqn:E; cbn [fst snd] in *; [| auto].
  apply andb_prop in E. destruct E as [E _]. apply Z.eqb_eq in E. subst. auto.
Qed.
