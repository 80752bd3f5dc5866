(** Proofs about the reorder buffer. *)
From Verif Require Import Base BaseLemmas ExecModel RobModel RobSpec.
Local Open Scope nat_scope.
Ltac Zify.zify_post_hook ::= Z.div_mod_to_equations.

Definition LB : nat -> nat -> list rentry -> list (nat * ruop) :=
  fix go (l b : nat) (bs : list rentry) : list (nat * ruop) :=
    match bs with
    | [] => []
    | e :: bs' => if e_valid e then (make_rob_idx l b, e_uop e) :: go l (S b) bs' else go l (S b) bs'
    end.

Lemma valid_banks_LB l bs : forall b,
  map (fun p : nat * ruop => (make_rob_idx l (fst p), snd p))
    (flat_map (fun p : nat * rentry => if e_valid (snd p) then [(fst p, e_uop (snd p))] else [])
       (combine (seq b (length bs)) bs)) = LB l b bs.
Proof.
  induction bs as [|e bs IH]; intros b; [reflexivity|].
  cbn [length seq combine flat_map fst snd LB].
  rewrite map_app, IH. destruct (e_valid e); reflexivity.
Qed.
Lemma line_contents_LB r l : line_contents r l = LB l 0 (lines r l).
Proof. unfold line_contents, valid_banks. apply valid_banks_LB. Qed.

Lemma LB_nil l b bs : drained bs = true <-> LB l b bs = [].
Proof.
  unfold drained. revert b; induction bs as [|e bs IH]; intros b; [split; reflexivity|].
  cbn [existsb LB]. destruct (e_valid e); cbn [orb negb]; [split; discriminate|apply IH].
Qed.
Lemma LB_clear l b bs : LB l b (clear bs) = [].
Proof. revert b; induction bs as [|e bs IH]; intros b; [reflexivity|]. cbn. apply IH. Qed.
Lemma drained_clear bs : drained (clear bs) = true.
Proof. apply (LB_nil 0 0), LB_clear. Qed.

(** Line of a key. *)
Lemma LB_keys l b bs x : In x (map fst (LB l b bs)) -> exists k, k < length bs /\ x = make_rob_idx l (b + k).
Proof.
  revert b; induction bs as [|e bs IH]; intros b; [intros []|].
  cbn [LB length]. intros H.
  assert (G : In x (map fst (LB l (S b) bs)) -> exists k, k < S (length bs) /\ x = make_rob_idx l (b + k)).
  { intros G. destruct (IH _ G) as (k & Hk & ->). exists (S k). split; [lia|]. f_equal; lia. }
  destruct (e_valid e); [|auto]. cbn [map fst In] in H. destruct H as [<-|H]; [|auto].
  exists 0. split; [lia|]. f_equal; lia.
Qed.

(** First valid bank = first key of the line. *)
Lemma first_valid_LB l bs : forall b,
  match first_valid bs with
  | Some (k, u) => LB l b bs = (make_rob_idx l (b + k), u) :: LB l b (clear_at k bs)
                   /\ e_valid (entry_at bs k) = true /\ e_uop (entry_at bs k) = u /\ k < length bs
  | None => LB l b bs = []
  end.
Proof.
  induction bs as [|e bs IH]; intros b; [reflexivity|].
  cbn [first_valid LB]. destruct (e_valid e) eqn:E.
  - rewrite Nat.add_0_r. unfold clear_at, entry_at. cbn. repeat split; auto; lia.
  - specialize (IH (S b)). destruct (first_valid bs) as [[k u]|]; [|exact IH].
    destruct IH as (H1 & H2 & H3 & H4). unfold clear_at, entry_at in *. cbn. rewrite E.
    repeat split; auto; [|lia]. rewrite H1. f_equal. f_equal. f_equal. lia.
Qed.

Lemma LB_upd_uop l b bs k f :
  LB l b (upd_uop k f bs) =
  map (fun p : nat * ruop => if fst p =? make_rob_idx l (b + k) then (fst p, f (snd p)) else p) (LB l b bs).
Proof.
  unfold upd_uop, entry_at. revert b k; induction bs as [|e bs IH]; intros b k; [destruct k; reflexivity|].
  destruct k as [|k]; cbn [upd nth LB].
  - assert (T : map (fun p : nat * ruop => if fst p =? make_rob_idx l (b + 0) then (fst p, f (snd p)) else p)
                  (LB l (S b) bs) = LB l (S b) bs).
    { rewrite <- (map_id (LB l (S b) bs)) at 2. apply map_ext_in. intros p Hp.
      destruct (Nat.eqb_spec (fst p) (make_rob_idx l (b + 0))) as [Eq|]; [|reflexivity].
      destruct (LB_keys l (S b) bs (fst p)) as (j & _ & Hj); [apply in_map; exact Hp|].
      unfold make_rob_idx in *. lia. }
    destruct e as [v u]; cbn [e_valid e_uop]. destruct v; cbn [map fst snd].
    + rewrite T, Nat.add_0_r, Nat.eqb_refl. reflexivity.
    + rewrite T. reflexivity.
  - destruct (e_valid e) eqn:E; cbn [map fst snd].
    + rewrite IH. replace (make_rob_idx l b =? make_rob_idx l (b + S k)) with false
        by (symmetry; apply Nat.eqb_neq; unfold make_rob_idx; lia).
      f_equal. apply map_ext. intros p. replace (S b + k) with (b + S k) by lia. reflexivity.
    + rewrite IH. apply map_ext. intros p. replace (S b + k) with (b + S k) by lia. reflexivity.
Qed.

Lemma LB_app_clear_from l bs : forall b s,
  exists rest, LB l b bs = LB l b (clear_from s bs) ++ rest /\
    (forall x, In x (map fst rest) -> exists j, s <= j < length bs /\ x = make_rob_idx l (b + j)) /\
    (forall x, In x (map fst (LB l b (clear_from s bs))) -> exists j, j < s /\ x = make_rob_idx l (b + j)).
Proof.
  induction bs as [|e bs IH]; intros b s.
  - exists []. destruct s; cbn; repeat split; intros x [].
  - destruct s as [|s].
    + exists (LB l b (e :: bs)).
      assert (Z : LB l b (clear_from 0 (e :: bs)) = []).
      { cbn [clear_from LB e_valid]. clear. generalize (S b). induction bs as [|f bs IH]; intros c; [reflexivity|].
        cbn. apply IH. }
      rewrite Z. split; [reflexivity|split].
      * intros x Hx. destruct (LB_keys _ _ _ _ Hx) as (k & Hk & ->). exists k. split; [lia|reflexivity].
      * intros x [].
    + destruct (IH (S b) s) as (rest & H1 & H2 & H3). exists rest.
      cbn [clear_from LB]. destruct (e_valid e).
      * rewrite H1. split; [reflexivity|split].
        -- intros x Hx. destruct (H2 x Hx) as (j & Hj & ->). exists (S j). cbn [length]. split; [lia|].
           f_equal; lia.
        -- intros x Hx. cbn [map fst In] in Hx. destruct Hx as [<-|Hx].
           ++ exists 0. split; [lia|]. f_equal; lia.
           ++ destruct (H3 x Hx) as (j & Hj & ->). exists (S j). split; [lia|]. f_equal; lia.
      * split; [exact H1|split].
        -- intros x Hx. destruct (H2 x Hx) as (j & Hj & ->). exists (S j). cbn [length]. split; [lia|].
           f_equal; lia.
        -- intros x Hx. destruct (H3 x Hx) as (j & Hj & ->). exists (S j). split; [lia|]. f_equal; lia.
Qed.

Lemma LB_fill l bs : forall b f, drained bs = true -> length f = length bs ->
  LB l b (fill bs f) =
  map (fun e => (q_idx e, set_cplt0 (q_uop e))) (arrivals l b f).
Proof.
  unfold drained.
  induction bs as [|e bs IH]; intros b f D L.
  - destruct f; [reflexivity|discriminate].
  - destruct f as [|o f]; [discriminate|]. cbn [existsb] in D. cbn [length] in L.
    destruct (e_valid e) eqn:E; [discriminate|]. cbn [orb] in D.
    destruct o as [u|]; cbn [fill LB arrivals map e_valid e_uop q_idx q_uop].
    + rewrite IH; [reflexivity|exact D|lia].
    + rewrite E. apply IH; [exact D|lia].
Qed.

Lemma length_upd_uop k f bs : length (upd_uop k f bs) = length bs.
Proof. apply upd_length. Qed.
Lemma length_clear_at k bs : length (clear_at k bs) = length bs.
Proof. apply upd_length. Qed.
Lemma length_clear bs : length (clear bs) = length bs.
Proof. apply map_length. Qed.
Lemma length_clear_from bs : forall s, length (clear_from s bs) = length bs.
Proof. induction bs; intros [|s]; cbn; auto. Qed.
Lemma length_fill bs : forall f, length (fill bs f) = length bs.
Proof. induction bs; intros [|[u|] f]; cbn; auto. Qed.

(** ** The window *)
Record wf (r : rob) (n : nat) : Prop := Wf {
  wf_n : n <= LINES;
  wf_deq : deq_ptr r < LINES;
  wf_enq : enq_ptr r = (deq_ptr r + n) mod LINES;
  wf_flag : enq_flag r = xorb (deq_flag r) (LINES <=? deq_ptr r + n);
  wf_len : forall l, length (lines r l) = BANKS;
  wf_in : forall k, k < n -> drained (lines r ((deq_ptr r + k) mod LINES)) = false;
  wf_out : forall k, n <= k < LINES -> drained (lines r ((deq_ptr r + k) mod LINES)) = true
}.

Lemma flat_map_ext_in {A B} (f g : A -> list B) l :
  (forall x, In x l -> f x = g x) -> flat_map f l = flat_map g l.
Proof.
  induction l as [|a l IH]; intros H; [reflexivity|]. cbn [flat_map].
  rewrite (H a) by (left; reflexivity). f_equal. apply IH. intros x Hx. apply H. right. exact Hx.
Qed.
Lemma flat_map_nil {A B} (f : A -> list B) l : (forall x, In x l -> f x = []) -> flat_map f l = [].
Proof.
  induction l as [|a l IH]; intros H; [reflexivity|]. cbn [flat_map].
  rewrite (H a) by (left; reflexivity). apply IH. intros x Hx. apply H. right. exact Hx.
Qed.

Definition win (r : rob) (a m : nat) : list (nat * ruop) :=
  flat_map (fun k => line_contents r ((deq_ptr r + k) mod LINES)) (seq a m).

Lemma contents_win r n : wf r n -> contents r = win r 0 n.
Proof.
  intros W. unfold contents, win.
  assert (E : seq 0 LINES = seq 0 (n + (LINES - n))) by (f_equal; pose proof (wf_n _ _ W); lia).
  rewrite E, seq_app, flat_map_app. rewrite (flat_map_nil _ (seq (0 + n) _)); [apply app_nil_r|].
  intros k Hk. apply in_seq in Hk. rewrite line_contents_LB. apply LB_nil. apply (wf_out _ _ W). lia.
Qed.
Lemma win_S r a m : win r a (S m) = line_contents r ((deq_ptr r + a) mod LINES) ++ win r (S a) m.
Proof. reflexivity. Qed.
Lemma win_app r a m1 m2 : win r a (m1 + m2) = win r a m1 ++ win r (a + m1) m2.
Proof. unfold win. rewrite seq_app, flat_map_app. reflexivity. Qed.

Lemma mod_inj d j k : j < LINES -> k < LINES -> (d + j) mod LINES = (d + k) mod LINES -> j = k.
Proof. unfold LINES. intros. lia. Qed.

Lemma wf_empty r n : wf r n -> is_empty r = (n =? 0).
Proof.
  intros W. unfold is_empty. rewrite (wf_enq _ _ W), (wf_flag _ _ W).
  pose proof (wf_n _ _ W); pose proof (wf_deq _ _ W). unfold LINES in *.
  destruct (Nat.eqb_spec n 0) as [->|].
  - rewrite Nat.add_0_r, Nat.mod_small by lia. rewrite Nat.eqb_refl.
    replace (32 <=? deq_ptr r) with false by lia. rewrite xorb_false_r. apply eqb_reflx.
  - destruct (Nat.eqb_spec ((deq_ptr r + n) mod 32) (deq_ptr r)) as [E|]; [|reflexivity].
    assert (n = 32) as -> by lia. replace (32 <=? deq_ptr r + 32) with true by lia.
    destruct (deq_flag r); reflexivity.
Qed.
Lemma wf_full r n : wf r n -> is_full r = (n =? LINES).
Proof.
  intros W. unfold is_full. rewrite (wf_enq _ _ W), (wf_flag _ _ W).
  pose proof (wf_n _ _ W); pose proof (wf_deq _ _ W). unfold LINES in *.
  destruct (Nat.eqb_spec n 32) as [->|].
  - replace ((deq_ptr r + 32) mod 32) with (deq_ptr r) by lia. rewrite Nat.eqb_refl.
    replace (32 <=? deq_ptr r + 32) with true by lia. destruct (deq_flag r); reflexivity.
  - destruct (Nat.eqb_spec ((deq_ptr r + n) mod 32) (deq_ptr r)) as [E|]; [|reflexivity].
    assert (n = 0) as -> by lia. rewrite Nat.add_0_r. replace (32 <=? deq_ptr r) with false by lia.
    rewrite xorb_false_r, eqb_reflx. reflexivity.
Qed.

Lemma wf_init : wf rob_init 0.
Proof.
  constructor; cbn; auto; try (unfold LINES; lia).
Qed.

(** Head of the queue and first_valid. *)
Lemma head_empty r : wf r 0 -> first_valid (lines r (deq_ptr r)) = None.
Proof.
  intros W. pose proof (wf_out _ _ W 0) as H. unfold LINES in H. rewrite Nat.add_0_r, Nat.mod_small in H
    by (pose proof (wf_deq _ _ W); unfold LINES in *; lia).
  pose proof (first_valid_LB 0 (lines r (deq_ptr r)) 0) as F.
  destruct (first_valid (lines r (deq_ptr r))) as [[k u]|]; [|reflexivity].
  destruct F as (F & _). assert (D : drained (lines r (deq_ptr r)) = true) by (apply H; lia).
  apply (LB_nil 0 0) in D. rewrite F in D. discriminate.
Qed.
Lemma head_line r n : wf r n -> n <> 0 -> (deq_ptr r + 0) mod LINES = deq_ptr r.
Proof. intros W _. pose proof (wf_deq _ _ W). unfold LINES in *. lia. Qed.

(** ** What comb_commit decides *)
Definition keyed (r : rob) (l : list (nat * ruop)) : list (nat * ruop) :=
  map (fun p : nat * ruop => (make_rob_idx (deq_ptr r) (fst p), snd p)) l.

Lemma group_fold bs : forall c,
  fold_left (fun c e => if e_valid e then c && is_complete (e_uop e) else c) bs c = true <->
  c = true /\ forall e, In e bs -> e_valid e = true -> is_complete (e_uop e) = true.
Proof.
  induction bs as [|e bs IH]; intros c; [split; [intros H; split; [exact H|intros e []]|tauto]|].
  cbn [fold_left]. rewrite IH. clear IH. split.
  - intros [Hc Hb]. destruct (e_valid e) eqn:E.
    + apply andb_prop in Hc. destruct Hc as [-> Hu]. split; [reflexivity|].
      intros x [<-|Hx] V; [exact Hu|apply Hb; assumption].
    + split; [exact Hc|]. intros x [<-|Hx] V; [congruence|apply Hb; assumption].
  - intros [-> H]. split.
    + destruct (e_valid e) eqn:E; [|reflexivity]. cbn [andb]. apply H; [left; reflexivity|exact E].
    + intros x Hx V. apply H; [right; exact Hx|exact V].
Qed.

Lemma existsb_valid_drained bs : existsb e_valid bs = negb (drained bs).
Proof. unfold drained. rewrite negb_involutive. reflexivity. Qed.

Lemma first_valid_some bs : drained bs = false -> exists k u, first_valid bs = Some (k, u).
Proof.
  intros D. pose proof (first_valid_LB 0 bs 0) as F. destruct (first_valid bs) as [[k u]|]; [eauto|].
  apply LB_nil in F. congruence.
Qed.
Lemma first_valid_in bs k u : first_valid bs = Some (k, u) ->
  exists e, In e bs /\ e_valid e = true /\ e_uop e = u.
Proof.
  intros F. pose proof (first_valid_LB 0 bs 0) as G. rewrite F in G. destruct G as (_ & V & U & L).
  exists (entry_at bs k). repeat split; auto. unfold entry_at. apply nth_In. exact L.
Qed.

Definition special (u : ruop) : bool := is_flush_inst u || is_fence_inst u || is_wfi u.

Inductive decided (r : rob) (i : rob_in) : decision * bool -> Prop :=
| dec_none : decided r i (D_none, false)
| dec_group :
    is_mis i = false -> i_interrupt_req i = false -> i_front_stall i = false ->
    drained (lines r (deq_ptr r)) = false ->
    (forall e, In e (lines r (deq_ptr r)) -> e_valid e = true ->
               is_complete (e_uop e) = true /\ special (e_uop e) = false) ->
    decided r i (D_group, false)
| dec_interrupt k u :
    is_mis i = false -> i_interrupt_req i = true -> first_valid (lines r (deq_ptr r)) = Some (k, u) ->
    decided r i (D_single k, true)
| dec_single k u :
    is_mis i = false -> i_interrupt_req i = false -> first_valid (lines r (deq_ptr r)) = Some (k, u) ->
    is_complete u = true ->
    (is_fence_inst u = true -> i_store_pending i = true -> is_flush_inst u = false) ->
    decided r i (D_single k, false).

Lemma decide_decided r n i : wf r n -> decided r i (decide r i).
Proof.
  intros W. unfold decide.
  assert (G0 : group_ok r i = true ->
    is_mis i = false /\ n <> 0 /\ (i_front_stall i = false) /\
    (forall e, In e (lines r (deq_ptr r)) -> e_valid e = true -> is_complete (e_uop e) = true)).
  { unfold group_ok. rewrite group_fold. rewrite existsb_valid_drained. rewrite (wf_empty _ _ W).
    intros [H Hb]. destruct (Nat.eqb_spec n 0) as [|N].
    - cbn in H. destruct (negb _ && _); discriminate.
    - pose proof (wf_in _ _ W 0) as D. rewrite (head_line _ _ W N) in D. rewrite D in * by lia.
      cbn in H. destruct (i_front_stall i); [discriminate|]. destruct (is_mis i); [discriminate|].
      repeat split; auto. }
  destruct (is_mis i) eqn:M.
  { destruct (group_ok r i); [destruct (G0 eq_refl); discriminate|]. apply dec_none. }
  destruct (Nat.eq_dec n 0) as [->|N].
  { unfold single_part. rewrite (head_empty _ W). destruct (group_ok r i); [|apply dec_none].
    destruct (G0 eq_refl) as (_ & C & _). congruence. }
  pose proof (wf_in _ _ W 0) as D. rewrite (head_line _ _ W N) in D. specialize (D ltac:(lia)).
  destruct (first_valid_some _ D) as (k & u & F).
  destruct (first_valid_in _ _ _ F) as (e0 & I0 & V0 & U0).
  unfold single_part. rewrite F.
  assert (Lpos : lines r (deq_ptr r) <> []) by (intros E; rewrite E in I0; destruct I0).
  destruct (i_interrupt_req i) eqn:IR; cbn [negb andb orb].
  { assert (S : existsb (fun e => e_valid e && (is_flush_inst (e_uop e) || is_fence_inst (e_uop e) || is_wfi (e_uop e)) || true)
              (lines r (deq_ptr r)) = true).
    { apply existsb_exists. exists e0. split; [exact I0|]. apply orb_true_r. }
    rewrite S. rewrite andb_false_r. destruct (group_ok r i); eapply dec_interrupt; eauto. }
  destruct (existsb _ (lines r (deq_ptr r))) eqn:S.
  - (* a special instruction in the line *)
    destruct (is_complete u) eqn:C; cbn [negb].
    + destruct (is_fence_inst u && i_store_pending i) eqn:Gt; cbn [negb andb].
      * destruct (is_flush_inst u) eqn:Fl; cbn [negb]; [apply dec_none|].
        eapply dec_single; eauto.
      * rewrite ?andb_false_r. cbn. assert (R : negb (group_ok r i) && false && true = false) by (rewrite andb_false_r; reflexivity).
        rewrite ?R. destruct (group_ok r i); cbn; eapply dec_single; eauto;
        intros X Y; rewrite X, Y in Gt; discriminate.
    + assert (NG : group_ok r i = false).
      { destruct (group_ok r i); [|reflexivity]. destruct (G0 eq_refl) as (_ & _ & _ & A).
        specialize (A _ I0 V0). congruence. }
      rewrite NG. destruct (is_fence_inst u && i_store_pending i); cbn; apply dec_none.
  - assert (NS : forall e, In e (lines r (deq_ptr r)) -> e_valid e = true -> special (e_uop e) = false).
    { intros e Ie Ve. destruct (special (e_uop e)) eqn:Sp; [|reflexivity]. exfalso.
      assert (X : existsb (fun e => e_valid e && (is_flush_inst (e_uop e) || is_fence_inst (e_uop e) || is_wfi (e_uop e)) || false)
         (lines r (deq_ptr r)) = true).
      { apply existsb_exists. exists e. split; [exact Ie|]. rewrite Ve. unfold special in Sp. rewrite Sp. reflexivity. }
      congruence. }
    assert (NF : is_fence_inst u = false).
    { specialize (NS _ I0 V0). unfold special in NS. rewrite U0 in NS.
      destruct (is_fence_inst u); [|reflexivity]. rewrite orb_true_r in NS. discriminate. }
    rewrite NF. cbn [andb].
    replace (if negb (is_complete u) then false else false) with false by (destruct (is_complete u); reflexivity).
    cbn [negb andb]. destruct (group_ok r i) eqn:G; cbn [negb andb].
    + destruct (G0 eq_refl) as (_ & _ & FS & A). apply dec_group; auto.
    + destruct (is_complete u) eqn:C; cbn [andb]; [|apply dec_none].
      destruct (is_flush_inst u) eqn:Fl; cbn [negb]; [apply dec_none|].
      eapply dec_single; eauto.
Qed.

(** ** Commit *)
Lemma replace_head r n nl pre : wf r n -> n <> 0 -> length nl = BANKS ->
  LB (deq_ptr r) 0 (lines r (deq_ptr r)) = pre ++ LB (deq_ptr r) 0 nl ->
  let ls := fupd (lines r) (deq_ptr r) nl in
  let r' := if drained nl then
      let d := line_inc (deq_ptr r) in
      Rob ls (enq_ptr r) d (enq_flag r) (if d =? 0 then negb (deq_flag r) else deq_flag r)
    else Rob ls (enq_ptr r) (deq_ptr r) (enq_flag r) (deq_flag r) in
  exists n', wf r' n' /\ n' <= n /\ contents r = pre ++ contents r' /\
             enq_ptr r' = enq_ptr r /\ enq_flag r' = enq_flag r.
Proof.
  intros W N L E ls r'.
  pose proof (wf_n _ _ W) as Wn. pose proof (wf_deq _ _ W) as Wd.
  assert (LO : forall k, 0 < k < LINES -> ls ((deq_ptr r + k) mod LINES) = lines r ((deq_ptr r + k) mod LINES)).
  { intros k Hk. unfold ls. apply fupd_ne. unfold LINES in *. lia. }
  assert (LH : ls (deq_ptr r) = nl) by apply fupd_eq.
  assert (LL : forall l, length (ls l) = BANKS).
  { intros l. unfold ls, fupd. destruct (l =? deq_ptr r); [exact L|apply (wf_len _ _ W)]. }
  destruct (drained nl) eqn:D; subst r'.
  - exists (n - 1).
    assert (DI : line_inc (deq_ptr r) = (deq_ptr r + 1) mod LINES).
    { unfold line_inc, LINES in *. destruct (Nat.eqb_spec (deq_ptr r + 1) 32); lia. }
    set (r' := Rob _ _ _ _ _).
    assert (W' : wf r' (n - 1)).
    { constructor; cbn [r' deq_ptr enq_ptr enq_flag deq_flag lines].
      - lia.
      - rewrite DI. unfold LINES. lia.
      - rewrite (wf_enq _ _ W), DI. unfold LINES in *. lia.
      - rewrite (wf_flag _ _ W), DI. unfold LINES in *.
        destruct (Nat.eqb_spec ((deq_ptr r + 1) mod 32) 0) as [Z|Z].
        + assert (deq_ptr r = 31) as -> by lia.
          replace (32 <=? 31 + n) with true by lia.
          replace (32 <=? (31 + 1) mod 32 + (n - 1)) with false by lia.
          destruct (deq_flag r); reflexivity.
        + replace ((deq_ptr r + 1) mod 32) with (deq_ptr r + 1) by lia.
          replace (deq_ptr r + 1 + (n - 1)) with (deq_ptr r + n) by lia. reflexivity.
      - exact LL.
      - intros k Hk. rewrite DI. replace (((deq_ptr r + 1) mod LINES + k) mod LINES) with ((deq_ptr r + S k) mod LINES)
          by (unfold LINES; lia).
        rewrite LO by lia. apply (wf_in _ _ W). lia.
      - intros k Hk. rewrite DI. replace (((deq_ptr r + 1) mod LINES + k) mod LINES) with ((deq_ptr r + S k) mod LINES)
          by (unfold LINES; lia).
        destruct (Nat.eq_dec (S k) LINES) as [K|K].
        + rewrite K. replace ((deq_ptr r + LINES) mod LINES) with (deq_ptr r) by (unfold LINES in *; lia).
          rewrite LH. exact D.
        + rewrite LO by lia. apply (wf_out _ _ W). lia. }
    split; [exact W'|]. split; [lia|]. split; [|split; reflexivity].
    rewrite (contents_win _ _ W), (contents_win _ _ W').
    destruct n as [|n]; [lia|]. rewrite win_S. rewrite (head_line _ _ W N), line_contents_LB, E.
    apply (LB_nil (deq_ptr r) 0) in D. rewrite D, app_nil_r. f_equal.
    replace (S n - 1) with n by lia. unfold win. rewrite <- seq_shift, flat_map_concat_map, map_map, <- flat_map_concat_map.
    apply flat_map_ext_in. intros k Hk. apply in_seq in Hk. rewrite !line_contents_LB.
    cbn [r' deq_ptr lines]. rewrite DI.
    replace (((deq_ptr r + 1) mod LINES + k) mod LINES) with ((deq_ptr r + S k) mod LINES) by (unfold LINES; lia).
    rewrite LO by lia. reflexivity.
  - exists n. set (r' := Rob _ _ _ _ _).
    assert (W' : wf r' n).
    { constructor; cbn [r' deq_ptr enq_ptr enq_flag deq_flag lines]; try apply W; try exact LL.
      - intros k Hk. destruct k as [|k].
        + rewrite (head_line _ _ W N), LH. exact D.
        + rewrite LO by lia. apply (wf_in _ _ W). lia.
      - intros k Hk. rewrite LO by lia. apply (wf_out _ _ W). lia. }
    split; [exact W'|]. split; [lia|]. split; [|split; reflexivity].
    rewrite (contents_win _ _ W), (contents_win _ _ W').
    destruct n as [|n]; [lia|]. rewrite !win_S. cbn [r' deq_ptr].
    rewrite (head_line _ _ W N), !line_contents_LB, E, <- app_assoc. cbn [r' lines]. rewrite LH. f_equal. f_equal.
    unfold win. apply flat_map_ext_in. intros k Hk. apply in_seq in Hk. rewrite !line_contents_LB.
    cbn [r' deq_ptr lines]. rewrite LO by lia. reflexivity.
Qed.

Lemma commit_ok r n i : wf r n ->
  exists n', wf (comb_commit r i) n' /\ n' <= n /\
    contents r = keyed r (committed r i) ++ contents (comb_commit r i) /\
    enq_ptr (comb_commit r i) = enq_ptr r /\ enq_flag (comb_commit r i) = enq_flag r.
Proof.
  intros W. unfold committed, comb_commit. pose proof (decide_decided r n i W) as D.
  assert (NZ : drained (lines r (deq_ptr r)) = false -> n <> 0).
  { intros H ->. apply first_valid_some in H. destruct H as (k & u & H). rewrite (head_empty _ W) in H. discriminate. }
  destruct D as [|M IR FS DH A|k u M IR F|k u M IR F C G]; cbn [fst].
  - exists n. split; [exact W|]. split; [lia|]. split; [reflexivity|split; reflexivity].
  - apply (replace_head r n (clear (lines r (deq_ptr r))) (keyed r (valid_banks (lines r (deq_ptr r)))) W (NZ DH)).
    + rewrite length_clear. apply (wf_len _ _ W).
    + rewrite LB_clear, app_nil_r. unfold keyed, valid_banks. symmetry. apply valid_banks_LB.
  - assert (DH : drained (lines r (deq_ptr r)) = false).
    { destruct (drained (lines r (deq_ptr r))) eqn:X; [|reflexivity]. apply (LB_nil 0 0) in X.
      pose proof (first_valid_LB 0 (lines r (deq_ptr r)) 0) as FL. rewrite F in FL. destruct FL as (FL & _).
      rewrite X in FL. discriminate. }
    pose proof (first_valid_LB (deq_ptr r) (lines r (deq_ptr r)) 0) as FL. rewrite F in FL.
    destruct FL as (FL & V & U & L).
    apply (replace_head r n (clear_at k (lines r (deq_ptr r))) (keyed r [(k, e_uop (entry_at (lines r (deq_ptr r)) k))]) W (NZ DH)).
    + rewrite length_clear_at. apply (wf_len _ _ W).
    + rewrite FL. unfold keyed. cbn [map fst snd app]. rewrite U. reflexivity.
  - assert (DH : drained (lines r (deq_ptr r)) = false).
    { destruct (drained (lines r (deq_ptr r))) eqn:X; [|reflexivity]. apply (LB_nil 0 0) in X.
      pose proof (first_valid_LB 0 (lines r (deq_ptr r)) 0) as FL. rewrite F in FL. destruct FL as (FL & _).
      rewrite X in FL. discriminate. }
    pose proof (first_valid_LB (deq_ptr r) (lines r (deq_ptr r)) 0) as FL. rewrite F in FL.
    destruct FL as (FL & V & U & L).
    apply (replace_head r n (clear_at k (lines r (deq_ptr r))) (keyed r [(k, e_uop (entry_at (lines r (deq_ptr r)) k))]) W (NZ DH)).
    + rewrite length_clear_at. apply (wf_len _ _ W).
    + rewrite FL. unfold keyed. cbn [map fst snd app]. rewrite U. reflexivity.
Qed.

(** ** Completion *)
Definition comp_p (w : wback) (p : nat * ruop) : nat * ruop :=
  if fst p =? w_idx w then (fst p, complete_uop w (snd p)) else p.

Lemma idx_split idx : make_rob_idx (rob_line idx) (0 + rob_bank idx) = idx.
Proof. unfold make_rob_idx, rob_line, rob_bank, BANKS. lia. Qed.

Lemma complete_one_LB ls w l :
  (forall l, length (ls l) = BANKS) ->
  LB l 0 (complete_one ls w l) = map (comp_p w) (LB l 0 (ls l)).
Proof.
  intros HL. unfold complete_one, fupd. destruct (Nat.eqb_spec l (rob_line (w_idx w))) as [->|N].
  - rewrite LB_upd_uop. apply map_ext. intros p. unfold comp_p. rewrite idx_split. reflexivity.
  - rewrite <- (map_id (LB l 0 (ls l))) at 1. apply map_ext_in. intros p Hp. unfold comp_p.
    destruct (Nat.eqb_spec (fst p) (w_idx w)) as [E|]; [|reflexivity]. exfalso. apply N.
    destruct (LB_keys l 0 (ls l) (fst p)) as (k & Hk & K); [apply in_map; exact Hp|].
    rewrite HL in Hk. rewrite <- E, K. unfold rob_line, make_rob_idx, BANKS in *. lia.
Qed.
Lemma complete_one_len ls w : (forall l, length (ls l) = BANKS) -> forall l, length (complete_one ls w l) = BANKS.
Proof.
  intros HL l. unfold complete_one, fupd. destruct (l =? rob_line (w_idx w)); [|apply HL].
  rewrite length_upd_uop. apply HL.
Qed.
Lemma complete_fold ws : forall ls,
  (forall l, length (ls l) = BANKS) ->
  (forall l, length (fold_left complete_one ws ls l) = BANKS) /\
  (forall l, LB l 0 (fold_left complete_one ws ls l) = map (fun p => fold_left (fun p w => comp_p w p) ws p) (LB l 0 (ls l))).
Proof.
  induction ws as [|w ws IH]; intros ls HL; cbn [fold_left].
  - split; [exact HL|]. intros l. rewrite map_id. reflexivity.
  - destruct (IH (complete_one ls w) (complete_one_len ls w HL)) as [I1 I2]. split; [exact I1|].
    intros l. rewrite I2, (complete_one_LB _ _ _ HL), map_map. reflexivity.
Qed.
Lemma drained_map {f : nat * ruop -> nat * ruop} {l bs bs'} :
  LB l 0 bs' = map f (LB l 0 bs) -> drained bs' = drained bs.
Proof.
  intros H. destruct (drained bs) eqn:D.
  - apply (LB_nil l 0). apply (LB_nil l 0) in D. rewrite H, D. reflexivity.
  - destruct (drained bs') eqn:D'; [|reflexivity]. apply (LB_nil l 0) in D'.
    rewrite D' in H. symmetry in H. apply map_eq_nil in H. apply LB_nil in H. congruence.
Qed.
Lemma complete_ok r n i : wf r n ->
  wf (comb_complete r i) n /\
  contents (comb_complete r i) = map (fun p => fold_left (fun p w => comp_p w p) (i_wb i) p) (contents r).
Proof.
  intros W. destruct (complete_fold (i_wb i) (lines r) (wf_len _ _ W)) as [H1 H2]. unfold comb_complete.
  split.
  - constructor; cbn [lines deq_ptr enq_ptr deq_flag enq_flag]; try apply W; auto.
    + intros k Hk. rewrite (drained_map (H2 _)). apply (wf_in _ _ W). exact Hk.
    + intros k Hk. rewrite (drained_map (H2 _)). apply (wf_out _ _ W). exact Hk.
  - unfold contents. cbn [deq_ptr]. rewrite !flat_map_concat_map, concat_map, map_map. f_equal.
    apply map_ext. intros k. rewrite !line_contents_LB. cbn [lines]. apply H2.
Qed.

(** ** Mispredict *)
Fixpoint uptop (idx : nat) (l : list (nat * ruop)) : list (nat * ruop) :=
  match l with
  | [] => []
  | p :: l' => if fst p =? idx then [(fst p, set_last (snd p))] else p :: uptop idx l'
  end.
Lemma uptop_app_out idx A B : ~ In idx (map fst A) -> uptop idx (A ++ B) = A ++ uptop idx B.
Proof.
  induction A as [|p A IH]; intros H; [reflexivity|]. cbn [app uptop].
  destruct (Nat.eqb_spec (fst p) idx) as [E|]; [exfalso; apply H; left; exact E|].
  rewrite IH; [reflexivity|]. intros X. apply H. right. exact X.
Qed.
Lemma uptop_app_in idx A B : In idx (map fst A) -> uptop idx (A ++ B) = uptop idx A.
Proof.
  induction A as [|p A IH]; intros H; [destruct H|]. cbn [app uptop].
  destruct (Nat.eqb_spec (fst p) idx) as [E|]; [reflexivity|].
  rewrite IH; [reflexivity|]. destruct H as [|H]; [contradiction|exact H].
Qed.
Lemma uptop_line l : forall bs b k, In (make_rob_idx l (b + k)) (map fst (LB l b bs)) ->
  uptop (make_rob_idx l (b + k)) (LB l b bs) = LB l b (clear_from (k + 1) (upd_uop k set_last bs)).
Proof.
  unfold upd_uop, entry_at. induction bs as [|e bs IH]; intros b k H; [destruct H|].
  destruct k as [|k]; cbn [upd nth LB clear_from Nat.add].
  - destruct e as [[|] u]; cbn [e_valid e_uop LB] in *.
    + cbn [uptop fst snd]. rewrite Nat.add_0_r, Nat.eqb_refl. f_equal. clear.
      generalize (S b). induction bs as [|f bs IH]; intros c; [reflexivity|]. cbn. apply IH.
    + exfalso. apply LB_keys in H. destruct H as (j & _ & H). unfold make_rob_idx in H. lia.
  - cbn [LB] in H. replace (b + S k) with (S b + k) in * by lia. destruct (e_valid e) eqn:E.
    + cbn [uptop fst]. replace (make_rob_idx l b =? make_rob_idx l (S b + k)) with false
        by (symmetry; apply Nat.eqb_neq; unfold make_rob_idx; lia).
      f_equal. apply IH. cbn [map fst In] in H. destruct H as [H|H]; [unfold make_rob_idx in H; lia|exact H].
    + apply IH. exact H.
Qed.

Lemma clear_lines_len f : forall p t ls, (forall l, length (ls l) = BANKS) ->
  forall l, length (clear_lines f p t ls l) = BANKS.
Proof.
  induction f as [|f IH]; intros p t ls H l; cbn [clear_lines]; [apply H|].
  destruct (p =? t); [apply H|]. apply IH. intros l'. unfold fupd.
  destruct (l' =? p); [rewrite length_clear|]; apply H.
Qed.
Lemma clear_lines_spec d n : n <= LINES -> forall f j ls, 1 <= j <= n -> n - j <= f ->
  forall p, p < LINES ->
  clear_lines f ((d + j) mod LINES) ((d + n) mod LINES) ls ((d + p) mod LINES) =
  if (j <=? p) && (p <? n) then clear (ls ((d + p) mod LINES)) else ls ((d + p) mod LINES).
Proof.
  intros Hn. induction f as [|f IH]; intros j ls Hj Hf p Hp; cbn [clear_lines].
  - replace ((j <=? p) && (p <? n)) with false by lia. reflexivity.
  - destruct (Nat.eqb_spec ((d + j) mod LINES) ((d + n) mod LINES)) as [E|E].
    + assert (j = n) as -> by (unfold LINES in *; lia).
      replace ((n <=? p) && (p <? n)) with false by lia. reflexivity.
    + assert (j <> n) by congruence.
      replace (((d + j) mod LINES + 1) mod LINES) with ((d + S j) mod LINES) by (unfold LINES; lia).
      rewrite IH by lia. unfold fupd.
      destruct (Nat.eqb_spec ((d + p) mod LINES) ((d + j) mod LINES)) as [Q|Q].
      * apply mod_inj in Q; [|lia|lia]. subst p.
        replace ((S j <=? j) && (j <? n)) with false by lia.
        replace ((j <=? j) && (j <? n)) with true by lia. reflexivity.
      * assert (p <> j) by congruence.
        replace ((j <=? p) && (p <? n)) with ((S j <=? p) && (p <? n)) by lia. reflexivity.
Qed.

Lemma branch_ok r n i idx r0 : wf r n -> i_mispred i = Some idx ->
  enq_ptr r0 = enq_ptr r -> enq_flag r0 = enq_flag r ->
  In idx (map fst (contents r)) ->
  let r' := comb_branch r0 i false r in
  exists n', wf r' n' /\ contents r' = uptop idx (contents r).
Proof.
  intros W MI EP EF HI r'. subst r'. unfold comb_branch. rewrite MI, EP, EF.
  pose proof (wf_n _ _ W) as Wn. pose proof (wf_deq _ _ W) as Wd.
  rewrite (contents_win _ _ W) in HI |- *.
  (* the line of the branch *)
  assert (exists k, k < n /\ In idx (map fst (line_contents r ((deq_ptr r + k) mod LINES)))) as (k & Kn & KI).
  { unfold win in HI. apply in_map_iff in HI. destruct HI as (p & <- & HI). apply in_flat_map in HI.
    destruct HI as (k & Hk & HI). apply in_seq in Hk. exists k. split; [lia|]. apply in_map. exact HI. }
  rewrite line_contents_LB in KI.
  set (L := (deq_ptr r + k) mod LINES) in *.
  assert (HL : rob_line idx = L /\ idx = make_rob_idx L (0 + rob_bank idx)).
  { destruct (LB_keys _ _ _ _ KI) as (j & Hj & E). rewrite (wf_len _ _ W) in Hj. subst idx.
    unfold rob_line, rob_bank, make_rob_idx, BANKS in *. split; lia. }
  destruct HL as [HL HX]. rewrite HL.
  set (b := rob_bank idx) in *.
  assert (Lb : L < LINES) by (unfold L, LINES; lia).
  assert (Ee : (L + 1) mod LINES = (deq_ptr r + S k) mod LINES) by (unfold L, LINES; lia).
  rewrite Ee.
  set (ls1 := fupd (lines r) L (upd_uop b set_last (lines r L))).
  set (nl := clear_from (b + 1) (upd_uop b set_last (lines r L))).
  assert (E1 : ls1 L = upd_uop b set_last (lines r L)) by apply fupd_eq.
  rewrite E1. set (ls2 := fupd ls1 L nl).
  assert (L2 : forall l, length (ls2 l) = BANKS).
  { intros l. unfold ls2, ls1, nl, fupd. destruct (l =? L).
    - rewrite length_clear_from, length_upd_uop. apply (wf_len _ _ W).
    - apply (wf_len _ _ W). }
  assert (A2 : forall p, p < LINES -> p <> k -> ls2 ((deq_ptr r + p) mod LINES) = lines r ((deq_ptr r + p) mod LINES)).
  { intros p Hp Np. unfold ls2, ls1, fupd.
    destruct (Nat.eqb_spec ((deq_ptr r + p) mod LINES) L) as [E|]; [|reflexivity].
    exfalso. apply Np. unfold L in E. apply (mod_inj (deq_ptr r)); [lia|lia|exact E]. }
  assert (B2 : ls2 L = nl) by apply fupd_eq.
  set (ls3 := clear_lines LINES ((deq_ptr r + S k) mod LINES) (enq_ptr r) ls2).
  assert (A3 : forall p, p < LINES -> ls3 ((deq_ptr r + p) mod LINES) =
     if (S k <=? p) && (p <? n) then clear (ls2 ((deq_ptr r + p) mod LINES)) else ls2 ((deq_ptr r + p) mod LINES)).
  { intros p Hp. unfold ls3. rewrite (wf_enq _ _ W). apply clear_lines_spec; lia. }
  assert (UP : uptop idx (LB L 0 (lines r L)) = LB L 0 nl).
  { rewrite HX. unfold nl. apply uptop_line. rewrite HX in KI. exact KI. }
  set (r' := Rob _ _ _ _ _).
  assert (W' : wf r' (S k)).
  { constructor; cbn [r' deq_ptr enq_ptr enq_flag deq_flag lines].
    - lia.
    - exact Wd.
    - reflexivity.
    - rewrite (wf_flag _ _ W), (wf_enq _ _ W). unfold LINES in *.
      destruct (Nat.leb_spec 32 (deq_ptr r + n)); destruct (Nat.leb_spec 32 (deq_ptr r + S k)).
      + replace ((deq_ptr r + n) mod 32 <? (deq_ptr r + S k) mod 32) with false by lia. reflexivity.
      + replace ((deq_ptr r + n) mod 32 <? (deq_ptr r + S k) mod 32) with true by lia.
        destruct (deq_flag r); reflexivity.
      + lia.
      + replace ((deq_ptr r + n) mod 32 <? (deq_ptr r + S k) mod 32) with false by lia. reflexivity.
    - apply clear_lines_len. exact L2.
    - intros p Hp. rewrite A3 by lia. replace ((S k <=? p) && (p <? n)) with false by lia.
      destruct (Nat.eq_dec p k) as [->|Np].
      + fold L. rewrite B2. destruct (drained nl) eqn:D; [|reflexivity]. apply (LB_nil L 0) in D.
        rewrite <- UP in D. destruct (LB L 0 (lines r L)) as [|q t]; [destruct KI|].
        cbn [uptop] in D. destruct (fst q =? idx); discriminate.
      + rewrite A2 by lia. apply (wf_in _ _ W). lia.
    - intros p Hp. rewrite A3 by lia. destruct (Nat.ltb_spec p n).
      + replace ((S k <=? p) && true) with true by lia. apply drained_clear.
      + rewrite andb_false_r. rewrite A2 by lia. apply (wf_out _ _ W). lia. }
  exists (S k). split; [exact W'|].
  rewrite (contents_win _ _ W').
  replace (S k) with (k + 1) by lia. rewrite win_app.
  replace n with (k + (1 + (n - S k))) at 1 by lia. rewrite !win_app. cbn [Nat.add].
  assert (WK : win r' 0 k = win r 0 k).
  { unfold win. apply flat_map_ext_in. intros p Hp. apply in_seq in Hp. rewrite !line_contents_LB. cbn [r' deq_ptr lines].
    rewrite A3 by lia. replace ((S k <=? p) && (p <? n)) with false by lia. rewrite A2 by lia. reflexivity. }
  assert (OUT : ~ In idx (map fst (win r 0 k))).
  { intros X. unfold win in X. apply in_map_iff in X. destruct X as (p & PE & X). apply in_flat_map in X.
    destruct X as (q & Hq & X). apply in_seq in Hq. rewrite line_contents_LB in X.
    destruct (LB_keys _ 0 _ (fst p) (in_map fst _ _ X)) as (j & Hj & E). rewrite (wf_len _ _ W) in Hj.
    assert (rob_line idx = (deq_ptr r + q) mod LINES).
    { rewrite <- PE, E. unfold rob_line, make_rob_idx, BANKS in *. lia. }
    rewrite HL in H. unfold L in H. apply mod_inj in H; lia. }
  rewrite (uptop_app_out _ _ _ OUT), WK. f_equal.
  unfold win at 1. cbn [seq flat_map]. rewrite app_nil_r, line_contents_LB. cbn [r' deq_ptr lines]. fold L.
  pose proof (A3 k ltac:(lia)) as A3k. fold L in A3k. change (LB L 0 (ls3 L) = uptop idx (win r k 1 ++ win r (k + 1) (n - S k))). rewrite A3k.
  replace ((S k <=? k) && (k <? n)) with false by lia. rewrite B2, <- UP.
  assert (WL : win r k 1 = LB L 0 (lines r L)).
  { unfold win. cbn [seq flat_map]. rewrite app_nil_r, line_contents_LB. reflexivity. }
  rewrite WL. rewrite uptop_app_in; [reflexivity|exact KI].
Qed.

(** ** Dispatch *)
Lemma drained_fill bs f : length f = length bs -> any_fire f = true -> drained (fill bs f) = false.
Proof.
  unfold any_fire, drained. revert f; induction bs as [|e bs IH]; intros [|[u|] f] L H; try discriminate.
  - reflexivity.
  - cbn [fill existsb] in *. destruct (e_valid e); [reflexivity|]. apply IH; [cbn in L; lia|exact H].
Qed.
Lemma arrivals_none l f : forall b, any_fire f = false -> arrivals l b f = [].
Proof. unfold any_fire. induction f as [|[u|] f IH]; intros b H; [reflexivity|discriminate|]. cbn in *. auto. Qed.

Lemma fire_ok r n i r0 : wf r n -> (rob_ready r0 = true -> n < LINES) ->
  enq_ptr r0 = enq_ptr r -> enq_flag r0 = enq_flag r -> length (i_fire i) = BANKS ->
  let r' := comb_fire r0 i r in
  exists n', wf r' n' /\
    contents r' = contents r ++
      (if rob_ready r0 then map (fun e => (q_idx e, set_cplt0 (q_uop e))) (arrivals (enq_ptr r0) 0 (i_fire i)) else []).
Proof.
  intros W RD EP EF LF r'. subst r'. unfold comb_fire.
  destruct (rob_ready r0) eqn:R; cbn [andb];
    [|exists n; rewrite app_nil_r; split; [exact W|reflexivity]].
  destruct (any_fire (i_fire i)) eqn:AF;
    [|exists n; rewrite arrivals_none by exact AF; cbn [map]; rewrite app_nil_r; split; [exact W|reflexivity]].
  specialize (RD eq_refl). pose proof (wf_deq _ _ W) as Wd. rewrite EP, EF.
  set (E := enq_ptr r). set (nl := fill (lines r E) (i_fire i)).
  assert (EE : E = (deq_ptr r + n) mod LINES) by apply (wf_enq _ _ W).
  set (ls := fupd (lines r) E nl).
  assert (A : forall p, p < LINES -> p <> n -> ls ((deq_ptr r + p) mod LINES) = lines r ((deq_ptr r + p) mod LINES)).
  { intros p Hp Np. unfold ls. apply fupd_ne. rewrite EE. intros X. apply Np. apply (mod_inj (deq_ptr r)); lia. }
  assert (B : ls ((deq_ptr r + n) mod LINES) = nl) by (rewrite <- EE; apply fupd_eq).
  assert (LI : line_inc E = (deq_ptr r + S n) mod LINES).
  { unfold line_inc. rewrite EE. unfold LINES in *. destruct (Nat.eqb_spec ((deq_ptr r + n) mod 32 + 1) 32); lia. }
  assert (LN : length (i_fire i) = length (lines r E)) by (rewrite LF; symmetry; apply (wf_len _ _ W)).
  set (r' := Rob _ _ _ _ _).
  assert (W' : wf r' (S n)).
  { constructor; cbn [r' deq_ptr enq_ptr enq_flag deq_flag lines].
    - lia.
    - exact Wd.
    - exact LI.
    - rewrite LI, (wf_flag _ _ W). unfold LINES in *.
      destruct (Nat.eqb_spec ((deq_ptr r + S n) mod 32) 0) as [Z|Z].
      + replace (32 <=? deq_ptr r + S n) with true by lia. replace (32 <=? deq_ptr r + n) with false by lia.
        destruct (deq_flag r); reflexivity.
      + replace (32 <=? deq_ptr r + S n) with (32 <=? deq_ptr r + n) by lia. reflexivity.
    - intros l. unfold ls, fupd, nl. destruct (l =? E); [rewrite length_fill|]; apply (wf_len _ _ W).
    - intros p Hp. destruct (Nat.eq_dec p n) as [->|Np].
      + rewrite B. apply drained_fill; assumption.
      + rewrite A by lia. apply (wf_in _ _ W). lia.
    - intros p Hp. rewrite A by lia. apply (wf_out _ _ W). lia. }
  exists (S n). split; [exact W'|].
  rewrite (contents_win _ _ W'), (contents_win _ _ W). replace (S n) with (n + 1) by lia. rewrite win_app.
  f_equal.
  - unfold win. apply flat_map_ext_in. intros p Hp. apply in_seq in Hp. rewrite !line_contents_LB. cbn [r' deq_ptr lines].
    rewrite A by lia. reflexivity.
  - cbn [Nat.add]. unfold win. cbn [seq flat_map]. rewrite app_nil_r, line_contents_LB. cbn [r' deq_ptr lines].
    rewrite B. rewrite <- EE. apply LB_fill; [|exact LN].
    rewrite EE. apply (wf_out _ _ W). lia.
Qed.

(** ** Flush *)
Lemma flush_ok r n : wf r n -> wf (comb_flush true r) 0 /\ contents (comb_flush true r) = [].
Proof.
  intros W. unfold comb_flush. assert (W' : wf (Rob (fun l => clear (lines r l)) 0 0 false false) 0).
  { constructor; cbn [deq_ptr enq_ptr enq_flag deq_flag lines]; auto; try (unfold LINES; lia).
    - intros l. rewrite length_clear. apply (wf_len _ _ W).
    - intros. apply drained_clear. }
  split; [exact W'|]. rewrite (contents_win _ _ W'). reflexivity.
Qed.

(** ** One cycle, on keys and micro-ops *)
Definition p_step (c : list (nat * ruop)) (r : rob) (i : rob_in) : list (nat * ruop) :=
  let c1 := skipn (length (committed r i)) c in
  let c2 := map (fun p => fold_left (fun p w => comp_p w p) (i_wb i) p) c1 in
  let c3 := match i_mispred i with Some idx => uptop idx c2 | None => c2 end in
  let c4 := c3 ++ (if rob_ready r then map (fun e => (q_idx e, set_cplt0 (q_uop e))) (arrivals (enq_ptr r) 0 (i_fire i)) else []) in
  if b_flush (broadcast r i) then [] else c4.

Lemma skipn_length_app {A} (a b : list A) n : length a = n -> skipn n (a ++ b) = b.
Proof. intros <-. induction a; [reflexivity|]. cbn. assumption. Qed.
Lemma keyed_length r l : length (keyed r l) = length l.
Proof. apply map_length. Qed.
Lemma comp_keys ws : forall p, fst (fold_left (fun p w => comp_p w p) ws p) = fst p.
Proof.
  induction ws as [|w ws IH]; intros p; cbn [fold_left]; [reflexivity|]. rewrite IH.
  unfold comp_p. destruct (fst p =? w_idx w); reflexivity.
Qed.
Lemma mis_no_commit r n i : wf r n -> is_mis i = true -> comb_commit r i = r /\ committed r i = [] /\ broadcast r i = quiet.
Proof.
  intros W M. unfold comb_commit, committed, broadcast. pose proof (decide_decided r n i W) as D.
  inversion D as [E|? ? ? ? ? E|? ? ? ? ? E|? ? ? ? ? ? ? E]; try congruence.
  cbn. repeat split; reflexivity.
Qed.

Lemma step_ok r n i : wf r n -> traffic_ok r i ->
  exists n', wf (rob_step r i) n' /\ contents (rob_step r i) = p_step (contents r) r i.
Proof.
  intros W T. unfold rob_step, p_step.
  destruct (commit_ok r n i W) as (n1 & W1 & N1 & C1 & P1 & F1).
  destruct (complete_ok _ _ i W1) as (W2 & C2).
  set (r1 := comb_complete (comb_commit r i) i) in *.
  assert (P2 : enq_ptr r1 = enq_ptr r) by (unfold r1; cbn [comb_complete enq_ptr]; exact P1).
  assert (F2 : enq_flag r1 = enq_flag r) by (unfold r1; cbn [comb_complete enq_flag]; exact F1).
  assert (RD : rob_ready r = true -> n1 < LINES).
  { unfold rob_ready. rewrite (wf_full _ _ W). pose proof (wf_n _ _ W). destruct (Nat.eqb_spec n LINES); [discriminate|]. lia. }
  rewrite C1. rewrite (skipn_length_app _ _ _ (keyed_length r (committed r i))). rewrite <- C2.
  destruct (b_flush (broadcast r i)) eqn:FL.
  { destruct (i_mispred i) as [idx|] eqn:MI.
    - exfalso. destruct (mis_no_commit r n i W) as (_ & _ & Q); [unfold is_mis; rewrite MI; reflexivity|].
      rewrite Q in FL. discriminate.
    - assert (BR : comb_branch r i true r1 = r1) by (unfold comb_branch; rewrite MI; reflexivity).
      rewrite BR. destruct (fire_ok r1 n1 i r W2 RD (eq_sym P2) (eq_sym F2) (tk_width _ _ T)) as (n3 & W3 & C3).
      exists 0. apply (flush_ok _ _ W3). }
  cbn [comb_flush].
  destruct (i_mispred i) as [idx|] eqn:MI.
  - assert (M : is_mis i = true) by (unfold is_mis; rewrite MI; reflexivity).
    pose proof (tk_no_fire _ _ T M) as NF.
    destruct (branch_ok r1 n1 i idx r W2 MI (eq_sym P2) (eq_sym F2)) as (n3 & W3 & C3).
    { rewrite C2. destruct (mis_no_commit r n i W M) as (CC & _). rewrite CC.
      rewrite map_map. rewrite (map_ext _ fst) by (intros; apply comp_keys). apply (tk_redirect _ _ T _ MI). }
    exists n3. unfold comb_fire. rewrite NF, andb_false_r. split; [exact W3|].
    rewrite C3. rewrite arrivals_none by exact NF. destruct (rob_ready r); rewrite app_nil_r; reflexivity.
  - assert (BR : comb_branch r i false r1 = r1) by (unfold comb_branch; rewrite MI; reflexivity).
    rewrite BR. destruct (fire_ok r1 n1 i r W2 RD (eq_sym P2) (eq_sym F2) (tk_width _ _ T)) as (n3 & W3 & C3).
    exists n3. split; [exact W3|exact C3].
Qed.

(** ** The queue with its history *)
Definition add1 (w : wback) (e : qent) : qent :=
  if w_idx w =? q_idx e then QEnt (q_idx e) (q_uop e) (q_reports e ++ [w]) (q_cut e) else e.
Lemma add1_fold ws : forall e, fold_left (fun e w => add1 w e) ws e = add_reports ws e.
Proof.
  induction ws as [|w ws IH]; intros e; cbn [fold_left].
  - unfold add_reports. cbn. rewrite app_nil_r. destruct e; reflexivity.
  - rewrite IH. unfold add1, add_reports. cbn [filter].
    destruct (w_idx w =? q_idx e); cbn [q_idx q_uop q_reports q_cut]; [|reflexivity].
    rewrite <- app_assoc. reflexivity.
Qed.

Lemma trap_value_app d l w : trap_value d (l ++ [w]) =
  (if w_branch w then w_diag w
   else if memory_report w
        then if w_pf_inst w || w_pf_load w || w_pf_store w then w_result w else w_diag w
        else trap_value d l).
Proof. revert d; induction l as [|x l IH]; intros d; [reflexivity|]. cbn [app trap_value]. apply IH. Qed.
Lemma last_branch_app l w : last_branch (l ++ [w]) = if w_branch w then Some w else last_branch l.
Proof. unfold last_branch. rewrite fold_left_app. reflexivity. Qed.

Lemma kind_ld p : (2 <=? p) && (p <? 4) = match kind p with P_load => true | _ => false end.
Proof. do 8 (destruct p as [|p]; [reflexivity|]). reflexivity. Qed.
Lemma kind_sta p : (4 <=? p) && (p <? 6) = match kind p with P_sta => true | _ => false end.
Proof. do 8 (destruct p as [|p]; [reflexivity|]). reflexivity. Qed.
Lemma cplt_bit_group p b : Z.testbit (cplt_bit p) (Z.of_nat b) = (group p =? b).
Proof.
  assert (H : cplt_bit p = Z.shiftl 1 (Z.of_nat (group p))).
  { do 8 (destruct p as [|p]; [reflexivity|]). reflexivity. }
  rewrite H, Z.shiftl_1_l, Z.pow2_bits_eqb by lia.
  destruct (Z.eqb_spec (Z.of_nat (group p)) (Z.of_nat b)); destruct (Nat.eqb_spec (group p) b); lia.
Qed.
Lemma cplt_bit_pos p : (0 <= cplt_bit p)%Z.
Proof. unfold cplt_bit. repeat (destruct (_ <? _); try lia). Qed.

Lemma tracks_report e p w : tracks e p -> w_idx w = q_idx e ->
  tracks (QEnt (q_idx e) (q_uop e) (q_reports e ++ [w]) (q_cut e)) (fst p, complete_uop w (snd p)).
Proof.
  intros T _. destruct T as [T1 T2 T3 T4 T5 T6 T6p T7 T8 T9 T10 T11 T12 T12b T13]. destruct p as [k u]. cbn [fst snd] in *.
  assert (RA : forall P c, reported P (QEnt (q_idx e) (q_uop e) (q_reports e ++ [w]) c) = reported P e || P w).
  { intros P c. unfold reported. cbn [q_reports]. rewrite existsb_app. cbn. rewrite orb_false_r. reflexivity. }
  assert (KM : forall a, ((2 <=? w_port w) && (w_port w <? 4) || (4 <=? w_port w) && (w_port w <? 6)) = a -> memory_report w = a).
  { intros a. rewrite kind_ld, kind_sta. unfold memory_report. destruct (kind (w_port w)); auto. }
  specialize (KM _ eq_refl).
  unfold complete_uop. rewrite <- KM.
  constructor; cbn [fst snd q_idx q_uop q_reports q_cut u_type u_pf_inst u_pf_load u_pf_store u_illegal u_flush_pipe
                     u_expect u_cplt u_diag u_mispred u_taken u_last u_rest]; auto.
  - intros b. rewrite RA, Z.lor_spec, T6, cplt_bit_group. reflexivity.
  - apply Z.lor_nonneg. split; [exact T6p|apply cplt_bit_pos].
  - rewrite RA, T7, orb_assoc. reflexivity.
  - rewrite RA, T8. destruct (memory_report w); cbn [andb]; [|rewrite orb_false_r; reflexivity].
    destruct (w_pf_inst w), (w_pf_load w), (w_pf_store w); cbn; rewrite ?orb_true_r, ?orb_false_r; reflexivity.
  - rewrite RA, T9. destruct (memory_report w); cbn [andb]; [|rewrite orb_false_r; reflexivity].
    destruct (w_pf_inst w), (w_pf_load w), (w_pf_store w); cbn; rewrite ?orb_true_r, ?orb_false_r; reflexivity.
  - rewrite RA. intros H. destruct (memory_report w) eqn:MR; cbn [andb] in *.
    + destruct (w_pf_load w); [apply orb_true_r|].
      rewrite T10; [reflexivity|]. rewrite !orb_false_r in H.
      destruct (w_pf_inst w || w_pf_store w); destruct ((4 <=? w_port w) && (w_port w <? 6));
        cbn [andb] in H; try exact H.
      destruct (u_pf_store u || w_pf_store w); [discriminate|exact H].
    + rewrite T10; [reflexivity|]. rewrite kind_sta in H. unfold memory_report in MR.
      destruct (kind (w_port w)); try discriminate; exact H.
  - rewrite RA. intros H. destruct (memory_report w) eqn:MR; cbn [andb] in *.
    + destruct (w_pf_inst w), (w_pf_load w), (w_pf_store w); cbn [orb andb] in *;
        rewrite ?orb_true_r, ?orb_false_r, ?andb_true_r, ?andb_false_r in *; try discriminate;
        rewrite ?H; rewrite ?andb_false_r; try reflexivity; apply T11; exact H.
    + rewrite orb_false_r. rewrite kind_sta. unfold memory_report in MR.
      destruct (kind (w_port w)); try discriminate; cbn [andb]; apply T11; exact H.
  - rewrite last_branch_app. destruct (w_branch w); [split; reflexivity|]. exact T12.
  - rewrite trap_value_app. destruct (w_branch w); [reflexivity|]. destruct (memory_report w); [reflexivity|]. exact T12b.
Qed.
Lemma tracks_add1 e p w : tracks e p -> tracks (add1 w e) (comp_p w p).
Proof.
  intros T. unfold add1, comp_p. rewrite (tr_idx _ _ T). rewrite (Nat.eqb_sym (q_idx e)).
  destruct (Nat.eqb_spec (w_idx w) (q_idx e)) as [E|]; [|exact T].
  pose proof (tracks_report e p w T E) as H. rewrite (tr_idx _ _ T) in H. exact H.
Qed.
Lemma tracks_reports ws : forall e p, tracks e p ->
  tracks (add_reports ws e) (fold_left (fun p w => comp_p w p) ws p).
Proof.
  intros e p. rewrite <- add1_fold. revert e p. induction ws as [|w ws IH]; intros e p T; cbn [fold_left]; [exact T|].
  apply IH, tracks_add1, T.
Qed.
Lemma tracks_set_last e p : tracks e p ->
  tracks (QEnt (q_idx e) (q_uop e) (q_reports e) true) (fst p, set_last (snd p)).
Proof.
  intros []. destruct p as [k u]; cbn [fst snd] in *. constructor; cbn; auto. rewrite orb_true_r. reflexivity.
Qed.
Lemma tracks_new idx u : tracks (QEnt idx u [] false) (idx, set_cplt0 u).
Proof.
  constructor; cbn; auto; try lia.
  - intros b. apply Z.bits_0.
  - rewrite orb_false_r. reflexivity.
  - rewrite orb_false_r. reflexivity.
  - rewrite orb_false_r. reflexivity.
Qed.

Lemma F2_skipn {A B} (R : A -> B -> Prop) n : forall a b, Forall2 R a b -> Forall2 R (skipn n a) (skipn n b).
Proof. induction n as [|n IH]; intros a b H; [exact H|]. destruct H; [constructor|]. cbn. apply IH. exact H0. Qed.
Lemma F2_map {A B} (R : A -> B -> Prop) f g : (forall a b, R a b -> R (f a) (g b)) ->
  forall a b, Forall2 R a b -> Forall2 R (map f a) (map g b).
Proof. intros H a b F. induction F; constructor; auto. Qed.
Lemma F2_upto idx : forall q c, Forall2 tracks q c -> Forall2 tracks (upto idx q) (uptop idx c).
Proof.
  intros q c F. induction F as [|e p q c T F IH]; [constructor|]. cbn [upto uptop].
  rewrite (tr_idx _ _ T). destruct (q_idx e =? idx).
  - constructor; [|constructor]. pose proof (tracks_set_last e p T) as H. rewrite (tr_idx _ _ T) in H. exact H.
  - constructor; assumption.
Qed.
Lemma F2_arrivals l f : forall b, Forall2 tracks (arrivals l b f)
  (map (fun e => (q_idx e, set_cplt0 (q_uop e))) (arrivals l b f)).
Proof.
  induction f as [|[u|] f IH]; intros b; cbn [arrivals map]; [constructor| |apply IH].
  constructor; [apply tracks_new|apply IH].
Qed.

Lemma reach_inv r q : reach r q -> exists n, wf r n /\ Forall2 tracks q (contents r).
Proof.
  intros H. induction H as [|r q i H (n & W & F) T].
  - exists 0. split; [apply wf_init|]. rewrite (contents_win _ _ wf_init). constructor.
  - destruct (step_ok r n i W T) as (n' & W' & C). exists n'. split; [exact W'|]. rewrite C.
    unfold q_step, p_step. destruct (b_flush (broadcast r i)); [constructor|].
    assert (F3 : Forall2 tracks
      (match i_mispred i with
       | Some idx => upto idx (map (add_reports (i_wb i)) (skipn (length (committed r i)) q))
       | None => map (add_reports (i_wb i)) (skipn (length (committed r i)) q)
       end)
      (match i_mispred i with
       | Some idx => uptop idx (map (fun p => fold_left (fun p w => comp_p w p) (i_wb i) p) (skipn (length (committed r i)) (contents r)))
       | None => map (fun p => fold_left (fun p w => comp_p w p) (i_wb i) p) (skipn (length (committed r i)) (contents r))
       end)).
    { assert (F2 : Forall2 tracks (map (add_reports (i_wb i)) (skipn (length (committed r i)) q))
        (map (fun p => fold_left (fun p w => comp_p w p) (i_wb i) p) (skipn (length (committed r i)) (contents r)))).
      { apply F2_map; [intros; apply tracks_reports; assumption|]. apply F2_skipn, F. }
      destruct (i_mispred i); [apply F2_upto|]; exact F2. }
    destruct (rob_ready r); [|rewrite app_nil_r; exact F3].
    apply Forall2_app; [exact F3|apply F2_arrivals].
Qed.

(** Keys are unique. *)
Lemma LB_NoDup l bs : forall b, NoDup (map fst (LB l b bs)).
Proof.
  induction bs as [|e bs IH]; intros b; cbn [LB]; [constructor|].
  destruct (e_valid e); [|apply IH]. cbn [map fst]. constructor; [|apply IH].
  intros H. apply LB_keys in H. destruct H as (k & _ & H). unfold make_rob_idx in H. lia.
Qed.
Lemma NoDup_app_intro {A} (a b : list A) : NoDup a -> NoDup b -> (forall x, In x a -> ~ In x b) -> NoDup (a ++ b).
Proof.
  induction a as [|x a IH]; intros Ha Hb H; [exact Hb|]. inversion Ha; subst. cbn. constructor.
  - intros X. apply in_app_or in X. destruct X as [X|X]; [contradiction|]. apply (H x); [left; reflexivity|exact X].
  - apply IH; auto. intros y Hy. apply H. right. exact Hy.
Qed.
Lemma win_keys r n a m x : wf r n -> In x (map fst (win r a m)) -> exists k, a <= k < a + m /\ rob_line x = (deq_ptr r + k) mod LINES.
Proof.
  intros W X. unfold win in X. apply in_map_iff in X. destruct X as (p & <- & X). apply in_flat_map in X.
  destruct X as (q & Hq & X). apply in_seq in Hq. rewrite line_contents_LB in X.
  destruct (LB_keys _ 0 _ (fst p) (in_map fst _ _ X)) as (j & Hj & E). rewrite (wf_len _ _ W) in Hj.
  exists q. split; [lia|]. rewrite E. unfold rob_line, make_rob_idx, BANKS in *. lia.
Qed.
Lemma win_NoDup r n : wf r n -> forall m a, a + m <= LINES -> NoDup (map fst (win r a m)).
Proof.
  intros W. induction m as [|m IH]; intros a H; [constructor|]. rewrite win_S, map_app.
  apply NoDup_app_intro.
  - rewrite line_contents_LB. apply LB_NoDup.
  - apply IH. lia.
  - intros x X Y. rewrite line_contents_LB in X.
    destruct (LB_keys _ 0 _ x X) as (j & Hj & E). rewrite (wf_len _ _ W) in Hj.
    destruct (win_keys _ _ _ _ _ W Y) as (k & Hk & K).
    assert (rob_line x = (deq_ptr r + a) mod LINES) by (rewrite E; unfold rob_line, make_rob_idx, BANKS in *; lia).
    rewrite K in H0. apply mod_inj in H0; lia.
Qed.
Lemma contents_NoDup r n : wf r n -> NoDup (map fst (contents r)).
Proof. intros W. apply (win_NoDup r n W LINES 0). lia. Qed.
Lemma contents_range r n x : wf r n -> In x (map fst (contents r)) -> x < LINES * BANKS.
Proof.
  intros W X. destruct (win_keys r n 0 LINES x W X) as (k & _ & K). unfold rob_line, LINES, BANKS in *. lia.
Qed.
