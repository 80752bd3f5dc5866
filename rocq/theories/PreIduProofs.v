(** Proofs about the instruction buffer and the fetch-target queue. *)
From Verif Require Import Base BaseLemmas Ring PreIduModel PreIduSpec.
Local Open Scope nat_scope.
Ltac Zify.zify_post_hook ::= Z.div_mod_to_equations.

(** *** Instruction buffer *)
Definition ib_ok (b : ibuf) : Prop :=
  ib_head b < IBN /\ ib_count b <= IBN /\ ib_tail b = (ib_head b + ib_count b) mod IBN.
Definition contents (b : ibuf) : list ibe := ring IBN (ib_ent b) (ib_head b) (ib_count b).

Lemma skipn_tl {A} n (l : list A) : skipn n (tl l) = skipn (S n) l.
Proof. destruct l; [destruct n; reflexivity|reflexivity]. Qed.
Lemma pop_loop_spec n : forall b c, ib_head b < IBN -> n <= c -> c <= IBN ->
  ib_head (ib_pop_loop n b) = (ib_head b + n) mod IBN /\ ib_tail (ib_pop_loop n b) = ib_tail b /\
  ring IBN (ib_ent (ib_pop_loop n b)) (ib_head (ib_pop_loop n b)) (c - n) = skipn n (ring IBN (ib_ent b) (ib_head b) c).
Proof.
  induction n as [|n IH]; intros b c Hh Hn Hc.
  - cbn [ib_pop_loop skipn]. rewrite Nat.sub_0_r, Nat.add_0_r. rewrite Nat.mod_small by (unfold IBN in *; lia). auto.
  - cbn [ib_pop_loop]. set (b' := IBuf _ _ _ _).
    destruct (IH b' (c - 1)) as (A & B & C).
    + cbn [b' ib_head]. apply Nat.mod_upper_bound. discriminate.
    + lia.
    + lia.
    + rewrite A, B. split; [cbn [b' ib_head]; rewrite Nat.add_mod_idemp_l by discriminate; f_equal; lia|].
      split; [reflexivity|]. rewrite A in C. replace (c - S n) with (c - 1 - n) by lia. rewrite C.
      cbn [b' ib_ent ib_head]. destruct c as [|c]; [lia|]. replace (S c - 1) with c by lia.
      rewrite ring_pop by (unfold IBN in *; lia). apply skipn_tl.
Qed.
Lemma ib_pop_spec n b : ib_ok b -> ib_ok (ib_pop n b) /\ contents (ib_pop n b) = skipn n (contents b) /\
  ib_count (ib_pop n b) = ib_count b - n.
Proof.
  intros (H1 & H2 & H3). unfold ib_pop, contents.
  set (a := if ib_count b <? n then ib_count b else n).
  assert (Ha : a <= ib_count b) by (unfold a; destruct (Nat.ltb_spec (ib_count b) n); lia).
  destruct (pop_loop_spec a b (ib_count b) H1 Ha H2) as (A & B & C).
  unfold ib_ok. cbn [ib_ent ib_head ib_tail ib_count]. rewrite A, B in *.
  split; [split; [apply Nat.mod_upper_bound; discriminate|]; split; [lia|]|split].
  - rewrite H3, Nat.add_mod_idemp_l by discriminate. f_equal. lia.
  - rewrite C. unfold a. destruct (Nat.ltb_spec (ib_count b) n); [|reflexivity].
    rewrite !skipn_all2; [reflexivity| |]; rewrite ring_length; lia.
  - unfold a. destruct (Nat.ltb_spec (ib_count b) n); lia.
Qed.
Lemma ib_push_spec l : forall b, ib_ok b -> ib_count b + length l <= IBN ->
  ib_ok (fold_left ib_push l b) /\ contents (fold_left ib_push l b) = contents b ++ l /\
  ib_count (fold_left ib_push l b) = ib_count b + length l.
Proof.
  induction l as [|e l IH]; intros b (H1 & H2 & H3) HL; cbn [fold_left length] in *.
  - rewrite app_nil_r, Nat.add_0_r. split; [split; auto|auto].
  - destruct (IH (ib_push b e)) as (A & B & C).
    + unfold ib_ok, ib_push. cbn [ib_head ib_count ib_tail]. split; [exact H1|]. split; [lia|]. rewrite H3, Nat.add_mod_idemp_l by discriminate. f_equal. lia.
    + cbn. lia.
    + split; [exact A|]. split; [|rewrite C; cbn; lia]. rewrite B. unfold contents at 1, ib_push. cbn [ib_ent ib_head ib_count].
      rewrite H3, Nat.add_1_r, ring_push by (unfold IBN in *; lia). rewrite <- app_assoc. reflexivity.
Qed.
Lemma ib_clear_ok : ib_ok ib_clear /\ contents ib_clear = [].
Proof. split; [|reflexivity]. unfold ib_ok. cbn. unfold IBN. lia. Qed.

Lemma issue_spec st : ib_ok (ib st) -> issue st = firstn 2 (contents (ib st)).
Proof.
  intros (H1 & H2 & H3). unfold issue, contents, ib_peek, DW.
  destruct (Nat.ltb_spec (ib_count (ib st)) 2) as [L|L].
  - rewrite firstn_all2 by (rewrite ring_length; lia). reflexivity.
  - rewrite ring_firstn by lia. reflexivity.
Qed.

(** *** Fetch-target queue *)
Definition q_ok (st : preq) (fs : list fetch) : Prop :=
  q_head st < FTQN /\ q_count st = length fs /\ length fs <= FTQN /\
  q_tail st = (q_head st + q_count st) mod FTQN /\
  ring FTQN (q_ent st) (q_head st) (q_count st) = map ftq_entry fs /\
  forall k, k < FTQN -> q_valid st ((q_head st + k) mod FTQN) = (k <? q_count st).

Lemma q_init_ok : q_ok preq_init [].
Proof. unfold q_ok. cbn. unfold FTQN. repeat split; lia. Qed.

Lemma q_alloc_ok st i fs : q_ok st fs -> accepts st i = true -> q_ok (after_accept st i) (fs ++ [i_fetch i]).
Proof.
  intros (H1 & H2 & H3 & H4 & H5 & H6) A. unfold after_accept. rewrite A.
  assert (L : q_count st < FTQN).
  { unfold accepts, front_ready in A. destruct (Nat.ltb_spec (q_count st) FTQN); [assumption|].
    cbn in A. rewrite andb_false_r in A. discriminate. }
  unfold q_ok. cbn [q_head q_count q_tail q_ent q_valid].
  split; [exact H1|]. split; [rewrite app_length; cbn; lia|]. split; [rewrite app_length; cbn; lia|].
  split; [rewrite H4, Nat.add_mod_idemp_l by discriminate; f_equal; lia|].
  split.
  - rewrite H4, Nat.add_1_r, ring_push by (unfold FTQN in *; lia). rewrite H5, map_app. reflexivity.
  - intros k K. unfold fupd. rewrite H4. destruct (Nat.eqb_spec ((q_head st + k) mod FTQN) ((q_head st + q_count st) mod FTQN)) as [E|NE].
    + apply slot_inj in E; [|unfold FTQN in *; lia..]. subst k. symmetry. apply Nat.ltb_lt. lia.
    + rewrite H6 by exact K. destruct (Nat.ltb_spec k (q_count st)); destruct (Nat.ltb_spec k (q_count st + 1)); try reflexivity; try lia.
      exfalso. apply NE. f_equal. lia.
Qed.
Lemma q_set_ib st fs b : q_ok st fs -> q_ok (set_ib st b) fs.
Proof. exact (fun H => H). Qed.

Lemma q_pop_ok n : forall st fs, q_ok st fs -> n <= length fs ->
  q_ok (ftq_pop n st) (skipn n fs) /\ q_head (ftq_pop n st) = (q_head st + n) mod FTQN /\ ib (ftq_pop n st) = ib st.
Proof.
  induction n as [|n IH]; intros st fs Q L.
  - cbn [ftq_pop skipn]. split; [exact Q|]. split; [|reflexivity]. rewrite Nat.add_0_r. symmetry. apply Nat.mod_small. apply Q.
  - destruct Q as (H1 & H2 & H3 & H4 & H5 & H6). cbn [ftq_pop].
    destruct (Nat.leb_spec (q_count st) 0); [lia|]. destruct fs as [|f fs]; [cbn in L; lia|]. cbn [length] in *.
    set (st' := PreQ _ _ _ _ _ _).
    assert (Q' : q_ok st' fs).
    { unfold q_ok, st'. cbn [q_head q_count q_tail q_ent q_valid].
      split; [apply Nat.mod_upper_bound; discriminate|]. split; [lia|]. split; [lia|].
      split; [rewrite H4, Nat.add_mod_idemp_l by discriminate; f_equal; lia|]. split.
      - rewrite H2 in H5. rewrite ring_cons in H5 by (unfold FTQN; lia). rewrite H2. replace (S (length fs) - 1) with (length fs) by lia.
        injection H5 as _ H5. exact H5.
      - intros k K. rewrite Nat.add_mod_idemp_l by discriminate. replace (q_head st + 1 + k) with (q_head st + (S k)) by lia.
        unfold fupd. destruct (Nat.eqb_spec ((q_head st + S k) mod FTQN) (q_head st)) as [E|NE].
        + symmetry. apply Nat.ltb_ge. unfold FTQN in *. lia.
        + destruct (Nat.eq_dec (S k) FTQN) as [E|].
          * exfalso. apply NE. rewrite E. unfold FTQN in *. lia.
          * rewrite H6 by lia. destruct (Nat.ltb_spec (S k) (q_count st)); destruct (Nat.ltb_spec k (q_count st - 1)); try reflexivity; lia. }
    destruct (IH st' fs Q') as (A & B & C); [lia|]. split; [exact A|]. split; [|exact C].
    rewrite B. unfold st'. cbn [q_head]. rewrite Nat.add_mod_idemp_l by discriminate. f_equal. lia.
Qed.

Lemma inval_spec nrm d : forall v x, fold_left (fun v k => fupd v ((nrm + k) mod FTQN) false) (seq 0 d) v x =
  if existsb (fun k => x =? (nrm + k) mod FTQN) (seq 0 d) then false else v x.
Proof.
  generalize (seq 0 d). intros l. induction l as [|k l IH]; intros v x; [reflexivity|].
  cbn [fold_left existsb]. rewrite IH. unfold fupd. destruct (Nat.eqb_spec x ((nrm + k) mod FTQN)); cbn; [|reflexivity].
  destruct (existsb _ l); reflexivity.
Qed.
Lemma q_recover_ok st fs k : q_ok st fs -> k < length fs ->
  q_ok (ftq_recover (((q_head st + k) mod FTQN + 1) mod FTQN) st) (firstn (S k) fs) /\
  q_head (ftq_recover (((q_head st + k) mod FTQN + 1) mod FTQN) st) = q_head st.
Proof.
  intros (H1 & H2 & H3 & H4 & H5 & H6) K. split; [|reflexivity]. unfold ftq_recover.
  set (nt := ((q_head st + k) mod FTQN + 1) mod FTQN).
  assert (NT : nt mod FTQN = (q_head st + S k) mod FTQN).
  { unfold nt. rewrite Nat.add_mod_idemp_l, Nat.mod_mod by discriminate. f_equal. lia. }
  rewrite NT. set (d := (q_tail st + FTQN - (q_head st + S k) mod FTQN) mod FTQN).
  assert (D : d = q_count st - S k).
  { unfold d. rewrite H4. unfold FTQN in *. lia. }
  unfold q_ok. cbn [q_head q_count q_tail q_ent q_valid].
  assert (C : (q_count st + 256 - d) mod 256 = S k).
  { rewrite D. unfold FTQN in *. lia. }
  rewrite C. clear C NT H4. clearbody d. clear nt.
  assert (LF : length (firstn (S k) fs) = S k) by (apply firstn_length_le; exact K).
  split; [exact H1|]. split; [lia|]. split; [lia|]. split; [reflexivity|]. split.
  - rewrite <- firstn_map, <- H5, ring_firstn by lia. reflexivity.
  - intros j J. rewrite inval_spec, H6 by exact J.
    destruct (existsb _ (seq 0 d)) eqn:E.
    + apply existsb_exists in E. destruct E as (y & Y & E). apply in_seq in Y. apply Nat.eqb_eq in E.
      rewrite Nat.add_mod_idemp_l in E by discriminate.
      replace (q_head st + S k + y) with (q_head st + (S k + y)) in E by lia.
      apply slot_inj in E; [|unfold FTQN in *; lia..]. symmetry. apply Nat.ltb_ge. lia.
    + destruct (Nat.ltb_spec j (q_count st)); destruct (Nat.ltb_spec j (S k)); try reflexivity; try lia.
      exfalso. apply not_true_iff_false in E. apply E. apply existsb_exists. exists (j - S k).
      split; [apply in_seq; lia|]. apply Nat.eqb_eq. rewrite Nat.add_mod_idemp_l by discriminate. f_equal. lia.
Qed.
Lemma q_flush_ok st : q_ok (ftq_flush st) [].
Proof. unfold q_ok. cbn. unfold FTQN. repeat split; lia. Qed.

(** *** Blocks *)
Definition inst_ok (idx : nat) (f : fetch) (e : ibe) : Prop :=
  e_idx e = idx /\ e_off e < FW /\ e_valid e = true /\
  e_pc e = fs_pc (f_slot f (e_off e)) /\ e_inst e = fs_inst (f_slot f (e_off e)) /\
  e_fault e = fs_fault (f_slot f (e_off e)) /\ fs_valid (f_slot f (e_off e)) = true.
Definition block_ok (idx : nat) (b : block) : Prop :=
  (exists l e, snd b = l ++ [e] /\ Forall (fun x => e_last x = false) l /\ e_last e = true) /\
  Forall (inst_ok idx (fst b)) (snd b).
Fixpoint blocks_ok (h : nat) (bs : list block) : Prop :=
  match bs with
  | [] => True
  | b :: r => block_ok (h mod FTQN) b /\ blocks_ok (h + 1) r
  end.
Lemma blocks_ok_mod bs : forall h h', h mod FTQN = h' mod FTQN -> blocks_ok h bs -> blocks_ok h' bs.
Proof.
  induction bs as [|b r IH]; intros h h' E H; [exact I|]. destruct H as [H1 H2]. split; [rewrite <- E; exact H1|].
  apply (IH (h + 1)); [|exact H2]. unfold FTQN in *. lia.
Qed.
Lemma blocks_ok_app bs bs' : forall h, blocks_ok h (bs ++ bs') <-> blocks_ok h bs /\ blocks_ok (h + length bs) bs'.
Proof.
  induction bs as [|b r IH]; intros h; cbn [app blocks_ok length].
  - rewrite Nat.add_0_r. tauto.
  - rewrite IH. replace (h + S (length r)) with (h + 1 + length r) by lia. tauto.
Qed.
Lemma insts_cons b r : insts (b :: r) = snd b ++ insts r.
Proof. reflexivity. Qed.
Lemma insts_app a b : insts (a ++ b) = insts a ++ insts b.
Proof. unfold insts. rewrite map_app, concat_app. reflexivity. Qed.
Definition lasts (l : list ibe) : nat := length (filter e_last l).
Lemma lasts_app a b : lasts (a ++ b) = lasts a + lasts b.
Proof. unfold lasts. rewrite filter_app, app_length. reflexivity. Qed.
Lemma lasts_none l : Forall (fun x => e_last x = false) l -> lasts l = 0.
Proof. induction 1 as [|x l H _ IH]; [reflexivity|]. unfold lasts in *. cbn. rewrite H. exact IH. Qed.

Lemma block_len idx b : block_ok idx b -> 1 <= length (snd b).
Proof. intros [(l & e & E & _) _]. rewrite E, app_length. cbn. lia. Qed.
Lemma block_lasts idx b : block_ok idx b -> lasts (snd b) = 1.
Proof. intros [(l & e & E & F & L) _]. rewrite E, lasts_app, lasts_none by exact F. unfold lasts. cbn. rewrite L. reflexivity. Qed.
Lemma block_partial idx b c : block_ok idx b -> c < length (snd b) ->
  lasts (firstn c (snd b)) = 0 /\ block_ok idx (fst b, skipn c (snd b)).
Proof.
  intros [(l & e & E & F & L) A] C. rewrite E, app_length in *. cbn in C.
  split.
  - rewrite firstn_app. replace (c - length l) with 0 by lia. cbn. rewrite app_nil_r. apply lasts_none.
    clear - F. revert c. induction F; intros [|c]; cbn; constructor; auto.
  - split; cbn [fst snd].
    + exists (skipn c l), e. rewrite skipn_app. replace (c - length l) with 0 by lia. split; [reflexivity|]. split; [|exact L].
      rewrite <- (firstn_skipn c l) in F. apply Forall_app in F. apply F.
    + rewrite <- (firstn_skipn c (l ++ [e])) in A. apply Forall_app in A. apply A.
Qed.

Lemma retire_spec bs : forall h c, blocks_ok h bs -> c <= length (insts bs) ->
  let n := lasts (firstn c (insts bs)) in
  n <= length bs /\ map fst (retire c bs) = skipn n (map fst bs) /\
  blocks_ok (h + n) (retire c bs) /\ insts (retire c bs) = skipn c (insts bs).
Proof.
  induction bs as [|b r IH]; intros h c B C.
  - cbn in *. destruct c; cbn; auto.
  - destruct B as [B1 B2]. rewrite insts_cons in *. rewrite app_length in C. destruct b as [f l]. cbn [retire fst snd] in *.
    destruct (Nat.ltb_spec c (length l)) as [LT|GE].
    + destruct (block_partial _ _ c B1 LT) as [P1 P2]. cbn [fst snd] in P1, P2.
      rewrite firstn_app. replace (c - length l) with 0 by lia. rewrite firstn_O, app_nil_r, P1.
      cbn zeta. split; [lia|]. split; [reflexivity|]. split; [rewrite Nat.add_0_r; split; assumption|].
      rewrite insts_cons, skipn_app. replace (c - length l) with 0 by lia. reflexivity.
    + rewrite firstn_app, firstn_all2 by lia. rewrite lasts_app, (block_lasts _ _ B1 : lasts l = 1).
      destruct (IH (h + 1) (c - length l) B2) as (A1 & A2 & A3 & A4); [lia|].
      set (n := lasts (firstn (c - length l) (insts r))) in *. cbn zeta.
      split; [cbn; lia|]. split; [exact A2|]. split; [replace (h + (1 + n)) with (h + 1 + n) by lia; exact A3|].
      rewrite A4, skipn_app, (skipn_all2 l) by lia. reflexivity.
Qed.

Lemma mark_last_snoc l e : mark_last (l ++ [e]) = l ++ [Ibe (e_valid e) (e_inst e) (e_pc e) (e_fault e) (e_idx e) (e_off e) true].
Proof. unfold mark_last. rewrite rev_app_distr. cbn. rewrite rev_involutive. reflexivity. Qed.
Lemma block_mark idx f l m : block_ok idx (f, l) -> 1 <= m <= length l -> block_ok idx (f, mark_last (firstn m l)).
Proof.
  intros [(l' & e & E & F & L) A] M. cbn [fst snd] in *.
  assert (NE : firstn m l <> []) by (destruct l; [cbn in M; lia|]; destruct m; [lia|]; discriminate).
  destruct (exists_last NE) as (p & x & X). rewrite X, mark_last_snoc.
  assert (AP : Forall (inst_ok idx f) (p ++ [x])).
  { rewrite <- X. rewrite <- (firstn_skipn m l) in A. apply Forall_app in A. apply A. }
  apply Forall_app in AP. destruct AP as [AP1 AP2]. split; cbn [fst snd].
  - eexists p, _. split; [reflexivity|]. split; [|reflexivity].
    assert (PL : exists q, l' = p ++ q).
    { assert (PF : length p = m - 1).
      { apply (f_equal (@length _)) in X. rewrite firstn_length, app_length in X. cbn in X. lia. }
      exists (skipn (m - 1) l'). rewrite <- (firstn_skipn (m - 1) l') at 1. f_equal.
      assert (Y : firstn (m - 1) (firstn m l) = p).
      { rewrite X, firstn_app, PF, Nat.sub_diag. cbn. rewrite app_nil_r, firstn_all2 by lia. reflexivity. }
      rewrite firstn_firstn, Nat.min_l in Y by lia. rewrite E, firstn_app in Y.
      rewrite E, app_length in M. cbn in M. replace (m - 1 - length l') with 0 in Y by lia. cbn in Y. rewrite app_nil_r in Y. exact Y. }
    destruct PL as (q & ->). apply Forall_app in F. apply F.
  - apply Forall_app. split; [exact AP1|]. inversion AP2 as [|? ? (P1 & P2 & P3 & P4 & P5 & P6 & P7) _]; subst.
    constructor; [|constructor]. unfold inst_ok. cbn. auto 10.
Qed.
Lemma keep_spec bs : forall h m, blocks_ok h bs -> 1 <= m <= length (insts bs) ->
  exists k, k < length bs /\ map fst (keep m bs) = firstn (S k) (map fst bs) /\
    (forall e, nth_error (insts bs) (m - 1) = Some e -> e_idx e = (h + k) mod FTQN) /\
    blocks_ok h (keep m bs) /\ insts (keep m bs) = mark_last (firstn m (insts bs)).
Proof.
  induction bs as [|b r IH]; intros h m B M; [cbn in M; lia|].
  destruct B as [B1 B2]. rewrite insts_cons in *. rewrite app_length in M. destruct b as [f l]. cbn [keep fst snd] in *.
  destruct (Nat.leb_spec m (length l)) as [LE|GT].
  - exists 0. split; [cbn; lia|]. split; [reflexivity|]. split; [|split].
    + intros e E. rewrite nth_error_app1 in E by lia. apply nth_error_In in E.
      destruct B1 as [_ A]. cbn in A. rewrite Forall_forall in A. apply A in E. rewrite Nat.add_0_r. apply E.
    + split; [|exact I]. apply block_mark; [exact B1|lia].
    + rewrite insts_cons. cbn. rewrite app_nil_r, firstn_app. replace (m - length l) with 0 by lia. cbn. rewrite app_nil_r. reflexivity.
  - destruct (IH (h + 1) (m - length l) B2) as (k & K1 & K2 & K3 & K4 & K5); [lia|].
    exists (S k). split; [cbn; lia|]. split; [cbn [map fst]; rewrite K2; reflexivity|]. split; [|split].
    + intros e E. rewrite nth_error_app2 in E by lia. replace (m - 1 - length l) with (m - length l - 1) in E by lia.
      rewrite (K3 e E). f_equal. lia.
    + split; [exact B1|exact K4].
    + rewrite insts_cons, K5. cbn [snd]. rewrite firstn_app, (firstn_all2 l) by lia.
      assert (NE : firstn (m - length l) (insts r) <> []).
      { intros X. apply (f_equal (@length _)) in X. rewrite firstn_length in X. cbn in X. lia. }
      destruct (exists_last NE) as (p & x & X). rewrite X, app_assoc, !mark_last_snoc, app_assoc. reflexivity.
Qed.

(** *** A freshly accepted block *)
Lemma last_split (l : list nat) : l <> [] -> l = removelast l ++ [last l 0].
Proof. apply app_removelast_last. Qed.
Lemma fresh_block st i : accepts st i = true -> q_tail st < FTQN ->
  block_ok (q_tail st mod FTQN) (i_fetch i, push_entries st i).
Proof.
  intros A T. unfold push_entries. rewrite A. rewrite Nat.mod_small by exact T.
  assert (NE : incoming (i_fetch i) <> []).
  { intros E. unfold accepts in A. rewrite E in A. cbn in A. rewrite andb_false_r in A. discriminate. }
  assert (ND : NoDup (incoming (i_fetch i))) by apply NoDup_filter, seq_NoDup.
  split; cbn [fst snd].
  - exists (map (push_entry (q_tail st) (i_fetch i)) (removelast (incoming (i_fetch i)))),
      (push_entry (q_tail st) (i_fetch i) (last (incoming (i_fetch i)) 0)).
    rewrite (last_split _ NE) at 1. rewrite map_app. split; [reflexivity|]. split.
    + apply Forall_forall. intros e E. apply in_map_iff in E. destruct E as (x & <- & X). cbn.
      apply Nat.eqb_neq. intros ->. unfold last_fire in X.
      rewrite (last_split _ NE) in ND. apply NoDup_remove_2 in ND. rewrite app_nil_r in ND. contradiction.
    + cbn. apply Nat.eqb_refl.
  - apply Forall_forall. intros e E. apply in_map_iff in E. destruct E as (x & <- & X).
    unfold incoming in X. apply filter_In in X. destruct X as [X1 X2]. apply in_seq in X1.
    unfold inst_ok. cbn. unfold FW in *. repeat split; auto; lia.
Qed.

(** *** Invariant *)
Record inv (st : preq) (g : ghost) : Prop := Inv {
  v_ib : ib_ok (ib st);
  v_q : q_ok st (map fst (blocks g));
  v_blocks : blocks_ok (q_head st) (blocks g);
  v_suffix : exists pre, insts (blocks g) = pre ++ contents (ib st);
  v_stream : accepted g = consumed g ++ contents (ib st)
}.
Lemma inv_init : inv preq_init (Ghost [] [] []).
Proof.
  constructor; cbn; auto.
  - apply ib_clear_ok.
  - apply q_init_ok.
  - exists []. reflexivity.
Qed.
Lemma lead_commits l : length (filter (fun o : option centry => match o with Some c => c_last c | None => false end) l) =
  length (filter c_last (flat_map (fun o => match o with Some c => [c] | None => [] end) l)).
Proof.
  induction l as [|[c|] l IH]; [reflexivity| |exact IH]. cbn. destruct (c_last c); cbn; rewrite IH; reflexivity.
Qed.
Lemma filter_commit l : length (filter c_last (map as_commit l)) = lasts l.
Proof. unfold lasts. induction l as [|e l IH]; [reflexivity|]. cbn. destruct (e_last e); cbn; rewrite IH; reflexivity. Qed.
Lemma skipn_app_suffix {A} (pre suf : list A) c : c <= length pre -> skipn c (pre ++ suf) = skipn c pre ++ suf.
Proof. intros H. rewrite skipn_app. replace (c - length pre) with 0 by lia. reflexivity. Qed.

Lemma taken_prefix (l : list ibe) n r : n <= length l -> (forall b, In b r -> b = false) ->
  map snd (filter fst (combine (repeat true n ++ r) l)) = firstn n l.
Proof.
  revert l. induction n as [|n IH]; intros l L R.
  - cbn. revert l L. induction r as [|b r IHr]; intros [|x l] L; try reflexivity. cbn. rewrite (R b (or_introl eq_refl)). apply IHr; [|lia]. intros; apply R; now right.
  - destruct l as [|x l]; cbn in L; [lia|]. cbn. f_equal. apply IH; [lia|exact R].
Qed.
Lemma lead_prefix n r : (forall b, In b r -> b = false) -> n <= DW -> lead (firstn DW (repeat true n ++ r)) = n.
Proof.
  generalize DW as w. revert n. induction n as [|n IH]; intros w R L.
  - cbn. destruct r as [|b r]; [destruct w; reflexivity|]. destruct w; [reflexivity|]. cbn. now rewrite (R b (or_introl eq_refl)).
  - destruct w as [|w]; [lia|]. cbn. f_equal. apply IH; [exact R|lia].
Qed.
Lemma issue_len st : length (issue st) <= DW.
Proof. unfold issue. rewrite map_length, seq_length. destruct (Nat.ltb_spec (ib_count (ib st)) DW); lia. Qed.
Lemma consume_ok st i : (exists n r, i_consume i = repeat true n ++ r /\ n <= length (issue st) /\ forall b, In b r -> b = false) ->
  pop_count i <= length (issue st) /\ taken st i = firstn (pop_count i) (issue st).
Proof.
  intros (n & r & E & L & R). unfold pop_count, taken. pose proof (issue_len st). rewrite E, lead_prefix, taken_prefix by (auto; lia). auto.
Qed.

Lemma inv_step st g i m : inv st g -> env_ok g st i m -> inv (pre_step st i) (g_step g st i m).
Proof.
  intros [IB Q B (pre & S) ST] [EC' ECO ECL EM]. destruct (consume_ok st i EC') as [EC TK]. clear EC'. unfold pre_step, g_step. rewrite TK. clear TK.
  destruct (i_flush i) eqn:F.
  { constructor; cbn [set_ib ib blocks accepted consumed map].
    - apply ib_clear_ok.
    - apply q_set_ib, q_flush_ok.
    - exact I.
    - exists []. reflexivity.
    - reflexivity. }
  destruct (i_mispred i) eqn:MP.
  { assert (NA : after_accept st i = st) by (unfold after_accept, accepts, front_ready; rewrite MP; reflexivity).
    rewrite NA. destruct (EM eq_refl) as [X|(C0 & M & e & E & EI)]; [discriminate|].
    assert (ML : 1 <= m <= length (insts (blocks g))) by (unfold left_buffer in M; lia).
    destruct (keep_spec _ _ m B ML) as (k & K1 & K2 & K3 & K4 & K5).
    specialize (K3 e E). rewrite <- EI, K3.
    destruct (q_recover_ok st _ k Q) as [R1 R2]; [rewrite map_length; exact K1|].
    constructor; cbn [set_ib ib blocks accepted consumed].
    - apply ib_clear_ok.
    - rewrite K2. apply q_set_ib. exact R1.
    - cbn [q_head set_ib]. rewrite R2. exact K4.
    - exists (insts (keep m (blocks g))). symmetry. apply app_nil_r.
    - reflexivity. }
  (* normal cycle *)
  assert (LB : length (commits i) <= length pre).
  { unfold left_buffer in ECL. rewrite S, app_length in ECL. unfold contents in ECL. rewrite ring_length in ECL. lia. }
  assert (LI : length (commits i) <= length (insts (blocks g))) by (rewrite S, app_length; lia).
  destruct (retire_spec _ _ _ B LI) as (R1 & R2 & R3 & R4).
  set (n := lasts (firstn (length (commits i)) (insts (blocks g)))) in *.
  assert (CL : committed_last i = n).
  { unfold committed_last. rewrite lead_commits. fold (commits i). rewrite ECO. rewrite filter_commit. reflexivity. }
  rewrite CL.
  pose proof (ib_pop_spec (pop_count i) _ IB) as (P1 & P2 & P3).
  assert (PL : ib_count (ib_pop (pop_count i) (ib st)) + length (push_entries st i) <= IBN).
  { rewrite P3. destruct IB as (_ & I2 & _). unfold push_entries. destruct (accepts st i) eqn:A; [|cbn; lia].
    rewrite map_length. unfold accepts, front_ready, can_accept in A.
    destruct (Nat.leb_spec (length (incoming (i_fetch i))) (IBN - ib_count (ib st))); [lia|].
    rewrite !andb_false_r in A. discriminate. }
  destruct (ib_push_spec (push_entries st i) _ P1 PL) as (H1 & H2 & H3).
  set (b := fold_left ib_push (push_entries st i) (ib_pop (pop_count i) (ib st))) in *.
  assert (CT : contents b = skipn (pop_count i) (contents (ib st)) ++ push_entries st i) by (rewrite H2, P2; reflexivity).
  assert (PC : pop_count i <= length (contents (ib st))).
  { rewrite issue_spec in EC by exact IB. rewrite firstn_length in EC. lia. }
  assert (IS : firstn (pop_count i) (issue st) = firstn (pop_count i) (contents (ib st))).
  { rewrite issue_spec in * by exact IB. rewrite firstn_firstn. rewrite firstn_length in EC. f_equal. lia. }
  (* queue after acceptance *)
  set (nb := if accepts st i then [(i_fetch i, push_entries st i)] else []).
  assert (QA : q_ok (after_accept st i) (map fst (blocks g ++ nb)) /\ q_head (after_accept st i) = q_head st /\ ib (after_accept st i) = ib st).
  { unfold nb. destruct (accepts st i) eqn:A.
    - split; [rewrite map_app; apply q_alloc_ok; assumption|]. unfold after_accept. rewrite A. auto.
    - rewrite app_nil_r. unfold after_accept. rewrite A. auto. }
  destruct QA as (QA1 & QA2 & QA3).
  assert (NB : blocks_ok (q_head st + length (blocks g)) nb /\ insts nb = push_entries st i).
  { unfold nb. destruct (accepts st i) eqn:A.
    - split; [|cbn; apply app_nil_r]. cbn [blocks_ok]. split; [|exact I].
      destruct Q as (q1 & q2 & q3 & q4 & q5 & q6). rewrite map_length in q2. assert (q2' : q_count st = length (blocks g)) by exact q2. rewrite <- q2'.
      replace ((q_head st + q_count st) mod FTQN) with (q_tail st mod FTQN)
        by (rewrite q4, Nat.mod_mod by discriminate; reflexivity).
      apply fresh_block; [exact A|]. rewrite q4. apply Nat.mod_upper_bound. discriminate.
    - split; [exact I|]. unfold push_entries. rewrite A. reflexivity. }
  destruct NB as (NB1 & NB2).
  destruct (q_pop_ok n (set_ib (after_accept st i) b) (map fst (blocks g ++ nb))) as (Z1 & Z2 & Z3).
  { apply q_set_ib. exact QA1. }
  { rewrite map_length, app_length. lia. }
  cbn [q_head set_ib] in Z2. rewrite QA2 in Z2.
  constructor; cbn [blocks accepted consumed].
  - rewrite Z3. exact H1.
  - rewrite map_app, R2. rewrite map_app, skipn_app in Z1. rewrite map_length in Z1. replace (n - length (blocks g)) with 0 in Z1 by lia. exact Z1.
  - rewrite Z2. apply (blocks_ok_mod _ (q_head st + n)); [rewrite Nat.mod_mod by discriminate; reflexivity|].
    apply blocks_ok_app. split; [exact R3|].
    assert (LR : length (retire (length (commits i)) (blocks g)) = length (blocks g) - n).
    { rewrite <- (map_length fst), R2, skipn_length, map_length. reflexivity. }
    rewrite LR. replace (q_head st + n + (length (blocks g) - n)) with (q_head st + length (blocks g)) by lia. exact NB1.
  - rewrite Z3. cbn [ib set_ib]. rewrite CT, insts_app, R4, NB2, S.
    rewrite skipn_app_suffix by exact LB.
    exists (skipn (length (commits i)) pre ++ firstn (pop_count i) (contents (ib st))).
    rewrite <- !app_assoc. f_equal. rewrite app_assoc, firstn_skipn. reflexivity.
  - rewrite Z3. cbn [ib set_ib]. rewrite CT, ST, IS, <- !app_assoc. f_equal. rewrite app_assoc, firstn_skipn. reflexivity.
Qed.

Lemma reach_inv st g : reach st g -> inv st g.
Proof. intros H. induction H as [|st g i m H IH E]; [apply inv_init|]. apply inv_step; assumption. Qed.

(** *** Lookup *)
Lemma blocks_nth bs : forall h k b, blocks_ok h bs -> nth_error bs k = Some b -> block_ok ((h + k) mod FTQN) b.
Proof.
  induction bs as [|x r IH]; intros h [|k] b B E; try discriminate; destruct B as [B1 B2].
  - injection E as <-. rewrite Nat.add_0_r. exact B1.
  - replace (h + S k) with (h + 1 + k) by lia. apply IH; assumption.
Qed.
Lemma lookup_block st g k f l : inv st g -> nth_error (blocks g) k = Some (f, l) ->
  q_valid st ((q_head st + k) mod FTQN) = true /\ q_ent st ((q_head st + k) mod FTQN) = ftq_entry f.
Proof.
  intros [_ (H1 & H2 & H3 & H4 & H5 & H6) _ _ _] E.
  assert (K : k < length (blocks g)) by (apply nth_error_Some; congruence).
  rewrite map_length in H2, H3. split.
  - rewrite H6 by lia. apply Nat.ltb_lt. lia.
  - rewrite <- (ring_nth FTQN (q_ent st) (q_head st) (q_count st) k fent0) by lia. rewrite H5.
    apply nth_error_nth. rewrite map_map. erewrite map_nth_error; [|exact E]. reflexivity.
Qed.

(** *** Commit info *)
Lemma commit_info_spec st g cs : forall bs k c,
  inv st g -> (forall j b, nth_error bs j = Some b -> exists f l l', nth_error (blocks g) (k + j) = Some (f, l') /\ b = (f, l)) ->
  k + length bs = length (blocks g) -> blocks_ok (q_head st + k) bs ->
  flat_map (fun o => match o with Some c => [c] | None => [] end) cs = map as_commit (firstn c (insts bs)) ->
  Forall (fun p => match p with
     | (None, None) => True
     | (Some c, Some (pc, tk, meta, ok)) =>
         exists f l e, In (f, l) bs /\ In e l /\ c = as_commit e /\ ok = true /\
           pc = fs_pc (f_slot f (e_off e)) /\ tk = fs_dir (f_slot f (e_off e)) /\ meta = fs_meta (f_slot f (e_off e))
     | _ => False end)
   (combine cs (commit_info st ((q_head st + k) mod FTQN) (negb (length bs =? 0)) cs)).
Proof.
  induction cs as [|[x|] cs IH]; intros bs k c V SUB LEN B E.
  - constructor.
  - cbn [flat_map app] in E.
    destruct bs as [|[f l] bs]; [cbn in E; rewrite firstn_nil in E; discriminate|].
    rewrite insts_cons in E. cbn [snd] in E.
    destruct B as [B1 B2]. pose proof (block_len _ _ B1) as BL. cbn [snd] in BL.
    destruct c as [|c]; [discriminate|]. destruct l as [|e l]; [cbn in BL; lia|].
    cbn [app firstn map] in E. injection E as EX E.
    assert (IO : inst_ok ((q_head st + k) mod FTQN) f e) by (destruct B1 as [_ A]; inversion A; assumption).
    destruct IO as (I1 & I2 & I3 & I4 & _).
    destruct (SUB 0 _ eq_refl) as (f' & l1 & l2 & S1 & S2). injection S2 as <- <-. rewrite Nat.add_0_r in S1.
    destruct (lookup_block st g k f l2 V S1) as (L1 & L2).
    assert (QT : q_tail st = (q_head st + length (blocks g)) mod FTQN).
    { destruct V as [_ (_ & q2 & _ & q4 & _) _ _ _]. rewrite q4, q2, map_length. reflexivity. }
    assert (LB : length (blocks g) <= FTQN).
    { destruct V as [_ (_ & _ & q3 & _) _ _ _]. rewrite map_length in q3. exact q3. }
    cbn [commit_info combine length]. cbn [negb Nat.eqb].
    constructor.
    + subst x. cbn [as_commit c_idx c_off]. rewrite I1, L1, L2.
      replace ((q_head st + k) mod FTQN <? FTQN) with true by (symmetry; apply Nat.ltb_lt; apply Nat.mod_upper_bound; discriminate).
      rewrite Nat.eqb_refl. cbn.
      exists f, (e :: l), e. split; [left; reflexivity|]. split; [left; reflexivity|]. unfold as_commit. rewrite I1. repeat split.
    + subst x. cbn [as_commit c_last]. rewrite andb_true_r.
      destruct B1 as [(p & z & P1 & P2 & P3) A]. cbn [fst snd] in *.
      destruct (e_last e) eqn:EL.
      * (* the block ends here *)
        assert (l = []) as ->.
        { destruct p as [|y p]; [injection P1 as _ ->; reflexivity|]. injection P1 as -> _. inversion P2; congruence. }
        cbn [app] in E.
        assert (NT : ((q_head st + k) mod FTQN + 1) mod FTQN = (q_head st + (k + 1)) mod FTQN).
        { rewrite Nat.add_mod_idemp_l by discriminate. f_equal. lia. }
        assert (TL : (((q_head st + k) mod FTQN + 1) mod FTQN =? q_tail st) = (length bs =? 0)).
        { rewrite NT, QT. cbn [length] in LEN. destruct (Nat.eqb_spec (length bs) 0) as [Z|Z].
          - apply Nat.eqb_eq. f_equal. lia.
          - apply Nat.eqb_neq. intros X. unfold FTQN in *. lia. }
        rewrite TL. cbn [andb].
        assert (IHS : forall j b, nth_error bs j = Some b -> exists f l l', nth_error (blocks g) (k + 1 + j) = Some (f, l') /\ b = (f, l)).
        { intros j b J. replace (k + 1 + j) with (k + S j) by lia. apply (SUB (S j) b J). }
        specialize (IH bs (k + 1) c V IHS). cbn [length] in LEN.
        assert (LE' : k + 1 + length bs = length (blocks g)) by lia. specialize (IH LE').
        replace (q_head st + (k + 1)) with (q_head st + k + 1) in IH by lia. specialize (IH B2 E).
        destruct (Nat.eqb_spec (length bs) 0) as [Z|Z]; cbn [negb andb] in *.
        -- destruct bs; [|cbn in Z; lia]. cbn in E. rewrite firstn_nil in E.
           destruct cs as [|[y|] cs]; [constructor|discriminate|].
           clear - E. revert E. generalize (None :: cs) as q. intros q. generalize ((q_head st + k) mod FTQN).
           induction q as [|[y|] q IHq]; intros u E; [constructor|discriminate|].
           cbn. constructor; [exact I|]. apply IHq. exact E.
        -- rewrite NT. replace (q_head st + (k + 1)) with (q_head st + k + 1) by lia.
           eapply Forall_impl; [|exact IH]. intros [[a|] [[[[a1 a2] a3] a4]|]]; auto.
           intros (f0 & l0 & e0 & H0 & H). exists f0, l0, e0. split; [right; exact H0|exact H].
      * (* more of the block remains *)
        cbn [andb].
        destruct l as [|e' l].
        { exfalso. destruct p as [|y p]; [injection P1 as ->; congruence|]. injection P1 as _ P1. destruct p; discriminate. }
        specialize (IH ((f, e' :: l) :: bs) k c V).
        rewrite (insts_cons (f, e' :: l)) in IH. cbn [snd] in IH.
        assert (IHS : forall j b, nth_error ((f, e' :: l) :: bs) j = Some b -> exists f l l', nth_error (blocks g) (k + j) = Some (f, l') /\ b = (f, l)).
        { intros [|j] b J.
          - injection J as <-. exists f, (e' :: l), l2. rewrite Nat.add_0_r. auto.
          - apply (SUB (S j) b J). }
        specialize (IH IHS). cbn [length] in LEN, IH. specialize (IH LEN).
        assert (BB : blocks_ok (q_head st + k) ((f, e' :: l) :: bs)).
        { split; [|exact B2]. split; cbn [fst snd].
          - destruct p as [|y p]; [injection P1 as ->; discriminate|]. injection P1 as _ P1. exists p, z.
            split; [exact P1|]. split; [inversion P2; assumption|exact P3].
          - inversion A; assumption. }
        specialize (IH BB E). cbn [negb Nat.eqb] in IH.
        eapply Forall_impl; [|exact IH]. intros [[a|] [[[[a1 a2] a3] a4]|]]; auto.
        intros (f0 & l0 & e0 & [H0|H0] & H1 & H).
        -- injection H0 as <- <-. exists f, (e :: e' :: l), e0. split; [left; reflexivity|]. split; [right; exact H1|exact H].
        -- exists f0, l0, e0. split; [right; exact H0|]. split; [exact H1|exact H].
  - cbn [combine commit_info]. constructor; [exact I|]. exact (IH bs k c V SUB LEN B E).
Qed.
