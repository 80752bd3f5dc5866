(** Claims about the fetch side of the front end: C38, C39. *)
From Verif Require Import Base BaseLemmas IsaSpec FrontModel FrontSpec FrontProofs.
Local Open Scope Z_scope.

(* ------------------------------------------------------------------ *)
(** * C38, one queue at a time *)

(** A plain list queue: clear, append, take. *)
Definition plain_q {A} (dum : A) (i : fin A) (l : list A) : list A * list A :=
  if i_reset i then ([], [])
  else let l1 := (if i_refetch i then [] else l) ++
                 (if i_we i then i_data i :: (if i_dum i then [dum] else []) else []) in
       if i_re i then (firstn 1 l1, tl l1) else ([], l1).

(** One cycle of a queue as front_top uses a single port: compute, then write. *)
Definition q_cycle {A} (zero dum : A) (cap : nat) (full : nat -> bool) (s : fst_ A) (i : fin A)
  : option (fst_ A * fout A) :=
  match f_calc zero dum cap full i (f_read zero s) with
  | None => None
  | Some (q, o, _) => match f_write zero cap s q with None => None | Some s' => Some (s', o) end
  end.

Lemma qlist_push {A} (e : nat -> A) n d :
  map (fupd e n d) (List.seq 0 (S n)) = map e (List.seq 0 n) ++ [d].
Proof.
  rewrite seq_S, map_app. cbn [map Nat.add]. f_equal.
  - apply map_ext_in. intros k Hk. apply in_seq in Hk. unfold fupd. destruct (Nat.eqb_spec k n); [lia|reflexivity].
  - unfold fupd. now rewrite Nat.eqb_refl.
Qed.
Lemma qlist_pop {A} (zero : A) (e : nat -> A) n :
  (0 < n)%nat ->
  map (fupd (shift_loop (n - 1) 1 e) (n - 1) zero) (List.seq 0 (n - 1)) = tl (map e (List.seq 0 n)).
Proof.
  intros Hn. destruct n as [|n]; [lia|]. replace (S n - 1)%nat with n by lia. cbn [List.seq map tl].
  rewrite <- seq_shift, map_map. apply map_ext_in. intros k Hk. apply in_seq in Hk.
  unfold fupd. destruct (Nat.eqb_spec k n); [lia|]. rewrite (shift_loop_spec (fun _ => false) n 1 e k (le_n 1)).
  destruct (Nat.leb_spec (1 - 1) k); destruct (Nat.ltb_spec k (1 - 1 + n)); cbn [andb]; try reflexivity; lia.
Qed.

Definition q_room {A} (cap : nat) (i : fin A) (l : list A) : bool :=
  i_reset i || (length (if i_refetch i then [] else l) + (if i_we i then if i_dum i then 2 else 1 else 0) <=? cap)%nat.


Definition q_list {A} (q : freq A) (l : list A) : list A :=
  (if q_clear q then [] else l) ++ (if q_push q then [q_data q] else []) ++ (if q_dpush q then [q_ddata q] else []).

Lemma f_write_some A (zero : A) cap (s : fst_ A) q :
  let l := q_list q (qlist s) in
  (length l <= cap)%nat -> (q_pop q = true -> l <> []) ->
  exists s', f_write zero cap s q = Some s' /\ qlist s' = if q_pop q then tl l else l.
Proof.
  intros l Hl Hp. destruct q as [cl pu d dp dd po]. unfold q_list in l. cbn [q_clear q_push q_data q_dpush q_ddata q_pop] in *.
  unfold f_write. cbn [q_clear q_push q_data q_dpush q_ddata q_pop].
  set (s0 := if cl then Fst (fun _ => zero) 0%nat else s).
  assert (L: l = qlist s0 ++ (if pu then [d] else []) ++ (if dp then [dd] else [])) by (unfold l, s0; destruct cl; reflexivity).
  clearbody s0 l. subst l.
  rewrite !app_length, qlist_length in Hl.
  assert (S1: exists s1, (if pu then if (cap <=? s_size s0)%nat then None else Some (Fst (fupd (s_ent s0) (s_size s0) d) (S (s_size s0))) else Some s0) = Some s1
              /\ qlist s1 = qlist s0 ++ (if pu then [d] else [])).
  { destruct pu; [|rewrite app_nil_r; eauto]. cbn [length] in Hl. destruct (Nat.leb_spec cap (s_size s0)); [lia|].
    eexists. split; [reflexivity|]. unfold qlist at 1. cbn [s_ent s_size]. apply qlist_push. }
  destruct S1 as (s1 & -> & Q1).
  assert (Z1: s_size s1 = length (qlist s0 ++ (if pu then [d] else []))) by (rewrite <- Q1; symmetry; apply qlist_length).
  assert (S2: exists s2, (if dp then if (cap <=? s_size s1)%nat then None else Some (Fst (fupd (s_ent s1) (s_size s1) dd) (S (s_size s1))) else Some s1) = Some s2
              /\ qlist s2 = qlist s0 ++ (if pu then [d] else []) ++ (if dp then [dd] else [])).
  { rewrite app_assoc. destruct dp; [|rewrite app_nil_r; eauto]. cbn [length] in Hl. rewrite app_length, qlist_length in Z1.
    destruct (Nat.leb_spec cap (s_size s1)); [lia|].
    eexists. split; [reflexivity|]. unfold qlist at 1. cbn [s_ent s_size]. rewrite qlist_push. fold (qlist s1). now rewrite Q1. }
  destruct S2 as (s2 & -> & Q2). rewrite <- Q2 in *.
  destruct po; [|eauto]. specialize (Hp eq_refl).
  assert (s_size s2 <> 0%nat). { intros E. apply Hp. unfold qlist. now rewrite E. }
  destruct (Nat.eqb_spec (s_size s2) 0); [contradiction|]. eexists. split; [reflexivity|].
  unfold qlist at 1. cbn [s_ent s_size]. rewrite qlist_pop by lia. reflexivity.
Qed.

Lemma f_write_none A (zero : A) cap (s : fst_ A) q :
  (cap < length (q_list q (qlist s)))%nat -> (s_size s <= cap)%nat -> f_write zero cap s q = None.
Proof.
  intros Hl Hs. destruct q as [cl pu d dp dd po]. unfold q_list in Hl. cbn [q_clear q_push q_data q_dpush q_ddata q_pop] in *.
  unfold f_write. cbn [q_clear q_push q_data q_dpush q_ddata q_pop]. rewrite !app_length in Hl.
  assert (length (qlist s) = s_size s) by apply qlist_length.
  destruct cl, pu, dp; cbn [length s_size] in *;
    repeat match goal with |- context [(?a <=? ?b)%nat] => destruct (Nat.leb_spec a b); cbn [s_size] in * end; try reflexivity; lia.
Qed.

Lemma f_next_some A (zero : A) cap rd q (l : list A) :
  length l = r_size rd -> (length (q_list q l) <= cap)%nat -> (q_pop q = true -> q_list q l <> []) ->
  exists rd', f_next zero cap rd q = Some rd'.
Proof.
  intros Hr Hl Hp. destruct q as [cl pu d dp dd po]. unfold q_list in *. cbn [q_clear q_push q_data q_dpush q_ddata q_pop] in *.
  unfold f_next. cbn [q_clear q_push q_data q_dpush q_ddata q_pop].
  set (n0 := if cl then Frd 0 false zero else rd).
  assert (E0: length (if cl then [] else l) = r_size n0) by (unfold n0; destruct cl; [reflexivity|exact Hr]).
  set (l0 := if cl then [] else l) in *. clearbody n0 l0. rewrite !app_length in Hl.
  match goal with |- context [match ?x with Some _ => _ | None => None end] => match x with
    | context [if pu then _ else _] => assert (X: exists n1, x = Some n1 /\ r_size n1 = (length l0 + length (if pu then [d] else []))%nat) end end.
  { destruct pu; cbn [length] in *; [|eexists; split; [reflexivity|lia]].
    destruct (Nat.leb_spec cap (r_size n0)); [lia|]. eexists; split; [reflexivity|]. destruct (r_size n0 =? 0)%nat; cbn [r_size]; lia. }
  destruct X as (n1 & -> & E1).
  match goal with |- context [match ?x with Some _ => _ | None => None end] => match x with
    | context [if dp then _ else _] => assert (X: exists n2, x = Some n2 /\ r_size n2 = (length l0 + (length (if pu then [d] else []) + length (if dp then [dd] else [])))%nat) end end.
  { destruct dp; cbn [length] in *; [|eexists; split; [reflexivity|lia]].
    destruct (Nat.leb_spec cap (r_size n1)); [lia|]. eexists; split; [reflexivity|]. destruct (r_size n1 =? 0)%nat; cbn [r_size]; lia. }
  destruct X as (n2 & -> & E2).
  destruct po; [|eauto]. specialize (Hp eq_refl).
  assert (r_size n2 <> 0)%nat.
  { intros E. apply Hp. apply length_zero_iff_nil. rewrite !app_length. lia. }
  destruct (Nat.eqb_spec (r_size n2) 0); [contradiction|].
  repeat match goal with |- context [if ?b then _ else _] => destruct b end; eauto.
Qed.

(** For every control pattern: a queue cycle is the list queue's cycle, with the
    taken entry, the full flag and the empty flag all exact; the queue gives up
    (process exit) exactly when the entries do not fit. *)
Theorem c38_queue_exact A (zero dum : A) cap full (s : fst_ A) (i : fin A) :
  (s_size s <= cap)%nat -> full 0%nat = false ->
  let '(r, l) := plain_q dum i (qlist s) in
  if q_room cap i (qlist s) then
    exists s' o, q_cycle zero dum cap full s i = Some (s', o) /\
      qlist s' = l /\ (s_size s' <= cap)%nat /\
      o_rv o = negb (Nat.eqb (length r) 0) /\ (forall x, r = [x] -> o_data o = x) /\
      o_full o = full (length l) /\ o_empty o = Nat.eqb (length l) 0
  else q_cycle zero dum cap full s i = None.
Proof.
  intros Hs Hf. destruct i as [rs rf we re d du]. unfold plain_q, q_room, q_cycle, f_calc, f_comb.
  cbn [i_reset i_refetch i_we i_re i_data i_dum].
  assert (SZ: length (qlist s) = s_size s) by apply qlist_length.
  destruct rs; cbn [orb].
  { set (q := Freq true false zero false zero false).
    destruct (f_next_some A zero cap (f_read zero s) q (qlist s)) as [rd' E1]; [exact SZ|cbn; lia|discriminate|]. rewrite E1.
    destruct (f_write_some A zero cap s q) as (s' & E2 & Q); [cbn; lia|discriminate|]. rewrite E2.
    eexists _, _. split; [reflexivity|]. cbn [o_rv o_data o_full o_empty length]. cbn in Q.
    assert (s_size s' = 0)%nat by (rewrite <- (qlist_length s'), Q; reflexivity).
    repeat split; try exact Q; try lia; try congruence. }
  set (l0 := if rf then [] else qlist s).
  set (has := if rf then false else (0 <? r_size (f_read zero s))%nat).
  set (bef := if rf then 0%nat else r_size (f_read zero s)).
  assert (BEF: bef = length l0) by (unfold bef, l0; destruct rf; [reflexivity|now rewrite SZ]).
  assert (HAS: has = negb (Nat.eqb (length l0) 0)).
  { unfold has, l0. destruct rf; [reflexivity|]. rewrite SZ. cbn [f_read r_size]. destruct (s_size s); reflexivity. }
  assert (HV: has && negb (r_hv (f_read zero s)) = false).
  { unfold has. destruct rf; [reflexivity|]. cbn [f_read r_hv r_size]. destruct (0 <? s_size s)%nat; reflexivity. }
  assert (HH: forall x l', l0 = x :: l' -> r_head (f_read zero s) = x).
  { intros x l' E. unfold l0 in E. destruct rf; [discriminate|]. cbn [f_read r_head].
    assert (0 < s_size s)%nat by (rewrite <- SZ, E; cbn; lia). destruct (Nat.ltb_spec 0 (s_size s)); [|lia].
    rewrite qlist_hd in E by assumption. now injection E. }
  assert (rw: forall a b : bool, a && b && has && negb (r_hv (f_read zero s)) = false).
  { intros a b. rewrite <- andb_assoc, HV. apply andb_false_r. }
  set (l1 := l0 ++ (if we then d :: (if du then [dum] else []) else [])).
  set (rd := re && (has || we || we && du)).
  assert (RD: rd = re && negb (Nat.eqb (length l1) 0)).
  { unfold rd, l1. rewrite HAS, app_length. destruct re; [|reflexivity]. cbn [andb].
    destruct we, du; cbn [length andb orb]; destruct (Nat.eqb_spec (length l0) 0), (Nat.eqb_spec (length l0 + 2) 0), (Nat.eqb_spec (length l0 + 1) 0), (Nat.eqb_spec (length l0 + 0) 0); cbn; try reflexivity; lia. }
  rewrite <- andb_assoc. replace (rd && (has && negb (r_hv (f_read zero s)))) with false by (rewrite HV; now rewrite andb_false_r).
  set (q := Freq rf we (if we then d else zero) (we && du) (if we && du then dum else zero) rd).
  assert (QL: q_list q (qlist s) = l1).
  { unfold q_list, q, l1, l0. cbn [q_clear q_push q_data q_dpush q_ddata]. destruct rf, we, du; reflexivity. }
  assert (LL: length l1 = (length l0 + (if we then if du then 2 else 1 else 0))%nat) by (unfold l1; rewrite app_length; destruct we, du; reflexivity).
  rewrite <- LL. clearbody l1.
  assert (PO: q_pop q = true -> q_list q (qlist s) <> []).
  { rewrite QL. change (q_pop q) with rd. rewrite RD. intros H E. rewrite E in H. cbn in H. now rewrite andb_false_r in H. }
  assert (NL: length (if rd then tl l1 else l1) = (bef + (if we then 1 else 0) + (if we && du then 1 else 0) - (if rd then 1 else 0))%nat).
  { rewrite BEF. destruct rd eqn:Er.
    - assert (length (tl l1) = length l1 - 1)%nat as -> by (destruct l1; cbn; lia). rewrite LL. destruct we, du; cbn [andb]; lia.
    - rewrite LL. destruct we, du; cbn [andb]; lia. }
  assert (X: (if re then (firstn 1 l1, tl l1) else ([], l1)) = ((if rd then firstn 1 l1 else []), if rd then tl l1 else l1)).
  { rewrite RD. destruct re; [|reflexivity]. destruct l1; reflexivity. }
  rewrite X. destruct (Nat.leb_spec (length l1) cap) as [Hc|Hc].
  - destruct (f_next_some A zero cap (f_read zero s) q (qlist s)) as [rd' E1]; [exact SZ|now rewrite QL|exact PO|]. rewrite E1.
    destruct (f_write_some A zero cap s q) as (s' & E2 & Q); [now rewrite QL|exact PO|]. rewrite E2.
    rewrite QL in Q. change (q_pop q) with rd in Q.
    eexists _, _. split; [reflexivity|]. cbn [o_rv o_data o_full o_empty]. split; [exact Q|].
    split; [|split; [|split; [|split]]].
    + rewrite <- qlist_length, Q. destruct rd; [|exact Hc]. destruct l1; cbn in *; lia.
    + destruct rd; [|reflexivity]. destruct l1; [|reflexivity]. rewrite andb_false_r in RD. discriminate.
    + intros x Hx. destruct rd; [|discriminate]. destruct has eqn:Eh.
      * destruct l0 as [|y l0'] eqn:E0; [discriminate HAS|]. rewrite (HH y l0' eq_refl).
        assert (FX: firstn 1 (q_list q (qlist s)) = [y]).
        { unfold q_list, q. cbn [q_clear q_push q_data q_dpush q_ddata]. fold l0. rewrite E0. reflexivity. }
        rewrite QL in FX. congruence.
      * assert (l0 = []) as E0 by (destruct l0; [reflexivity|discriminate HAS]).
        assert (FX: firstn 1 (q_list q (qlist s)) = firstn 1 (if we then [d] else [])).
        { unfold q_list, q. cbn [q_clear q_push q_data q_dpush q_ddata]. fold l0. rewrite E0. destruct we, du; reflexivity. }
        rewrite QL, Hx in FX. destruct we; [now injection FX|discriminate].
    + now rewrite <- NL.
    + now rewrite <- NL.
  - destruct (f_next zero cap (f_read zero s) q); [|reflexivity].
    rewrite f_write_none; [reflexivity|now rewrite QL|exact Hs].
Qed.

(** Over any control sequence without a clear, what was taken followed by what
    is still queued is what was queued before followed by what was written. *)
Fixpoint q_run {A} (zero dum : A) cap full (s : fst_ A) (is : list (fin A)) : option (fst_ A * list A) :=
  match is with
  | [] => Some (s, [])
  | i :: is' =>
      match q_cycle zero dum cap full s i with
      | None => None
      | Some (s', o) =>
          match q_run zero dum cap full s' is' with
          | None => None
          | Some (s2, r) => Some (s2, (if o_rv o then [o_data o] else []) ++ r)
          end
      end
  end.
Definition q_written {A} (dum : A) (is : list (fin A)) : list A :=
  flat_map (fun i => if i_we i then i_data i :: (if i_dum i then [dum] else []) else []) is.

Theorem c38_queue_lossless A (zero dum : A) cap full : full 0%nat = false -> forall is (s s' : fst_ A) r,
  (s_size s <= cap)%nat -> (forall i, In i is -> i_reset i = false /\ i_refetch i = false) ->
  q_run zero dum cap full s is = Some (s', r) ->
  r ++ qlist s' = qlist s ++ q_written dum is.
Proof.
  intros Hf is. induction is as [|i is IH]; intros s s' r Hs Hc E; cbn [q_run] in E.
  - injection E as <- <-. cbn. now rewrite app_nil_r.
  - destruct (Hc i (or_introl eq_refl)) as [C1 C2].
    pose proof (c38_queue_exact A zero dum cap full s i Hs Hf) as X.
    unfold plain_q in X. rewrite C1, C2 in X.
    set (l1 := qlist s ++ (if i_we i then i_data i :: (if i_dum i then [dum] else []) else [])) in *.
    replace (if i_re i then (firstn 1 l1, tl l1) else ([], l1)) with ((if i_re i then firstn 1 l1 else []), if i_re i then tl l1 else l1) in X by (destruct (i_re i); reflexivity).
    destruct (q_room cap i (qlist s)); [|rewrite X in E; discriminate].
    destruct X as (s1 & o & X & Q & Hs1 & V & D & _). rewrite X in E.
    destruct (q_run zero dum cap full s1 is) as [[s2 r2]|] eqn:ER; [|discriminate]. injection E as <- <-.
    assert (IHx: r2 ++ qlist s2 = qlist s1 ++ q_written dum is).
    { apply (IH s1); [exact Hs1|intros; apply Hc; now right|exact ER]. }
    unfold q_written in *. cbn [flat_map]. rewrite app_assoc. change (qlist s ++ (if i_we i then _ else _)) with l1.
    rewrite <- app_assoc, IHx, Q, V. rewrite app_assoc. f_equal.
    destruct (i_re i); [|reflexivity]. destruct l1 as [|x l2]; [reflexivity|]. cbn [firstn length Nat.eqb negb tl app].
    rewrite (D x eq_refl). reflexivity.
Qed.

Example c38_queue_example :
  option_map (fun x => (qlist (fst x), snd x))
    (q_run 0 0 8 fa_full (Fst (fun _ => 0) 0%nat)
       [Fin false false true false 5 false; Fin false false true true 6 false;
        Fin false false true true 7 false; Fin false false false true 0 false])
  = Some ([], [5; 6; 7]).
Proof. reflexivity. Qed.

(* ------------------------------------------------------------------ *)
(** * C38, the front end as a whole *)

(** For any predictor answers, any back-end redirections and read requests and
    any instruction cache that answers its requests in order: no cycle of the
    front end reaches one of its process exits (queue overflow or underflow, or
    disagreement between the fetched block and its prediction). *)
Theorem c38_never_exits F G g c o' :
  freach F G g -> fenv F G (gs g) (outst g) c o' -> fcycle (gs g) c <> None.
Proof.
  intros R E. destruct (finv_reach F G g R) as (PL & GL & I).
  destruct (finv_step F G g PL GL c o' I E) as (s' & out & _ & _ & C & _). congruence.
Qed.

(** No block is lost, duplicated or taken out of order: from reset on, each block
    handed to the back end starts where the previous one said, or at the address
    of the redirection just before it. *)
Theorem c38_blocks_follow F G g : freach F G g -> follows 0 (trace g).
Proof. intros R. destruct (finv_reach F G g R) as (PL & GL & I). apply (fv_tr _ _ _ _ _ I). Qed.

(** Each block handed over is a block the cache returned, combined with the
    prediction made for its own address. *)
Theorem c38_blocks_genuine F G g b : freach F G g -> In (EvGroup b) (trace g) -> delivers F G b.
Proof. intros R H. destruct (finv_reach F G g R) as (PL & GL & I). now apply (fv_trd _ _ _ _ _ I). Qed.

(** Every prediction in flight belongs, in order, to a fetched block, an
    outstanding request or a queued fetch address; the stored full and empty
    flags describe the queues; no queue ever exceeds its size. *)
Theorem c38_queues_agree F G g :
  freach F G g ->
  let s := gs g in
  map (fun e => pe_pc e 0%nat) (qlist (fs_pt s))
    = map (fun e => ie_pc e 0%nat) (qlist (fs_fi s)) ++ outst g ++ qlist (fs_fa s) /\
  (length (qlist (fs_pt s)) <= 7)%nat /\ (length (qlist (fs_fb s)) <= 8)%nat /\
  l_fa_empty s = Nat.eqb (length (qlist (fs_fa s))) 0 /\ l_fi_empty s = Nat.eqb (length (qlist (fs_fi s))) 0 /\
  l_pt_empty s = Nat.eqb (length (qlist (fs_pt s))) 0 /\ l_fb_empty s = Nat.eqb (length (qlist (fs_fb s))) 0 /\
  l_fa_full s = (7 <=? length (qlist (fs_fa s)))%nat /\ l_fi_full s = Nat.eqb (length (qlist (fs_fi s))) 8 /\
  l_pt_full s = (7 <=? length (qlist (fs_pt s)))%nat /\ l_fb_full s = Nat.eqb (length (qlist (fs_fb s))) 8.
Proof.
  intros R s. destruct (finv_reach F G g R) as (PL & GL & I). rewrite !qlist_length.
  destruct I. subst s.
  split; [|repeat split; assumption].
  rewrite fv_PL, fv_GL, !map_map.
  assert (P1: map (fun x => pe_pc (pe_of x) 0%nat) PL = map fst PL).
  { apply map_ext_in. intros x Hx. destruct (fv_G x Hx) as [_ Hr]. unfold pe_of, pentry_of. cbn [pe_pc]. unfold slot_pc, w32.
    rewrite Z.add_0_r. apply Z.mod_small. unfold M32 in Hr. lia. }
  assert (P2: map (fun x => ie_pc (ientry_of x) 0%nat) GL = map ig_pc GL).
  { assert (HR: forall x, In x (map fst PL) -> 0 <= x < M32).
    { intros x Hx. apply in_map_iff in Hx. destruct Hx as (y & <- & Hy). now apply fv_G. }
    apply map_ext_in. intros x Hx. assert (Hr: 0 <= ig_pc x < M32).
    { apply HR. rewrite fv_align. apply in_or_app. left. now apply in_map. }
    cbn [ientry_of ie_pc]. unfold slot_pc, w32. rewrite Z.add_0_r. apply Z.mod_small. unfold M32 in Hr. lia. }
  rewrite P1, P2. exact fv_align.
Qed.

(** A response of the instruction cache is never dropped for lack of room. *)
Theorem c38_no_response_dropped F G g c :
  freach F G g -> we_fi (gs g) c = ic_valid c && negb (c_reset c) && negb (g_refetch (gs g) c).
Proof.
  intros R. destruct (finv_reach F G g R) as (PL & GL & I). destruct I. unfold we_fi, g_reset.
  rewrite fv_lfif. unfold fi_full, FI_SIZE. destruct (Nat.eqb_spec (s_size (fs_fi (gs g))) 8); [lia|]. reflexivity.
Qed.

(** ** A run: two blocks, the second after a correction by predecode.
    Slot 1 of the first block is jal +256; the predictor said 16. *)
Definition ex_ig (pc : Z) : igroup :=
  IGroup pc (fun i => if Nat.eqb i 1 then 268435567 else 19) (fun _ => false) (fun _ => true).
Definition ex_c (re : bool) (r : option igroup) : fcin :=
  FIn false false 0 re true r (Pred (fun _ => false) (fun _ => 0) 16).
Definition ex_step (g : gstate) (x : fcin * list Z) : gstate :=
  match fcycle (gs g) (fst x) with
  | Some (s', out) => GS s' (snd x) (trace g ++ event (fst x) out)
  | None => g
  end.
Definition ex_c260 := FIn false false 0 true true None (Pred (fun _ => false) (fun _ => 0) 276).
Definition ex_steps : list (fcin * list Z) :=
  [(ex_c true None, []); (ex_c true None, [0]); (ex_c true (Some (ex_ig 0)), [16]);
   (ex_c true None, [16; 16]); (ex_c true None, []); (ex_c260, []); (ex_c260, [260]);
   (FIn false false 0 true true (Some (ex_ig 260)) (Pred (fun _ => false) (fun _ => 0) 276), [276]);
   (FIn false false 0 true true None (Pred (fun _ => false) (fun _ => 0) 276), [276; 276])].
Lemma ex_step_reach F G g x :
  freach F G g -> fenv F G (gs g) (outst g) (fst x) (snd x) -> freach F G (ex_step g x).
Proof.
  intros R E. unfold ex_step. destruct (fcycle (gs g) (fst x)) as [[s' out]|] eqn:C; [|exact R].
  now apply (fr_step F G g (fst x) (snd x) s' out).
Qed.
Fixpoint lz_eqb (a b : list Z) : bool :=
  match a, b with [], [] => true | x :: a', y :: b' => (x =? y) && lz_eqb a' b' | _, _ => false end.
Definition ex_ok (g : gstate) (x : fcin * list Z) : bool :=
  (0 <=? c_addr (fst x)) && (c_addr (fst x) <? M32) && (0 <=? pr_next (c_pred (fst x))) && (pr_next (c_pred (fst x)) <? M32) &&
  (if g_reset (fst x) || g_refetch (gs g) (fst x) then lz_eqb (snd x) []
   else match c_resp (fst x) with
        | Some r => lz_eqb (outst g ++ asked (gs g) (fst x)) (ig_pc r :: snd x)
        | None => lz_eqb (snd x) (outst g ++ asked (gs g) (fst x))
        end).
Lemma ex_ok_env g x :
  ex_ok g x = true -> (forall r i, c_resp (fst x) = Some r -> 0 <= ig_inst r i < M32) ->
  fenv (fun _ => True) (fun _ _ => True) (gs g) (outst g) (fst x) (snd x).
Proof.
  intros H Hi. unfold ex_ok in H. repeat (apply andb_true_iff in H; destruct H as [H ?]).
  assert (LB: forall a b, lz_eqb a b = true -> a = b) 
    by (induction a as [|x0 a IH]; intros [|y0 b] Hb; cbn in Hb; try discriminate; [reflexivity|];
        apply andb_true_iff in Hb; destruct Hb as [Hb1 Hb2]; f_equal; [lia|auto]).
  unfold fenv. repeat split; try lia.
  destruct (g_reset (fst x) || g_refetch (gs g) (fst x)); [auto|].
  destruct (c_resp (fst x)) eqn:E; [split; [intros; now apply Hi|auto]|auto].
Qed.
Lemma ex_step_ok g x :
  freach (fun _ => True) (fun _ _ => True) g -> ex_ok g x = true ->
  (forall r i, c_resp (fst x) = Some r -> 0 <= ig_inst r i < M32) ->
  freach (fun _ => True) (fun _ _ => True) (ex_step g x).
Proof. intros R A B. apply ex_step_reach; [exact R|]. now apply ex_ok_env. Qed.
Example c38_example :
  let g := fold_left ex_step ex_steps (GS fs_init [] []) in
  freach (fun _ => True) (fun _ _ => True) g /\
  map (fun e => match e with EvGroup b => (be_pc b 0%nat, be_next b) | _ => (0, 0) end) (trace g) = [(0, 260); (260, 520)] /\
  outst g = [276; 276].
Proof.
  cbn zeta. split; [|split; vm_compute; reflexivity].
  unfold ex_steps. cbn [fold_left].
  repeat (apply ex_step_ok;
    [|vm_compute; reflexivity
     |cbn [fst c_resp ex_c ex_c260]; intros r i Hr; try discriminate; injection Hr as <-;
      cbn [ex_ig ig_inst]; unfold M32; destruct (Nat.eqb i 1); lia]).
  constructor.
Qed.

(* ------------------------------------------------------------------ *)
(** * C39 *)

(** Predecode recognises exactly the instructions that steer fetch, and computes
    their targets as the ISA does. *)
Theorem c39_predecode_exact inst pc :
  predecode inst pc =
  match steering inst pc with
  | SNone => (PD_NON, 0) | SJump t => (PD_JAL, t) | SBranch t => (PD_DIRECT, t) | SIndirect => (PD_JALR, 0)
  end.
Proof. apply predecode_spec. Qed.

(** The checker never exits on a predecoded block; it redirects exactly when the
    predicted next address differs from the one the block's own instructions
    imply, and then to that address. *)
Theorem c39_checker_exact (g : igroup) (dir : nat -> bool) (next : Z) :
  0 <= ig_pc g < M32 ->
  let pcs := slot_pc (ig_pc g) in
  let corr := walk 4 0 (ig_inst g) (ig_valid g) pcs dir (block_end (ig_pc g)) next in
  exists d,
    checker (ie_type (ientry_of g)) (ie_tgt (ientry_of g)) dir (ie_seq (ientry_of g)) next
    = Some (d, corr, negb (next =? corr)) /\
    forall i, d i = dir_ok (ig_inst g i) (pcs i) (ig_valid g i) (dir i).
Proof. apply checker_spec. Qed.

(** In particular a block without steering instructions always continues at its
    end, and a block whose first steering instruction is a direct jump continues
    at that jump's target, whatever the predictor said. *)
Theorem c39_plain_block (g : igroup) dir next :
  0 <= ig_pc g < M32 ->
  (forall i, (i < 4)%nat -> ig_valid g i = true -> steering (ig_inst g i) (slot_pc (ig_pc g) i) = SNone) ->
  exists d, checker (ie_type (ientry_of g)) (ie_tgt (ientry_of g)) dir (ie_seq (ientry_of g)) next
            = Some (d, block_end (ig_pc g), negb (next =? block_end (ig_pc g))) /\ (forall i, (i < 4)%nat -> d i = false).
Proof.
  intros Hr H. destruct (checker_spec g dir next Hr) as (d & E & D). exists d.
  assert (W: walk 4 0 (ig_inst g) (ig_valid g) (slot_pc (ig_pc g)) dir (block_end (ig_pc g)) next = block_end (ig_pc g)).
  { cbn [walk]. pose proof (H 0%nat) as H0. pose proof (H 1%nat) as H1. pose proof (H 2%nat) as H2. pose proof (H 3%nat) as H3.
    destruct (ig_valid g 0%nat), (ig_valid g 1%nat), (ig_valid g 2%nat), (ig_valid g 3%nat);
      rewrite ?H0, ?H1, ?H2, ?H3 by (lia || reflexivity); reflexivity. }
  rewrite W in E. split; [exact E|]. intros i Hi. rewrite D. unfold dir_ok. destruct (ig_valid g i) eqn:V; [|reflexivity].
  now rewrite H.
Qed.

Theorem c39_jump_block (g : igroup) dir next k t :
  0 <= ig_pc g < M32 -> (k < 4)%nat -> ig_valid g k = true ->
  steering (ig_inst g k) (slot_pc (ig_pc g) k) = SJump t ->
  (forall i, (i < k)%nat -> ig_valid g i = true ->
     match steering (ig_inst g i) (slot_pc (ig_pc g) i) with SNone => True | SBranch _ => dir i = false | _ => False end) ->
  exists d, checker (ie_type (ientry_of g)) (ie_tgt (ientry_of g)) dir (ie_seq (ientry_of g)) next
            = Some (d, t, negb (next =? t)).
Proof.
  intros Hr Hk V J H. destruct (checker_spec g dir next Hr) as (d & E & _). exists d. rewrite E.
  assert (W: forall n i, (i <= k)%nat -> (k < i + n)%nat ->
             walk n i (ig_inst g) (ig_valid g) (slot_pc (ig_pc g)) dir (block_end (ig_pc g)) next = t).
  { intros n. induction n as [|n IH]; intros i Hi Hn; [lia|]. cbn [walk].
    destruct (Nat.eq_dec i k) as [->|Ne]; [now rewrite V, J|].
    destruct (ig_valid g i) eqn:Vi; [|apply IH; lia]. specialize (H i ltac:(lia) Vi).
    destruct (steering (ig_inst g i) (slot_pc (ig_pc g) i)); try tauto; [apply IH; lia|]. rewrite H. apply IH; lia. }
  rewrite W by lia. reflexivity.
Qed.

Example c39_example :
  match checker (ie_type (ientry_of (ex_ig 0))) (ie_tgt (ientry_of (ex_ig 0))) (fun _ => false) (ie_seq (ientry_of (ex_ig 0))) 16 with
  | Some (d, corr, flush) => (corr, flush, d 0%nat, d 1%nat) = (260, true, false, true)
  | None => False
  end.
Proof. vm_compute. reflexivity. Qed.
(** A block that meets the end of its line stops there: pc 60 continues at 64. *)
Example c39_example_line : block_end 60 = 64 /\ block_end 0 = 16 /\ block_end (2 ^ 32 - 8) = 0.
Proof. repeat split; reflexivity. Qed.

Print Assumptions c38_queue_exact.
Print Assumptions c38_queue_lossless.
Print Assumptions c38_never_exits.
Print Assumptions c38_blocks_follow.
Print Assumptions c38_blocks_genuine.
Print Assumptions c38_queues_agree.
Print Assumptions c38_no_response_dropped.
Print Assumptions c39_predecode_exact.
Print Assumptions c39_checker_exact.
Print Assumptions c39_plain_block.
Print Assumptions c39_jump_block.
