(** The reorder buffer with both sides of the load/store unit, wired as in
    BackTop.cpp:288-380: to [RlModel] it adds the loads (dispatch into the load
    queue and the place among the stores, Dispatch.cpp:101-122 and 474-488; load
    reports, Exu.cpp:533-560).  The flag of the place, which the reorder buffer
    only copies, is bit 6 of [u_rest]. *)
From Verif Require Import Base ExecModel RobModel RobSpec MemModel LsuModel LsuStq LsuSpec LsuHist LdqMain LsuCycle LvStab LvLoads LvStores LvMem LvMain RlModel.
Local Open Scope nat_scope.

(** is_load(InstInfo), IO.h:393-396 *)
Definition is_ld (u : ruop) : bool := it_eqb (u_type u) T_LOAD || it_eqb (u_type u) T_AMO && negb (is_sc u).
Definition flag_of (u : ruop) : bool := Nat.odd (u_rest u / 64).
Definition loads (q : list qent) : list qent := filter (fun e => is_ld (q_uop e)) q.
(** Its completion group for the loaded value has been reported. *)
Definition have (e : qent) : bool := reported (fun w => group (w_port w) =? 0) e.
(** The number of stores in flight before the instruction with index [idx]. *)
Fixpoint before (idx : nat) (q : list qent) : nat :=
  match q with [] => 0 | e :: t => if q_idx e =? idx then 0 else (if is_st (q_uop e) then 1 else 0) + before idx t end.
(** The same over the whole run: [c] stores have been committed. *)
Definition nth_store (c : nat) (q : list qent) (l : lsu) (j : nat) : nat := c + before (l_rob (lq (ld l) j)) q.

(** Ghost: what the last load seen in the load queue under a reorder-buffer index accessed (uncached?, address, width). *)
Definition held (l : lsu) (idx : nat) : option nat := find (fun j => negb (lst_eqb (l_st (lq (ld l) j)) LEmpty) && (l_rob (lq (ld l) j) =? idx)) (seq 0 LDQ_SIZE).
Definition accs (l : lsu) (acc : nat -> bool * Z * Z) (idx : nat) : bool * Z * Z :=
  match held l idx with Some j => let e := lq (ld l) j in (l_mmio e, l_pa e, l_f3 e) | None => acc idx end.

Record kenv (W : Z -> Z) (r : rob) (q : list qent) (l : lsu) (g : gs) (pend : list dlreq) (pos : nat -> nat) (c : nat) (ri : rob_in) (li : lin) : Prop := {
  ke_base : jbase true r q l g ri li;
  ke_lenv : lenv l pend li;
  ke_once : once (st l) li;
  (* dispatch: the load queue gets the loads the reorder buffer gets, with the place of the next store *)
  ke_la : map la_rob (i_la li) = map q_idx (loads (arrivals (enq_ptr r) 0 (i_fire ri)));
  ke_ldi : forall e, In e (loads (arrivals (enq_ptr r) 0 (i_fire ri))) -> let p := g_b g + sn (st l) + before (q_idx e) (arrivals (enq_ptr r) 0 (i_fire ri)) in
      stq_of (q_uop e) = p mod 16 /\ flag_of (q_uop e) = Nat.odd (p / 16) /\ Z.testbit (u_expect (q_uop e)) 0 = true;
  (* requests carry what dispatch gave their instruction *)
  ke_req : forall x e, In x (i_ldr li) -> In e (loads q) -> q_idx e = lr_rob x -> lr_si x = stq_of (q_uop e) /\ lr_sf x = flag_of (q_uop e);
  ke_sc : forall x e, In x (i_sta li) -> sa_sc x = true -> In e (stores q) -> stq_of (q_uop e) = sa_idx x -> is_sc (q_uop e) = true;
  (* a misprediction hits the masks of exactly the loads after the branch *)
  ke_kill : forall idx j, RobModel.i_mispred ri = Some idx -> l_st (lq (ld l) j) <> LEmpty ->
      hits (l_brm (lq (ld l) j)) (i_brm li) = negb (existsb (fun x => q_idx x =? l_rob (lq (ld l) j)) (upto idx q));
  (* reports on the load ports are those the load/store unit sends this cycle; nothing else completes a load *)
  ke_wb : forall w, In w (i_wb ri) -> kind (w_port w) = P_load -> exists o, In o (o_wb (snd (lsu_cycle l li))) /\ w_rob o = w_idx w /\ w_sta o = false /\ w_pfl o = w_pf_load w /\ w_res o = w_result w;
  ke_other : forall w e, In w (i_wb ri) -> memory_report w = false -> In e (loads q) -> w_idx w = q_idx e -> group (w_port w) <> 0;
  (* the data cache; no SC, uncached or suppressed store is forwarded from *)
  ke_mem : forall m x y, nth_error (i_dl li) m = Some x -> nth_error pend m = Some y -> dl_rep x = RHit ->
      exists X, (forall z, In z X -> exists k, g_pend g k = Some z) /\ dl_data x = fold_left perform (g_log g ++ X) W (q_addr y / 4)%Z;
  ke_plain : forall j k, let e := ent (st (checkpt l li)) k in let x := lq (ld (checkpt l li)) j in
      j < LDQ_SIZE -> chk x = true -> g_b g + k < pos1 li (nth_store c q l) pos j -> known e = true -> check_stlf (l_pa x) (l_f3 x) (s_pa e) (s_f3 e) = Overlap -> s_lrsc e = false /\ s_mmio e = false /\ s_sup e = false }.

Inductive kreach (W : Z -> Z) : rob -> list qent -> lsu -> gs -> list dlreq -> (nat -> nat) -> nat -> (nat -> bool * Z * Z) -> Prop :=
| kreach0 acc : kreach W rob_init [] lsu0 g0 [] (fun _ => 0) 0 acc
| kreach_step r q l g pend pos c acc ri li n : kreach W r q l g pend pos c acc -> kenv W r q l g pend pos c ri li ->
    n + sn (st (fst (lsu_cycle l li))) = length (squash li (scc (st l) + taken (st l) (length (commits r ri))) (g_ord g ++ map galloc (i_sa li))) ->
    kreach W (rob_step r ri) (q_step q r ri) (fst (lsu_cycle l li)) (jstep_g r l g ri li n) (o_dl (snd (lsu_cycle l li))) (pos1 li (nth_store c q l) pos) (c + length (commits r ri)) (accs l acc).

(** *** The memory operations of the committed instructions, in program order
    One load per committed load that got a value from cached memory, one store per committed
    store (an instruction replaced by an interrupt loads nothing; its store is written to the
    history as suppressed). *)
Inductive mop := MLoad (pa f3 v : Z) | MStore (h : hst).
Definition ld_ops (acc : nat -> bool * Z * Z) (e : qent) : list mop :=
  match find (fun w => group (w_port w) =? 0) (q_reports e), acc (q_idx e) with
  | Some w, (false, pa, f3) => if w_pf_load w then [] else [MLoad pa f3 (w_result w)]
  | _, _ => [] end.
Definition ops (int : bool) (acc : nat -> bool * Z * Z) (c : nat) (q : list qent) (H : list hst) (e : qent) : list mop :=
  (if negb int && is_ld (q_uop e) then ld_ops acc e else []) ++ (if is_st (q_uop e) then [MStore (nth (c + before (q_idx e) q) H h0)] else []).
Definition stores_of (t : list mop) : list hst := flat_map (fun o => match o with MStore h => [h] | MLoad _ _ _ => [] end) t.
Inductive treach (W : Z -> Z) : rob -> list qent -> lsu -> gs -> list dlreq -> (nat -> nat) -> nat -> (nat -> bool * Z * Z) -> list mop -> Prop :=
| treach0 acc : treach W rob_init [] lsu0 g0 [] (fun _ => 0) 0 acc []
| treach_step r q l g pend pos c acc T ri li n : treach W r q l g pend pos c acc T -> kenv W r q l g pend pos c ri li ->
    n + sn (st (fst (lsu_cycle l li))) = length (squash li (scc (st l) + taken (st l) (length (commits r ri))) (g_ord g ++ map galloc (i_sa li))) ->
    treach W (rob_step r ri) (q_step q r ri) (fst (lsu_cycle l li)) (jstep_g r l g ri li n) (o_dl (snd (lsu_cycle l li))) (pos1 li (nth_store c q l) pos) (c + length (commits r ri)) (accs l acc)
      (T ++ flat_map (ops (b_interrupt (broadcast r ri)) acc c q (g_hist (jstep_g r l g ri li n))) (firstn (length (committed r ri)) q)).
