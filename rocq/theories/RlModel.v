(** The reorder buffer and the store side of the load/store unit, wired as in
    BackTop.cpp:288-380: commit broadcast (Rob.cpp:166-178, RealLsu.cpp:1043-1079),
    flush and branch broadcast, completion reports (Exu.cpp:533-560), dispatch
    (Dispatch.cpp:217-226, 420-470).
    The store-queue index and the kind of an AMO, which the reorder buffer only
    copies, are read off [u_rest]: index in the low four bits, two bits of kind above
    (1: LR, 2: SC, otherwise a read-modify-write). *)
From Verif Require Import Base ExecModel RobModel RobSpec MemModel LsuModel LsuStq LsuCycle.
Local Open Scope nat_scope.

Definition stq_of (u : ruop) : nat := u_rest u mod 16.
Definition is_lr (u : ruop) : bool := it_eqb (u_type u) T_AMO && ((u_rest u / 16) mod 4 =? 1).
Definition is_sc (u : ruop) : bool := it_eqb (u_type u) T_AMO && ((u_rest u / 16) mod 4 =? 2).
(** is_store(InstInfo), IO.h:388-391 *)
Definition is_st (u : ruop) : bool := it_eqb (u_type u) T_STORE || it_eqb (u_type u) T_AMO && negb (is_lr u).
(** The completion group through which the load/store unit reports the store:
    the load port for SC, the store-address port otherwise. *)
Definition need (u : ruop) : nat := if is_sc u then 0 else 1.
Definition stores (q : list qent) : list qent := filter (fun e => is_st (q_uop e)) q.
Definition answered (e : qent) : bool := reported (fun w => group (w_port w) =? need (q_uop e)) e.
Definition commits (r : rob) (ri : rob_in) : list nat :=
  map (fun p : nat * ruop => stq_of (snd p)) (filter (fun p : nat * ruop => is_st (snd p)) (committed r ri)).

(** What is wired, and what the rest of the machine guarantees.  [gated]: interrupts wait
    until the load/store unit has reported the store at the head; nothing in the code makes
    them (Csr.cpp:80-91, Rob.cpp:274-303). *)
Record jbase (gated : bool) (r : rob) (q : list qent) (l : lsu) (g : gs) (ri : rob_in) (li : lin) : Prop := {
  (* wires *)
  je_traffic : traffic_ok r ri;
  je_commit : i_commit li = commits r ri;
  je_flush : LsuModel.i_flush li = b_flush (broadcast r ri);
  je_mis : LsuModel.i_mispred li = is_mis ri;
  (* reports on the memory ports are those the load/store unit sends this cycle; branches and integer results are not reported for stores and SCs *)
  je_wb : forall w, In w (i_wb ri) -> memory_report w = true -> exists o, In o (o_wb (snd (lsu_cycle l li))) /\
      w_rob o = w_idx w /\ w_pfs o = w_pf_store w /\ w_sta o = match kind (w_port w) with P_sta => true | _ => false end;
  je_other : forall w e, In w (i_wb ri) -> memory_report w = false -> In e (stores q) -> w_idx w = q_idx e -> group (w_port w) <> need (q_uop e);
  (* dispatch fires into both or neither, with consecutive store-queue indices and the report in the expected groups *)
  je_ready : rob_ready r = false -> any_fire (i_fire ri) = false;
  je_sa : map sl_rob (i_sa li) = map q_idx (stores (arrivals (enq_ptr r) 0 (i_fire ri)));
  je_idx : forall j e, nth_error (stores (arrivals (enq_ptr r) 0 (i_fire ri))) j = Some e ->
      stq_of (q_uop e) = (sh (st l) + sn (st l) + j) mod 16 /\ Z.testbit (u_expect (q_uop e)) (Z.of_nat (need (q_uop e))) = true;
  je_room : sn (st l) + length (i_sa li) <= STQ_SIZE;
  je_fl : forall j s, nth_error (i_sa li) j = Some s -> sl_flag s = Nat.odd ((g_b g + (sn (st l) + j)) / STQ_SIZE);
  je_clr : forall s, In s (i_sa li) -> Z.ldiff (sl_brm s) (i_clear li) = sl_brm s;
  (* a misprediction hits the masks of exactly the stores after the branch *)
  je_kill : forall idx, RobModel.i_mispred ri = Some idx ->
      (forall k, k < scc (st l) -> hits (s_brm (ent (st l) k)) (i_brm li) = false) /\
      (forall j e, nth_error (stores q) j = Some e -> hits (s_brm (ent (st l) (scc (st l) + j))) (i_brm li) = negb (existsb (fun x => q_idx x =? q_idx e) (upto idx q)));
  (* data and address requests name uncommitted queued stores, the address once; translations answer this cycle's requests *)
  je_std : forall s, In s (i_std li) -> exists k, scc (st l) + length (commits r ri) <= k < sn (st l) /\ sd_idx s = (sh (st l) + k) mod STQ_SIZE;
  je_sta : forall s, In s (i_sta li) -> exists k, k < sn (st l) /\ sa_idx s = (sh (st l) + k) mod STQ_SIZE /\ s_st (ent (st l) k) = SAllocated;
  je_nd : NoDup (map sa_idx (i_sta li));
  je_ms : forall s, In s (i_ms li) -> exists t, In t (o_ts (snd (lsu_cycle l li))) /\ mr_wait s = snd t;
  je_int : gated = true -> b_interrupt (broadcast r ri) = true -> forall e, hd_error q = Some e -> is_st (q_uop e) = true -> answered e = true }.
Record jenv_of (gated : bool) (r : rob) (q : list qent) (l : lsu) (g : gs) (ri : rob_in) (li : lin) : Prop := {
  je_base :> jbase gated r q l g ri li;
  (* an SC shares its index with no load; proved for runs with loads in C77 *)
  je_sc : forall e x, In e (stores q) -> is_sc (q_uop e) = true -> l_st (lq (ld l) x) <> LEmpty -> l_rob (lq (ld l) x) <> q_idx e }.
Notation jenv := (jenv_of true).

(** Runs; the last component counts the stores the reorder buffer committed. *)
Definition jstep_g (r : rob) (l : lsu) (g : gs) (ri : rob_in) (li : lin) (n : nat) : gs := gstep (st l) li (length (commits r ri)) (snd (lsu_cycle l li)) g n.
Inductive jreach : rob -> list qent -> lsu -> gs -> nat -> Prop :=
| jreach0 : jreach rob_init [] lsu0 g0 0
| jreach_step r q l g c ri li n : jreach r q l g c -> jenv r q l g ri li ->
    n + sn (st (fst (lsu_cycle l li))) = length (squash li (scc (st l) + taken (st l) (length (commits r ri))) (g_ord g ++ map galloc (i_sa li))) ->
    jreach (rob_step r ri) (q_step q r ri) (fst (lsu_cycle l li)) (jstep_g r l g ri li n) (c + length (commits r ri)).
