(** The load/store unit, back-end/Lsu/RealLsu.cpp, cycle by cycle.

    [nxt] of the C++ is the state being threaded; [cur] is the state at the start
    of the cycle ([seq] copies nxt to cur, so the two agree when a cycle starts).
    Array indices, queue heads and counters are [nat]; the C++ stores counters in
    5 bits (uint8_t) and the theorems show they never exceed 16.  Performance
    counters and the debug dump are left out; [replay_type], which the C++ keeps
    in the same place, is kept.  LSU_NON_BSD_ASSERT / Assert failures are recorded
    in the [bad] fields, and the run continues as in an NDEBUG build.
    CONFIG_LSU_DRESP_TIMEOUT_CYCLES is not defined anywhere, so
    retry_load_resp_timeouts is empty. *)
From Verif Require Import Base MemModel.
Local Open Scope nat_scope.

Definition LSU_LDU_COUNT := 2.
Definition LSU_STA_COUNT := 2.
Definition WINDOW := 10.              (* LSU_LOAD_WINDOW_WIDTH = LSU_STORE_WINDOW_WIDTH = 2 * 5 *)
Definition REPLAY_WAIT := 4.          (* LSU_PEPLAY_WAIT_CYCLES; LSU_WAIT_MSHR_FILL = 1 *)

(** RealLsu.h:41-60 (unused states left out), IO.h:1211-1235 *)
Inductive lstate := LEmpty | LAllocated | LWaitTlb | LWaitTlbRetry | LWaitSTLF | LCheckStlf | LCheckStlfRetry | LReadyToIssue
  | LWaitDcacheResp | LWaitMmioResp | LReadyToWb | LPageFault | LWaitFinish | LWaitDcache.
Inductive sstate := SEmpty | SAllocated | SWaitTlb | SWaitTlbRetry | SWaitData | SWaitDone | SReady | SWaitCommit | SCommitted
  | SWaitDcacheResp | SWaitMmioResp | SPageFault | SDone.
Inductive replay := RHit | RConflict | RMshrHit | RMshrFull.
Definition lst_eqb (a b : lstate) : bool := match a, b with
  | LEmpty, LEmpty | LAllocated, LAllocated | LWaitTlb, LWaitTlb | LWaitTlbRetry, LWaitTlbRetry | LWaitSTLF, LWaitSTLF | LCheckStlf, LCheckStlf
  | LCheckStlfRetry, LCheckStlfRetry | LReadyToIssue, LReadyToIssue | LWaitDcacheResp, LWaitDcacheResp | LWaitMmioResp, LWaitMmioResp
  | LReadyToWb, LReadyToWb | LPageFault, LPageFault | LWaitFinish, LWaitFinish | LWaitDcache, LWaitDcache => true | _, _ => false end.
Definition sst_eqb (a b : sstate) : bool := match a, b with
  | SEmpty, SEmpty | SAllocated, SAllocated | SWaitTlb, SWaitTlb | SWaitTlbRetry, SWaitTlbRetry | SWaitData, SWaitData | SWaitDone, SWaitDone
  | SReady, SReady | SWaitCommit, SWaitCommit | SCommitted, SCommitted | SWaitDcacheResp, SWaitDcacheResp | SWaitMmioResp, SWaitMmioResp
  | SPageFault, SPageFault | SDone, SDone => true | _, _ => false end.

(** LdqEntry, RealLsu.h:67-99 *)
Record ldqe := LE { l_st : lstate; l_va : Z; l_pa : Z; l_f3 : Z; l_res : Z; l_preg : nat; l_rob : nat; l_robf : bool; l_brm : Z; l_mmio : bool; l_diag : Z; l_pf : bool; l_lrsc : bool; l_rep : replay; l_si : nat; l_sf : bool }.
Definition set_l_st (v : lstate) (x : ldqe) : ldqe := LE v (l_va x) (l_pa x) (l_f3 x) (l_res x) (l_preg x) (l_rob x) (l_robf x) (l_brm x) (l_mmio x) (l_diag x) (l_pf x) (l_lrsc x) (l_rep x) (l_si x) (l_sf x).
Definition set_l_va (v : Z) (x : ldqe) : ldqe := LE (l_st x) v (l_pa x) (l_f3 x) (l_res x) (l_preg x) (l_rob x) (l_robf x) (l_brm x) (l_mmio x) (l_diag x) (l_pf x) (l_lrsc x) (l_rep x) (l_si x) (l_sf x).
Definition set_l_pa (v : Z) (x : ldqe) : ldqe := LE (l_st x) (l_va x) v (l_f3 x) (l_res x) (l_preg x) (l_rob x) (l_robf x) (l_brm x) (l_mmio x) (l_diag x) (l_pf x) (l_lrsc x) (l_rep x) (l_si x) (l_sf x).
Definition set_l_f3 (v : Z) (x : ldqe) : ldqe := LE (l_st x) (l_va x) (l_pa x) v (l_res x) (l_preg x) (l_rob x) (l_robf x) (l_brm x) (l_mmio x) (l_diag x) (l_pf x) (l_lrsc x) (l_rep x) (l_si x) (l_sf x).
Definition set_l_res (v : Z) (x : ldqe) : ldqe := LE (l_st x) (l_va x) (l_pa x) (l_f3 x) v (l_preg x) (l_rob x) (l_robf x) (l_brm x) (l_mmio x) (l_diag x) (l_pf x) (l_lrsc x) (l_rep x) (l_si x) (l_sf x).
Definition set_l_preg (v : nat) (x : ldqe) : ldqe := LE (l_st x) (l_va x) (l_pa x) (l_f3 x) (l_res x) v (l_rob x) (l_robf x) (l_brm x) (l_mmio x) (l_diag x) (l_pf x) (l_lrsc x) (l_rep x) (l_si x) (l_sf x).
Definition set_l_rob (v : nat) (x : ldqe) : ldqe := LE (l_st x) (l_va x) (l_pa x) (l_f3 x) (l_res x) (l_preg x) v (l_robf x) (l_brm x) (l_mmio x) (l_diag x) (l_pf x) (l_lrsc x) (l_rep x) (l_si x) (l_sf x).
Definition set_l_robf (v : bool) (x : ldqe) : ldqe := LE (l_st x) (l_va x) (l_pa x) (l_f3 x) (l_res x) (l_preg x) (l_rob x) v (l_brm x) (l_mmio x) (l_diag x) (l_pf x) (l_lrsc x) (l_rep x) (l_si x) (l_sf x).
Definition set_l_brm (v : Z) (x : ldqe) : ldqe := LE (l_st x) (l_va x) (l_pa x) (l_f3 x) (l_res x) (l_preg x) (l_rob x) (l_robf x) v (l_mmio x) (l_diag x) (l_pf x) (l_lrsc x) (l_rep x) (l_si x) (l_sf x).
Definition set_l_mmio (v : bool) (x : ldqe) : ldqe := LE (l_st x) (l_va x) (l_pa x) (l_f3 x) (l_res x) (l_preg x) (l_rob x) (l_robf x) (l_brm x) v (l_diag x) (l_pf x) (l_lrsc x) (l_rep x) (l_si x) (l_sf x).
Definition set_l_diag (v : Z) (x : ldqe) : ldqe := LE (l_st x) (l_va x) (l_pa x) (l_f3 x) (l_res x) (l_preg x) (l_rob x) (l_robf x) (l_brm x) (l_mmio x) v (l_pf x) (l_lrsc x) (l_rep x) (l_si x) (l_sf x).
Definition set_l_pf (v : bool) (x : ldqe) : ldqe := LE (l_st x) (l_va x) (l_pa x) (l_f3 x) (l_res x) (l_preg x) (l_rob x) (l_robf x) (l_brm x) (l_mmio x) (l_diag x) v (l_lrsc x) (l_rep x) (l_si x) (l_sf x).
Definition set_l_lrsc (v : bool) (x : ldqe) : ldqe := LE (l_st x) (l_va x) (l_pa x) (l_f3 x) (l_res x) (l_preg x) (l_rob x) (l_robf x) (l_brm x) (l_mmio x) (l_diag x) (l_pf x) v (l_rep x) (l_si x) (l_sf x).
Definition set_l_rep (v : replay) (x : ldqe) : ldqe := LE (l_st x) (l_va x) (l_pa x) (l_f3 x) (l_res x) (l_preg x) (l_rob x) (l_robf x) (l_brm x) (l_mmio x) (l_diag x) (l_pf x) (l_lrsc x) v (l_si x) (l_sf x).
Definition set_l_si (v : nat) (x : ldqe) : ldqe := LE (l_st x) (l_va x) (l_pa x) (l_f3 x) (l_res x) (l_preg x) (l_rob x) (l_robf x) (l_brm x) (l_mmio x) (l_diag x) (l_pf x) (l_lrsc x) (l_rep x) v (l_sf x).
Definition set_l_sf (v : bool) (x : ldqe) : ldqe := LE (l_st x) (l_va x) (l_pa x) (l_f3 x) (l_res x) (l_preg x) (l_rob x) (l_robf x) (l_brm x) (l_mmio x) (l_diag x) (l_pf x) (l_lrsc x) (l_rep x) (l_si x) v.
Definition ldqe0 : ldqe := LE LEmpty 0 0 0 0 0 0 false 0 false 0 false false RHit 0 false.
(** StqEntry, IO.h:1237-1273 *)
Record stqe := SE { s_st : sstate; s_dv : bool; s_data : Z; s_f3 : Z; s_va : Z; s_pav : bool; s_pa : Z; s_pf : bool; s_sup : bool; s_mmio : bool; s_lrsc : bool; s_scp : bool; s_preg : nat; s_rep : replay; s_wait : nat; s_brm : Z; s_rob : nat; s_robf : bool; s_flag : bool }.
Definition set_s_st (v : sstate) (x : stqe) : stqe := SE v (s_dv x) (s_data x) (s_f3 x) (s_va x) (s_pav x) (s_pa x) (s_pf x) (s_sup x) (s_mmio x) (s_lrsc x) (s_scp x) (s_preg x) (s_rep x) (s_wait x) (s_brm x) (s_rob x) (s_robf x) (s_flag x).
Definition set_s_dv (v : bool) (x : stqe) : stqe := SE (s_st x) v (s_data x) (s_f3 x) (s_va x) (s_pav x) (s_pa x) (s_pf x) (s_sup x) (s_mmio x) (s_lrsc x) (s_scp x) (s_preg x) (s_rep x) (s_wait x) (s_brm x) (s_rob x) (s_robf x) (s_flag x).
Definition set_s_data (v : Z) (x : stqe) : stqe := SE (s_st x) (s_dv x) v (s_f3 x) (s_va x) (s_pav x) (s_pa x) (s_pf x) (s_sup x) (s_mmio x) (s_lrsc x) (s_scp x) (s_preg x) (s_rep x) (s_wait x) (s_brm x) (s_rob x) (s_robf x) (s_flag x).
Definition set_s_f3 (v : Z) (x : stqe) : stqe := SE (s_st x) (s_dv x) (s_data x) v (s_va x) (s_pav x) (s_pa x) (s_pf x) (s_sup x) (s_mmio x) (s_lrsc x) (s_scp x) (s_preg x) (s_rep x) (s_wait x) (s_brm x) (s_rob x) (s_robf x) (s_flag x).
Definition set_s_va (v : Z) (x : stqe) : stqe := SE (s_st x) (s_dv x) (s_data x) (s_f3 x) v (s_pav x) (s_pa x) (s_pf x) (s_sup x) (s_mmio x) (s_lrsc x) (s_scp x) (s_preg x) (s_rep x) (s_wait x) (s_brm x) (s_rob x) (s_robf x) (s_flag x).
Definition set_s_pav (v : bool) (x : stqe) : stqe := SE (s_st x) (s_dv x) (s_data x) (s_f3 x) (s_va x) v (s_pa x) (s_pf x) (s_sup x) (s_mmio x) (s_lrsc x) (s_scp x) (s_preg x) (s_rep x) (s_wait x) (s_brm x) (s_rob x) (s_robf x) (s_flag x).
Definition set_s_pa (v : Z) (x : stqe) : stqe := SE (s_st x) (s_dv x) (s_data x) (s_f3 x) (s_va x) (s_pav x) v (s_pf x) (s_sup x) (s_mmio x) (s_lrsc x) (s_scp x) (s_preg x) (s_rep x) (s_wait x) (s_brm x) (s_rob x) (s_robf x) (s_flag x).
Definition set_s_pf (v : bool) (x : stqe) : stqe := SE (s_st x) (s_dv x) (s_data x) (s_f3 x) (s_va x) (s_pav x) (s_pa x) v (s_sup x) (s_mmio x) (s_lrsc x) (s_scp x) (s_preg x) (s_rep x) (s_wait x) (s_brm x) (s_rob x) (s_robf x) (s_flag x).
Definition set_s_sup (v : bool) (x : stqe) : stqe := SE (s_st x) (s_dv x) (s_data x) (s_f3 x) (s_va x) (s_pav x) (s_pa x) (s_pf x) v (s_mmio x) (s_lrsc x) (s_scp x) (s_preg x) (s_rep x) (s_wait x) (s_brm x) (s_rob x) (s_robf x) (s_flag x).
Definition set_s_mmio (v : bool) (x : stqe) : stqe := SE (s_st x) (s_dv x) (s_data x) (s_f3 x) (s_va x) (s_pav x) (s_pa x) (s_pf x) (s_sup x) v (s_lrsc x) (s_scp x) (s_preg x) (s_rep x) (s_wait x) (s_brm x) (s_rob x) (s_robf x) (s_flag x).
Definition set_s_lrsc (v : bool) (x : stqe) : stqe := SE (s_st x) (s_dv x) (s_data x) (s_f3 x) (s_va x) (s_pav x) (s_pa x) (s_pf x) (s_sup x) (s_mmio x) v (s_scp x) (s_preg x) (s_rep x) (s_wait x) (s_brm x) (s_rob x) (s_robf x) (s_flag x).
Definition set_s_scp (v : bool) (x : stqe) : stqe := SE (s_st x) (s_dv x) (s_data x) (s_f3 x) (s_va x) (s_pav x) (s_pa x) (s_pf x) (s_sup x) (s_mmio x) (s_lrsc x) v (s_preg x) (s_rep x) (s_wait x) (s_brm x) (s_rob x) (s_robf x) (s_flag x).
Definition set_s_preg (v : nat) (x : stqe) : stqe := SE (s_st x) (s_dv x) (s_data x) (s_f3 x) (s_va x) (s_pav x) (s_pa x) (s_pf x) (s_sup x) (s_mmio x) (s_lrsc x) (s_scp x) v (s_rep x) (s_wait x) (s_brm x) (s_rob x) (s_robf x) (s_flag x).
Definition set_s_rep (v : replay) (x : stqe) : stqe := SE (s_st x) (s_dv x) (s_data x) (s_f3 x) (s_va x) (s_pav x) (s_pa x) (s_pf x) (s_sup x) (s_mmio x) (s_lrsc x) (s_scp x) (s_preg x) v (s_wait x) (s_brm x) (s_rob x) (s_robf x) (s_flag x).
Definition set_s_wait (v : nat) (x : stqe) : stqe := SE (s_st x) (s_dv x) (s_data x) (s_f3 x) (s_va x) (s_pav x) (s_pa x) (s_pf x) (s_sup x) (s_mmio x) (s_lrsc x) (s_scp x) (s_preg x) (s_rep x) v (s_brm x) (s_rob x) (s_robf x) (s_flag x).
Definition set_s_brm (v : Z) (x : stqe) : stqe := SE (s_st x) (s_dv x) (s_data x) (s_f3 x) (s_va x) (s_pav x) (s_pa x) (s_pf x) (s_sup x) (s_mmio x) (s_lrsc x) (s_scp x) (s_preg x) (s_rep x) (s_wait x) v (s_rob x) (s_robf x) (s_flag x).
Definition set_s_rob (v : nat) (x : stqe) : stqe := SE (s_st x) (s_dv x) (s_data x) (s_f3 x) (s_va x) (s_pav x) (s_pa x) (s_pf x) (s_sup x) (s_mmio x) (s_lrsc x) (s_scp x) (s_preg x) (s_rep x) (s_wait x) (s_brm x) v (s_robf x) (s_flag x).
Definition set_s_robf (v : bool) (x : stqe) : stqe := SE (s_st x) (s_dv x) (s_data x) (s_f3 x) (s_va x) (s_pav x) (s_pa x) (s_pf x) (s_sup x) (s_mmio x) (s_lrsc x) (s_scp x) (s_preg x) (s_rep x) (s_wait x) (s_brm x) (s_rob x) v (s_flag x).
Definition set_s_flag (v : bool) (x : stqe) : stqe := SE (s_st x) (s_dv x) (s_data x) (s_f3 x) (s_va x) (s_pav x) (s_pa x) (s_pf x) (s_sup x) (s_mmio x) (s_lrsc x) (s_scp x) (s_preg x) (s_rep x) (s_wait x) (s_brm x) (s_rob x) (s_robf x) v.
Definition stqe0 : stqe := SE SEmpty false 0 0 0 false 0 false false false false false 0 RHit 0 0 0 false false.

(** The small index queues (wait_mmu_stq, wait_mmu_ldq, mmu_done_stq, finish,
    stlf_queue, wait_dcache_ldq): slots of (valid, index), head, count;
    RealLsu.cpp:103-173. *)
Record queue := Qu { qv : nat -> bool; qi : nat -> nat; qh : nat; qn : nat }.
Definition queue0 : queue := Qu (fun _ => false) (fun _ => 0) 0 0.
Definition slot (q : queue) (k : nat) : nat := (qh q + k) mod 16.
Definition enq (q : queue) (i : nat) : queue :=
  let k := slot q (qn q) in Qu (fupd (qv q) k true) (fupd (qi q) k i) (qh q) (S (qn q)).
Definition deq (q : queue) : queue := Qu (fupd (qv q) (qh q) false) (qi q) ((qh q + 1) mod 16) (pred (qn q)).
Definition kill (q : queue) (k : nat) : queue := Qu (fupd (qv q) k false) (qi q) (qh q) (qn q).
Definition wipe (q : queue) : queue := Qu (fun _ => false) (qi q) (qh q) 0.
(** The pop loops: at most [n] times, drop the head while it is not valid.  (The
    C++ walks a fixed base plus i; the two coincide because every iteration
    either dequeues or breaks.) *)
Fixpoint pop_invalid (n : nat) (q : queue) : queue :=
  match n with O => q | S n' => if qv q (qh q) then q else pop_invalid n' (deq q) end.
Definition window (q : queue) : list nat := map (slot q) (seq 0 (Nat.min (qn q) WINDOW)).

(** LsuState, RealLsu.h:170-208: the store side, the load side, the uncached
    unit and the reservation. *)
Record stqs := SQ { sq : nat -> stqe; sh : nat; scm : nat; shf : bool; scc : nat; sn : nat; wms : queue; dns : queue; sbad : bool }.
Definition set_sq (v : nat -> stqe) (x : stqs) : stqs := SQ v (sh x) (scm x) (shf x) (scc x) (sn x) (wms x) (dns x) (sbad x).
Definition set_sh (v : nat) (x : stqs) : stqs := SQ (sq x) v (scm x) (shf x) (scc x) (sn x) (wms x) (dns x) (sbad x).
Definition set_scm (v : nat) (x : stqs) : stqs := SQ (sq x) (sh x) v (shf x) (scc x) (sn x) (wms x) (dns x) (sbad x).
Definition set_shf (v : bool) (x : stqs) : stqs := SQ (sq x) (sh x) (scm x) v (scc x) (sn x) (wms x) (dns x) (sbad x).
Definition set_scc (v : nat) (x : stqs) : stqs := SQ (sq x) (sh x) (scm x) (shf x) v (sn x) (wms x) (dns x) (sbad x).
Definition set_sn (v : nat) (x : stqs) : stqs := SQ (sq x) (sh x) (scm x) (shf x) (scc x) v (wms x) (dns x) (sbad x).
Definition set_wms (v : queue) (x : stqs) : stqs := SQ (sq x) (sh x) (scm x) (shf x) (scc x) (sn x) v (dns x) (sbad x).
Definition set_dns (v : queue) (x : stqs) : stqs := SQ (sq x) (sh x) (scm x) (shf x) (scc x) (sn x) (wms x) v (sbad x).
Definition set_sbad (v : bool) (x : stqs) : stqs := SQ (sq x) (sh x) (scm x) (shf x) (scc x) (sn x) (wms x) (dns x) v.
Record ldqs := LQ { lq : nat -> ldqe; wml : queue; stl : queue; wdl : queue; wgen : nat -> Z; wwait : nat -> nat; fin : queue; rgen : Z; lbad : bool }.
Definition set_lq (v : nat -> ldqe) (x : ldqs) : ldqs := LQ v (wml x) (stl x) (wdl x) (wgen x) (wwait x) (fin x) (rgen x) (lbad x).
Definition set_wml (v : queue) (x : ldqs) : ldqs := LQ (lq x) v (stl x) (wdl x) (wgen x) (wwait x) (fin x) (rgen x) (lbad x).
Definition set_stl (v : queue) (x : ldqs) : ldqs := LQ (lq x) (wml x) v (wdl x) (wgen x) (wwait x) (fin x) (rgen x) (lbad x).
Definition set_wdl (v : queue) (x : ldqs) : ldqs := LQ (lq x) (wml x) (stl x) v (wgen x) (wwait x) (fin x) (rgen x) (lbad x).
Definition set_wgen (v : nat -> Z) (x : ldqs) : ldqs := LQ (lq x) (wml x) (stl x) (wdl x) v (wwait x) (fin x) (rgen x) (lbad x).
Definition set_wwait (v : nat -> nat) (x : ldqs) : ldqs := LQ (lq x) (wml x) (stl x) (wdl x) (wgen x) v (fin x) (rgen x) (lbad x).
Definition set_fin (v : queue) (x : ldqs) : ldqs := LQ (lq x) (wml x) (stl x) (wdl x) (wgen x) (wwait x) v (rgen x) (lbad x).
Definition set_rgen (v : Z) (x : ldqs) : ldqs := LQ (lq x) (wml x) (stl x) (wdl x) (wgen x) (wwait x) (fin x) v (lbad x).
Definition set_lbad (v : bool) (x : ldqs) : ldqs := LQ (lq x) (wml x) (stl x) (wdl x) (wgen x) (wwait x) (fin x) (rgen x) v.
Record uncu := UN { u_v : bool; u_ld : bool; u_addr : Z; u_wd : Z; u_f3 : Z; u_idx : nat }.
Definition set_u_v (v : bool) (x : uncu) : uncu := UN v (u_ld x) (u_addr x) (u_wd x) (u_f3 x) (u_idx x).
Definition set_u_ld (v : bool) (x : uncu) : uncu := UN (u_v x) v (u_addr x) (u_wd x) (u_f3 x) (u_idx x).
Definition set_u_addr (v : Z) (x : uncu) : uncu := UN (u_v x) (u_ld x) v (u_wd x) (u_f3 x) (u_idx x).
Definition set_u_wd (v : Z) (x : uncu) : uncu := UN (u_v x) (u_ld x) (u_addr x) v (u_f3 x) (u_idx x).
Definition set_u_f3 (v : Z) (x : uncu) : uncu := UN (u_v x) (u_ld x) (u_addr x) (u_wd x) v (u_idx x).
Definition set_u_idx (v : nat) (x : uncu) : uncu := UN (u_v x) (u_ld x) (u_addr x) (u_wd x) (u_f3 x) v.
Record lrscu := LR { r_v : bool; r_addr : Z; r_brm : Z }.
Definition set_r_v (v : bool) (x : lrscu) : lrscu := LR v (r_addr x) (r_brm x).
Definition set_r_addr (v : Z) (x : lrscu) : lrscu := LR (r_v x) v (r_brm x).
Definition set_r_brm (v : Z) (x : lrscu) : lrscu := LR (r_v x) (r_addr x) v.
Record lsu := Lsu { st : stqs; ld : ldqs; un : uncu; lr : lrscu }.
Definition lsu0 : lsu := Lsu (SQ (fun _ => stqe0) 0 0 false 0 0 queue0 queue0 false)
  (LQ (fun _ => ldqe0) queue0 queue0 queue0 (fun _ => 0%Z) (fun _ => 0) queue0 0 false) (UN false false 0 0 0 0) (LR false 0 0).
(** Update one entry in place. *)
Definition upd_s (i : nat) (f : stqe -> stqe) (s : stqs) : stqs := set_sq (fupd (sq s) i (f (sq s i))) s.
Definition upd_l (i : nat) (f : ldqe -> ldqe) (s : ldqs) : ldqs := set_lq (fupd (lq s) i (f (lq s i))) s.
Definition is_l (s : ldqs) (i : nat) (x : lstate) : bool := lst_eqb (l_st (lq s i)) x.
Definition is_s (s : stqs) (i : nat) (x : sstate) : bool := sst_eqb (s_st (sq s i)) x.

(** *** Inputs and outputs of a cycle *)
Record stadata := StD { sd_idx : nat; sd_rob : nat; sd_robf : bool; sd_val : Z }.
Record staddr := StA { sa_idx : nat; sa_rob : nat; sa_robf : bool; sa_addr : Z; sa_f3 : Z; sa_preg : nat; sa_sc : bool }.
Record ldreq := LdR { lr_idx : nat; lr_rob : nat; lr_robf : bool; lr_addr : Z; lr_f3 : Z; lr_preg : nat; lr_si : nat; lr_sf : bool; lr_lr : bool }.
Inductive mmures := MMiss | MHit (paddr : Z) | MFault.
Record mmuresp := MR { mr_res : mmures; mr_wait : nat; mr_ent : nat }.
Record dlresp := DL { dl_id : Z; dl_rep : replay; dl_data : Z }.
Record dsresp := DS { ds_idx : nat; ds_rep : replay }.
Record lalloc := LA { la_idx : nat; la_brm : Z; la_rob : nat; la_robf : bool }.
Record salloc := SA { sl_brm : Z; sl_rob : nat; sl_robf : bool; sl_f3 : Z; sl_flag : bool }.
Record lin := LIn {
  i_commit : list nat;          (* stq_idx of the committed slots that are stores, in slot order *)
  i_flush : bool;               (* rob_bcast->flush *)
  i_mispred : bool; i_brm : Z;  (* dec_bcast->mispred, br_mask *)
  i_clear : Z;                  (* dec_bcast->clear_mask *)
  i_mmio : option Z;            (* peripheral_resp->is_mmio with mmio_rdata *)
  i_pready : bool;              (* peripheral_resp->ready *)
  i_dl : list dlresp; i_ds : list dsresp; i_fill : option Z;   (* dcache2lsu *)
  i_std : list stadata; i_sta : list staddr; i_ldr : list ldreq;  (* exe2lsu *)
  i_ml : list mmuresp; i_ms : list mmuresp;                       (* mmu2lsu *)
  i_head : option nat;          (* lsu_mmio_is_oldest_unfinished: the rob index it accepts *)
  i_la : list lalloc; i_sa : list salloc                          (* dis2lsu *) }.
(** wb_req / sta_wb_req (IO.h:1427-1440; rob_flag and dbg are not carried) *)
Record wb := WB { w_rob : nat; w_brm : Z; w_diag : Z; w_res : Z; w_preg : nat; w_en : bool; w_pfl : bool; w_pfs : bool; w_sta : bool }.
Record dlreq := DLq { q_addr : Z; q_id : Z }.
Record dsreq := DSq { q_saddr : Z; q_sdata : Z; q_strb : Z; q_sidx : nat }.
Record mmioreq := MQ { q_wen : bool; q_maddr : Z; q_mdata : Z; q_mf3 : Z }.

(** *** comb_stq_commit, l.1043-1079 *)
Definition commit_one (flush : bool) (s : stqs) (idx : nat) : stqs :=
  if (idx =? scm s) && is_s s idx SWaitCommit then
    let s := upd_s idx (fun e => if flush then set_s_sup true (set_s_st SDone e)
                                 else if s_lrsc e && negb (s_scp e) then set_s_st SDone (set_s_sup true e)
                                 else set_s_st SCommitted e) s in
    set_scc (if scc s <? STQ_SIZE then S (scc s) else scc s) (set_scm (advance_ring_ptr (scm s) STQ_SIZE) s)
  else set_sbad true s.
Definition comb_stq_commit (commits : list nat) (flush : bool) (s : stqs) : stqs := fold_left (commit_one flush) commits s.

(** *** comb_mmio_in, l.298-321 *)
Definition comb_mmio_in (resp : option Z) (cur : uncu) (l : lsu) : lsu :=
  match resp with
  | None => l
  | Some rdata =>
    if negb (u_v cur) then l else
    if u_ld cur then
      if qn (fin (ld l)) <? LDQ_SIZE then
        let d := if is_l (ld l) (u_idx cur) LWaitMmioResp
                 then let d := upd_l (u_idx cur) (fun e => set_l_st LReadyToWb (set_l_res rdata e)) (ld l) in
                      set_fin (enq (fin d) (u_idx cur)) d
                 else ld l in
        Lsu (st l) d (set_u_v false (un l)) (lr l)
      else l
    else
      let s := if is_s (st l) (u_idx cur) SWaitMmioResp then upd_s (u_idx cur) (set_s_st SDone) (st l) else st l in
      Lsu s (ld l) (set_u_v false (un l)) (lr l)
  end.

(** *** comb_dcache2lsu_ldq, l.709-787 *)
(** replay_delay_cycles, l.16-20 *)
Definition replay_delay (r : replay) : nat := match r with RMshrHit | RMshrFull => REPLAY_WAIT | _ => 0 end.
Definition load_resp (d : ldqs) (r : dlresp) : ldqs :=
  if Z.testbit (dl_id r) 31 then set_lbad true d else
  let k := Z.to_nat (lsu_req_id_wait_idx (dl_id r)) in
  if negb (qv (wdl d) k) then d else
  if negb (wgen d k =? lsu_req_id_gen (dl_id r))%Z then set_lbad true d else
  let i := qi (wdl d) k in
  if is_l d i LWaitDcacheResp then
    match dl_rep r with
    | RHit => upd_l i (fun e => set_l_rep RHit (set_l_st LReadyToWb (set_l_res (extract_data (dl_data r) (l_pa e) (l_f3 e)) e))) d
    | rp => set_wwait (fupd (wwait d) k (replay_delay rp)) (upd_l i (fun e => set_l_rep rp (set_l_st LReadyToIssue e)) d)
    end
  else d.
Definition line_match (a b : Z) : bool := (Z.shiftr a 6 =? Z.shiftr b 6)%Z.
(** wake_load_replays_on_mshr_fill, l.22-51; [n] counts mshr_full_wakeups *)
Fixpoint wake_loads (addr : Z) (ks : list nat) (n : nat) (d : ldqs) : ldqs :=
  match ks with
  | [] => d
  | k :: t =>
    if negb (qv (wdl d) k) || (wwait d k =? 0) then wake_loads addr t n d else
    let e := lq d (qi (wdl d) k) in
    if negb (lst_eqb (l_st e) LReadyToIssue) then wake_loads addr t n d else
    match l_rep e with
    | RMshrHit => if line_match (l_pa e) addr then wake_loads addr t n (set_wwait (fupd (wwait d) k 0) d) else wake_loads addr t n d
    | RMshrFull => if n <? LSU_LDU_COUNT then wake_loads addr t (S n) (set_wwait (fupd (wwait d) k 0) d) else wake_loads addr t n d
    | _ => wake_loads addr t n d
    end
  end.
Definition finish_hit (d : ldqs) (k : nat) : ldqs :=
  if qv (wdl d) k && is_l d (qi (wdl d) k) LReadyToWb && (qn (fin d) <? LDQ_SIZE)
  then set_wdl (kill (wdl d) k) (set_fin (enq (fin d) (qi (wdl d) k)) d) else d.
Definition comb_dcache2lsu_ldq (rs : list dlresp) (fill : option Z) (d : ldqs) : ldqs :=
  let d := fold_left load_resp rs d in
  let d := match fill with Some a => wake_loads a (window (wdl d)) 0 d | None => d end in
  let d' := fold_left finish_hit (window (wdl d)) d in
  set_wdl (pop_invalid (Nat.min (qn (wdl d)) WINDOW) (wdl d')) d'.

(** *** comb_dcache2lsu_stq, l.789-818 *)
Definition store_resp (s : stqs) (r : dsresp) : stqs :=
  if STQ_SIZE <=? ds_idx r then set_sbad true s else
  if is_s s (ds_idx r) SWaitDcacheResp then
    match ds_rep r with
    | RHit => upd_s (ds_idx r) (fun e => set_s_wait 0 (set_s_rep RHit (set_s_st SDone e))) s
    | rp => upd_s (ds_idx r) (fun e => set_s_wait (replay_delay rp) (set_s_rep rp (set_s_st SCommitted e))) s
    end
  else s.
(** wake_store_replays_on_mshr_fill, l.53-81 *)
Fixpoint wake_stores (addr : Z) (ks : list nat) (n : nat) (s : stqs) : stqs :=
  match ks with
  | [] => s
  | k :: t =>
    let e := sq s k in
    if negb (sst_eqb (s_st e) SCommitted) || (s_wait e =? 0) then wake_stores addr t n s else
    match s_rep e with
    | RMshrHit => if line_match (s_pa e) addr then wake_stores addr t n (upd_s k (set_s_wait 0) s) else wake_stores addr t n s
    | RMshrFull => if n <? LSU_STA_COUNT then wake_stores addr t (S n) (upd_s k (set_s_wait 0) s) else wake_stores addr t n s
    | _ => wake_stores addr t n s
    end
  end.
Definition stq_slots (s : stqs) (n : nat) : list nat := map (fun i => (sh s + i) mod STQ_SIZE) (seq 0 n).
Definition comb_dcache2lsu_stq (rs : list dsresp) (fill : option Z) (s : stqs) : stqs :=
  let s := fold_left store_resp rs s in
  match fill with Some a => wake_stores a (stq_slots s (Nat.min (scc s) (sn s))) 0 s | None => s end.

(** *** comb_lsu2exe, l.904-1042 *)
Record lx := LX { x_s : stqs; x_lr : lrscu; x_st : nat; x_ld : nat; x_out : list wb }.
Definition sta_wb (cur : lrscu) (x : lx) (k : nat) : lx :=
  let s := x_s x in
  if negb (qv (dns s) k) then x else
  let i := qi (dns s) k in
  let e := sq s i in
  if negb (sst_eqb (s_st e) SReady || sst_eqb (s_st e) SPageFault) then x else
  if s_lrsc e then
    if LSU_LDU_COUNT <=? x_ld x then x else
    let pass := r_v cur && (r_addr cur =? s_pa e)%Z in
    let e' := if s_pf e then set_s_st SWaitCommit e else set_s_st SWaitCommit (set_s_sup (negb pass) (set_s_scp pass e)) in
    let o := if s_pf e then WB (s_rob e) (s_brm e) (s_va e) (s_va e) 0 false false true false
             else WB (s_rob e) (s_brm e) (s_va e) (if pass then 0 else 1)%Z (s_preg e) true false false false in
    let s := set_dns (kill (dns s) k) (upd_s i (fun _ => e') s) in
    LX s (if s_pf e then x_lr x else set_r_v false (x_lr x)) (x_st x) (S (x_ld x)) (x_out x ++ [o])
  else
    if LSU_STA_COUNT <=? x_st x then x else
    let o := WB (s_rob e) (s_brm e) (s_va e) (s_va e) 0 false false (s_pf e) true in
    LX (set_dns (kill (dns s) k) (upd_s i (set_s_st SWaitCommit) s)) (x_lr x) (S (x_st x)) (x_ld x) (x_out x ++ [o]).
Record ly := LY { y_d : ldqs; y_lr : lrscu; y_ld : nat; y_out : list wb }.
Definition load_wb (y : ly) (k : nat) : ly :=
  if LSU_LDU_COUNT <=? y_ld y then y else
  let d := y_d y in
  if negb (qv (fin d) k) then y else
  let i := qi (fin d) k in
  let e := lq d i in
  if negb (lst_eqb (l_st e) LReadyToWb || lst_eqb (l_st e) LPageFault) then y else
  let o := WB (l_rob e) (l_brm e) (if l_pf e then l_diag e else l_pa e) (if l_pf e then l_diag e else l_res e) (l_preg e) true (l_pf e) false false in
  LY (set_fin (kill (fin d) k) (upd_l i (set_l_st LEmpty) d))
     (if l_lrsc e && negb (l_pf e) then LR true (l_pa e) (l_brm e) else y_lr y) (S (y_ld y)) (y_out y ++ [o]).
Definition comb_lsu2exe (cur : lrscu) (l : lsu) : lsu * list wb :=
  let s0 := st l in
  let x := fold_left (sta_wb cur) (window (dns s0)) (LX s0 (lr l) 0 0 []) in
  let s1 := x_s x in
  let s1 := set_dns (pop_invalid (Nat.min (qn (dns s1)) WINDOW) (dns s1)) s1 in
  let d0 := ld l in
  let y := fold_left load_wb (window (fin d0)) (LY d0 (x_lr x) (x_ld x) []) in
  let d1 := y_d y in
  let d1 := set_fin (pop_invalid (Nat.min (qn (fin d0)) WINDOW) (fin d1)) d1 in
  (Lsu s1 d1 (un l) (y_lr y), x_out x ++ y_out y).

(** *** comb_exe2lsu, l.258-282; handle_store_data / handle_store_addr /
    handle_load_req, l.1393-1462 *)
Definition handle_store_data (s : stqs) (r : stadata) : stqs :=
  if STQ_SIZE <=? sd_idx r then s else
  let e := sq s (sd_idx r) in
  if negb (Bool.eqb (s_robf e) (sd_robf r)) || negb (s_rob e =? sd_rob r) then set_sbad true s else
  let rdy := s_pav e && sst_eqb (s_st e) SWaitData in
  let s := upd_s (sd_idx r) (fun e => (if rdy then set_s_st SReady else fun x => x) (set_s_dv true (set_s_data (sd_val r) e))) s in
  if rdy then set_dns (enq (dns s) (sd_idx r)) s else s.
Definition handle_store_addr (s : stqs) (r : staddr) : stqs :=
  if STQ_SIZE <=? sa_idx r then s else
  let e := sq s (sa_idx r) in
  if negb (Bool.eqb (s_robf e) (sa_robf r)) || negb (s_rob e =? sa_rob r) then set_sbad true s else
  let s := upd_s (sa_idx r) (fun e => set_s_lrsc (sa_sc r) (set_s_st SWaitTlb (set_s_preg (sa_preg r) (set_s_f3 (sa_f3 r)
             (set_s_pa 0%Z (set_s_pav false (set_s_va (sa_addr r) e))))))) s in
  set_wms (enq (wms s) (sa_idx r)) s.
Definition handle_load_req (d : ldqs) (r : ldreq) : ldqs :=
  if LDQ_SIZE <=? lr_idx r then d else
  let e := lq d (lr_idx r) in
  if negb (Bool.eqb (l_robf e) (lr_robf r)) || negb (l_rob e =? lr_rob r) then set_lbad true d else
  let d := upd_l (lr_idx r) (fun e => set_l_lrsc (lr_lr r) (set_l_sf (lr_sf r) (set_l_si (lr_si r) (set_l_st LWaitTlb (set_l_f3 (lr_f3 r)
             (set_l_pa 0%Z (set_l_preg (lr_preg r) (set_l_va (lr_addr r) e)))))))) d in
  set_wml (enq (wml d) (lr_idx r)) d.

(** *** comb_tlb_out, l.323-357: the requests (vaddr, entry, wait slot) *)
Definition tlb_reqs_l (d : ldqs) : list (Z * nat * nat) :=
  firstn LSU_LDU_COUNT (map (fun k => (l_va (lq d (qi (wml d) k)), qi (wml d) k, k))
    (filter (fun k => qv (wml d) k && is_l d (qi (wml d) k) LWaitTlb) (window (wml d)))).
Definition tlb_reqs_s (s : stqs) : list (Z * nat * nat) :=
  firstn LSU_STA_COUNT (map (fun k => (s_va (sq s (qi (wms s) k)), qi (wms s) k, k))
    (filter (fun k => qv (wms s) k && is_s s (qi (wms s) k) SWaitTlb) (window (wms s)))).

(** *** comb_tlb_in_ldq, l.358-433 *)
Definition tlb_resp_l (p : ldqs * lrscu) (r : mmuresp) : ldqs * lrscu :=
  let '(d, rl) := p in
  if (LDQ_SIZE <=? mr_wait r) || (LDQ_SIZE <=? mr_ent r) then p else
  if negb (qv (wml d) (mr_wait r)) || negb (qi (wml d) (mr_wait r) =? mr_ent r) then p else
  if negb (is_l d (mr_ent r) LWaitTlb) then (set_wml (kill (wml d) (mr_wait r)) d, rl) else
  match mr_res r with
  | MHit pa => (upd_l (mr_ent r) (fun e => set_l_st LWaitSTLF (set_l_mmio (lsu_is_mmio_addr pa) (set_l_pa pa e))) d, rl)
  | MFault => (upd_l (mr_ent r) (fun e => set_l_st LWaitFinish (set_l_res (l_va e) (set_l_diag (l_va e) (set_l_pf true e)))) d, set_r_v false rl)
  | MMiss => (upd_l (mr_ent r) (set_l_st LWaitTlbRetry) d, rl)
  end.
Fixpoint tlb_move_l (ks : list nat) (ns nf : nat) (d : ldqs) : ldqs :=
  match ks with
  | [] => d
  | k :: t =>
    if negb (qv (wml d) k) then tlb_move_l t ns nf d else
    let i := qi (wml d) k in
    match l_st (lq d i) with
    | LWaitSTLF =>
      if (ns <? LSU_LDU_COUNT) && (qn (stl d) <? LDQ_SIZE)
      then tlb_move_l t (S ns) nf (set_wml (kill (wml d) k) (set_stl (enq (stl d) i) (upd_l i (set_l_st LCheckStlf) d)))
      else tlb_move_l t ns nf d
    | LWaitFinish =>
      if (nf <? LSU_LDU_COUNT) && (qn (fin d) <? LDQ_SIZE)
      then tlb_move_l t ns (S nf) (set_wml (kill (wml d) k) (set_fin (enq (fin d) i) (upd_l i (set_l_st LPageFault) d)))
      else tlb_move_l t ns nf d
    | LWaitTlbRetry => tlb_move_l t ns nf (upd_l i (set_l_st LWaitTlb) d)
    | _ => tlb_move_l t ns nf d
    end
  end.
Definition comb_tlb_in_ldq (rs : list mmuresp) (d : ldqs) (rl : lrscu) : ldqs * lrscu :=
  let '(d, rl) := fold_left tlb_resp_l rs (d, rl) in
  let d := tlb_move_l (window (wml d)) 0 0 d in
  (set_wml (pop_invalid (Nat.min (qn (wml d)) WINDOW) (wml d)) d, rl).

(** *** comb_tlb_in_stq, l.434-506 *)
Definition tlb_resp_s (p : stqs * lrscu) (r : mmuresp) : stqs * lrscu :=
  let '(s, rl) := p in
  if (STQ_SIZE <=? mr_wait r) || (STQ_SIZE <=? mr_ent r) then p else
  if negb (qv (wms s) (mr_wait r)) || negb (qi (wms s) (mr_wait r) =? mr_ent r) then p else
  if negb (is_s s (mr_ent r) SWaitTlb) then p else
  match mr_res r with
  | MHit pa => (upd_s (mr_ent r) (fun e => set_s_st (if s_dv e then SWaitDone else SWaitData) (set_s_mmio (lsu_is_mmio_addr pa) (set_s_pa pa (set_s_pav true e)))) s, rl)
  | MFault => (upd_s (mr_ent r) (fun e => set_s_st SWaitDone (set_s_pf true e)) s, set_r_v false rl)
  | MMiss => (upd_s (mr_ent r) (set_s_st SWaitTlbRetry) s, rl)
  end.
Definition tlb_move_s (s : stqs) (k : nat) : stqs :=
  if negb (qv (wms s) k) then s else
  let i := qi (wms s) k in
  match s_st (sq s i) with
  | SWaitDone => set_wms (kill (wms s) k) (set_dns (enq (dns s) i) (upd_s i (fun e => set_s_st (if s_pf e then SPageFault else SReady) e) s))
  | SWaitData => set_wms (kill (wms s) k) s
  | SWaitTlbRetry => upd_s i (set_s_st SWaitTlb) s
  | _ => s
  end.
Definition comb_tlb_in_stq (rs : list mmuresp) (s : stqs) (rl : lrscu) : stqs * lrscu :=
  let '(s, rl) := fold_left tlb_resp_s rs (s, rl) in
  let s := fold_left tlb_move_s (window (wms s)) s in
  (set_wms (pop_invalid (Nat.min (qn (wms s)) WINDOW) (wms s)) s, rl).

(** *** comb_stlf, l.507-647 *)
Definition fs_of (e : stqe) : fstore := mkfstore (sst_eqb (s_st e) SAllocated) (s_pav e) (s_pa e) (s_f3 e) (s_dv e) (s_data e).
(** The older stores, youngest first. *)
Definition older (s : stqs) (n : nat) : list fstore := map (fun k => fs_of (sq s k)) (rev (stq_slots s n)).
(** Classification of one load (l.534-602): new entry state, uncached unit. *)
Definition stlf_check (s : stqs) (head : option nat) (i : nat) (n : nat) (u : uncu) (e : ldqe) : ldqe * uncu :=
  if l_mmio e then
    if (n =? 0) && match head with Some r => r =? l_rob e | None => false end && negb (u_v u)
    then (set_l_st LWaitMmioResp e, UN true true (l_pa e) (u_wd u) (l_f3 e) i)
    else (set_l_st LCheckStlfRetry e, u)
  else match stlf_scan (l_pa e) (l_f3 e) (older s n) with
       | Forward v => (set_l_st LWaitFinish (set_l_res v e), u)
       | Again => (set_l_st LCheckStlfRetry e, u)
       | ToDcache => (set_l_st LWaitDcache e, u)
       end.
(** The loop over the first entries of the STLF queue; result: load side,
    uncached unit, number of entries to pop, loads to requeue. *)
Fixpoint stlf_loop (s : stqs) (head : option nat) (ks : list nat) (d : ldqs) (u : uncu) (npop : nat) (retry : list nat)
  : ldqs * uncu * nat * list nat :=
  match ks with
  | [] => (d, u, npop, retry)
  | k :: t =>
    if negb (qv (stl d) k) then stlf_loop s head t d u (S npop) retry else
    let i := qi (stl d) k in
    match (match l_st (lq d i) with
           | LCheckStlf => match stq_distance (sh s) (shf s) (sn s) (l_si (lq d i)) (l_sf (lq d i)) with
                           | None => None
                           | Some n => let '(e, u') := stlf_check s head i n u (lq d i) in Some (upd_l i (fun _ => e) d, u')
                           end
           | _ => Some (d, u)
           end) with
    | None => (set_lbad true d, u, npop, retry)
    | Some (d, u) =>
      let pop d := set_stl (kill (stl d) k) d in
      match l_st (lq d i) with
      | LEmpty => stlf_loop s head t (pop d) u (S npop) retry
      | LWaitDcache =>
        if qn (wdl d) <? LDQ_SIZE
        then stlf_loop s head t (pop (upd_l i (set_l_st LReadyToIssue) (set_wdl (enq (wdl d) i) d))) u (S npop) retry
        else (d, u, npop, retry)
      | LWaitFinish =>
        if qn (fin d) <? LDQ_SIZE
        then stlf_loop s head t (pop (upd_l i (set_l_st LReadyToWb) (set_fin (enq (fin d) i) d))) u (S npop) retry
        else (d, u, npop, retry)
      | LWaitMmioResp => stlf_loop s head t (pop d) u (S npop) retry
      | LCheckStlfRetry => stlf_loop s head t (pop (upd_l i (set_l_st LCheckStlf) d)) u (S npop) (retry ++ [i])
      | _ => (d, u, npop, retry)
      end
    end
  end.
Definition requeue (d : ldqs) (i : nat) : ldqs :=
  if qn (stl d) <? LDQ_SIZE then set_stl (enq (stl d) i) d else set_lbad true d.
Definition comb_stlf (head : option nat) (l : lsu) : lsu :=
  let '(d, u, npop, retry) := stlf_loop (st l) head (window (stl (ld l))) (ld l) (un l) 0 [] in
  let d := set_stl (Nat.iter npop deq (stl d)) d in
  Lsu (st l) (fold_left requeue retry d) u (lr l).

(** *** comb_dis2lsu, l.240-256; alloc_stq_entry / alloc_ldq_entry, l.1480-1515 *)
Definition alloc_ldq (d : ldqs) (r : lalloc) : ldqs :=
  if negb (is_l d (la_idx r) LEmpty) then set_lbad true d else
  upd_l (la_idx r) (fun _ => set_l_st LAllocated (set_l_brm (la_brm r) (set_l_robf (la_robf r) (set_l_rob (la_rob r) ldqe0)))) d.
Definition alloc_stq (s : stqs) (r : salloc) : stqs :=
  if STQ_SIZE <=? sn s then set_sbad true s else
  if negb (Bool.eqb (sl_flag r) (stq_tail_flag (sh s) (sn s) (shf s))) then set_sbad true s else
  set_sn (S (sn s)) (upd_s (stq_idx_after (sh s) (sn s))
    (fun _ => set_s_st SAllocated (set_s_f3 (sl_f3 r) (set_s_brm (sl_brm r) (set_s_flag (sl_flag r) (set_s_robf (sl_robf r) (set_s_rob (sl_rob r) stqe0)))))) s).
(** comb_cal / comb_lsu2dis, l.185-238 (uint32_t arithmetic) *)
Definition cnt_st (s : stqs) (x : sstate) : nat := length (filter (fun k => is_s s k x) (stq_slots s (sn s))).
Definition cnt_ld (d : ldqs) (x : lstate) : nat := length (filter (fun k => is_l d k x) (seq 0 LDQ_SIZE)).
Definition u32sub (a b : Z) : Z := w32 (a - b).
Definition stq_free (s : stqs) : Z :=
  Z.min (u32sub (u32sub 16 (Z.of_nat (cnt_st s SAllocated))) (Z.of_nat (Nat.max (qn (wms s)) (qn (dns s))))) (u32sub 16 (Z.of_nat (sn s))).
Definition ldq_free (d : ldqs) : Z :=
  Z.min (u32sub (u32sub 16 (Z.of_nat (cnt_ld d LAllocated))) (Z.of_nat (qn (wml d)))) (Z.of_nat (cnt_ld d LEmpty)).
Definition ldq_alloc_idx (d : ldqs) : list nat :=
  firstn (Nat.min 2 (Z.to_nat (ldq_free d))) (filter (fun k => is_l d k LEmpty) (seq 0 LDQ_SIZE)).

(** *** comb_flush, l.1104-1226 *)
Definition flush_global (l : lsu) : lsu :=
  let s := st l in let d := ld l in
  let keep := Nat.min (scc s) (sn s) in
  let s' := SQ (sq s) (sh s) (stq_idx_after (sh s) keep) (shf s) keep keep (wipe (wms s)) (wipe (dns s)) (sbad s) in
  let d' := LQ (fun i => if i <? LDQ_SIZE then set_l_st LEmpty (lq d i) else lq d i) (wipe (wml d)) (wipe (stl d)) (wipe (wdl d)) (wgen d) (wwait d) (wipe (fin d)) (rgen d) (lbad d) in
  let keep_u := u_v (un l) && negb (u_ld (un l)) && stq_idx_alive_after_flush (u_idx (un l)) (sh s) keep && is_s s (u_idx (un l)) SWaitMmioResp in
  Lsu s' d' (if keep_u then un l else set_u_v false (un l)) (lr l).
Definition hits (m brm : Z) : bool := nz (Z.land m brm).
Fixpoint first_hit (brm : Z) (es : list stqe) : nat :=
  match es with [] => 0 | e :: t => if hits (s_brm e) brm then 0 else S (first_hit brm t) end.
Definition purge (dead : nat -> bool) (q : queue) : queue :=
  fold_left (fun q k => if dead (qi q k) then kill q k else q) (map (slot q) (seq 0 (qn q))) q.
Definition flush_mispred (brm : Z) (l : lsu) : lsu :=
  let s := st l in let d := ld l in
  let lq' := fun i => if (i <? LDQ_SIZE) && negb (lst_eqb (l_st (lq d i)) LEmpty) && hits (l_brm (lq d i)) brm then set_l_st LEmpty (lq d i) else lq d i in
  let keep := first_hit brm (map (sq s) (stq_slots s (sn s))) in
  let deadl := fun i => lst_eqb (l_st (lq' i)) LEmpty in
  let deads := fun i => negb (stq_idx_alive_after_flush i (sh s) keep) in
  let cc := Nat.min (scc s) keep in
  let s' := SQ (sq s) (sh s) (stq_idx_after (sh s) cc) (shf s) cc keep (purge deads (wms s)) (purge deads (dns s)) (sbad s) in
  let d' := LQ lq' (purge deadl (wml d)) (purge deadl (stl d)) (purge deadl (wdl d)) (wgen d) (wwait d) (purge deadl (fin d)) (rgen d) (lbad d) in
  let u := un l in
  let u' := if u_v u && ((u_ld u && deadl (u_idx u)) || (negb (u_ld u) && deads (u_idx u))) then set_u_v false u else u in
  Lsu s' d' u' (if r_v (lr l) && hits (r_brm (lr l)) brm then set_r_v false (lr l) else lr l).
Definition flush_clear (cur : lsu) (m : Z) (l : lsu) : lsu :=
  let d := set_lq (fun i => if (i <? LDQ_SIZE) && negb (lst_eqb (l_st (lq (ld cur) i)) LEmpty) then set_l_brm (Z.ldiff (l_brm (lq (ld l) i)) m) (lq (ld l) i) else lq (ld l) i) (ld l) in
  let s := fold_left (fun s k => upd_s k (fun e => set_s_brm (Z.ldiff (s_brm e) m) e) s) (stq_slots (st cur) (sn (st cur))) (st l) in
  Lsu s d (un l) (if r_v (lr l) then set_r_brm (Z.ldiff (r_brm (lr l)) m) (lr l) else lr l).
Definition comb_flush (i : lin) (cur l : lsu) : lsu :=
  let l := if i_flush i then flush_global l else l in
  let l := if i_mispred i then flush_mispred (i_brm i) l else l in
  if nz (i_clear i) then flush_clear cur (i_clear i) l else l.

(** *** comb_lsu2dcache_ldq, l.648-707 *)
Fixpoint issue_loads (g0 : Z) (ks : list nat) (n : nat) (d : ldqs) (out : list dlreq) : ldqs * list dlreq :=
  match ks with
  | [] => (d, out)
  | k :: t =>
    if LSU_LDU_COUNT <=? n then (d, out) else
    if negb (qv (wdl d) k) then issue_loads g0 t n d out else
    let i := qi (wdl d) k in
    if negb (is_l d i LReadyToIssue) then issue_loads g0 t n d out else
    let w := pred (wwait d k) in
    let d := set_wwait (fupd (wwait d) k w) d in
    if 0 <? w then issue_loads g0 t n d out else
    let bad := l_mmio (lq d i) in
    let gen := normalize_lsu_req_gen (g0 + Z.of_nat n) in
    let d := set_wgen (fupd (wgen d) k gen) (upd_l i (set_l_st LWaitDcacheResp) d) in
    let d := if bad then set_lbad true d else d in
    issue_loads g0 t (S n) d (out ++ [DLq (l_pa (lq d i)) (make_lsu_load_req_id (Z.of_nat k) gen)])
  end.
Definition comb_lsu2dcache_ldq (cur d : ldqs) : ldqs * list dlreq :=
  let '(d, out) := issue_loads (rgen cur) (window (wdl d)) 0 d [] in
  (set_rgen (normalize_lsu_req_gen (rgen cur + Z.of_nat (length out))) d, out).

(** *** comb_lsu2dcache_stq, l.820-902 *)
Definition strb_of (e : stqe) : Z := get_store_strb (s_pa e) (s_f3 e).
(** An older store of the window overlaps and is not done (l.845-857). *)
Definition blocked (s : stqs) (i : nat) : bool :=
  let e := sq s ((sh s + i) mod STQ_SIZE) in
  existsb (fun k => let o := sq s k in CheckAddr (s_pa o) (strb_of o) (s_pa e) (strb_of e) && negb (sst_eqb (s_st o) SDone)) (stq_slots s i).
Fixpoint issue_stores (cur : stqs) (is : list nat) (n : nat) (s : stqs) (u : uncu) (out : list dsreq) : stqs * uncu * list dsreq :=
  match is with
  | [] => (s, u, out)
  | i :: t =>
    if LSU_STA_COUNT <=? n then (s, u, out) else
    let k := (sh s + i) mod STQ_SIZE in
    if negb (is_s s k SCommitted) || is_s cur k SWaitDcacheResp then issue_stores cur t n s u out else
    let w := pred (s_wait (sq s k)) in
    let s := upd_s k (set_s_wait w) s in
    if 0 <? w then issue_stores cur t n s u out else
    if blocked s i then issue_stores cur t n s u out else
    let e := sq s k in
    if s_mmio e then
      if (i =? 0) && negb (u_v u)
      then issue_stores cur t n (upd_s k (set_s_st SWaitMmioResp) s) (UN true false (s_pa e) (s_data e) (s_f3 e) k) out
      else issue_stores cur t n s u out
    else if s_sup e then issue_stores cur t n (upd_s k (fun e => set_s_wait 0 (set_s_st SDone e)) s) u out
    else issue_stores cur t (S n) (upd_s k (set_s_st SWaitDcacheResp) s) u
           (out ++ [DSq (s_pa e) (align_store_data (s_data e) (s_pa e) (s_f3 e)) (strb_of e) k])
  end.
Definition comb_lsu2dcache_stq (cur s : stqs) (u : uncu) : stqs * uncu * list dsreq :=
  issue_stores cur (seq 0 (Nat.min (scc s) WINDOW)) 0 s u [].

(** *** comb_mmio_out, l.284-297 *)
Definition comb_mmio_out (ready : bool) (u : uncu) : option mmioreq :=
  if ready && u_v u then Some (MQ (negb (u_ld u)) (u_addr u) (u_wd u) (u_f3 u)) else None.
(** *** comb_check, l.1081-1103 *)
Fixpoint retire (n : nat) (s : stqs) : stqs :=
  match n with
  | O => s
  | S n' => if is_s s (sh s) SDone
            then let '(h, f) := advance_ring_ptr_f (sh s) (shf s) STQ_SIZE in
                 retire n' (set_shf f (set_sh h (set_scc (pred (scc s)) (set_sn (pred (sn s)) s))))
            else s
  end.
Definition comb_check (s : stqs) : stqs := retire (Nat.min (Nat.min (scc s) (sn s)) WINDOW) s.

(** *** One cycle, in the order of BackTop.cpp:288-380 *)
Record lout := LOut { o_wb : list wb; o_tl : list (Z * nat * nat); o_ts : list (Z * nat * nat); o_dl : list dlreq; o_ds : list dsreq; o_mm : option mmioreq }.
Definition lsu_cycle (cur : lsu) (i : lin) : lsu * lout :=
  let l := Lsu (comb_stq_commit (i_commit i) (i_flush i) (st cur)) (ld cur) (un cur) (lr cur) in
  let l := comb_mmio_in (i_mmio i) (un cur) l in
  let l := Lsu (comb_dcache2lsu_stq (i_ds i) (i_fill i) (st l)) (comb_dcache2lsu_ldq (i_dl i) (i_fill i) (ld l)) (un l) (lr l) in
  let '(l, wbs) := comb_lsu2exe (lr cur) l in
  let s := fold_left handle_store_data (i_std i) (st l) in
  let s := fold_left handle_store_addr (i_sta i) s in
  let d := fold_left handle_load_req (i_ldr i) (ld l) in
  let tl := tlb_reqs_l d in let ts := tlb_reqs_s s in
  let '(d, r) := comb_tlb_in_ldq (i_ml i) d (lr l) in
  let '(s, r) := comb_tlb_in_stq (i_ms i) s r in
  let l := comb_stlf (i_head i) (Lsu s d (un l) r) in
  let l := Lsu (fold_left alloc_stq (i_sa i) (st l)) (fold_left alloc_ldq (i_la i) (ld l)) (un l) (lr l) in
  let l := comb_flush i cur l in
  let '(d, dlq) := comb_lsu2dcache_ldq (ld cur) (ld l) in
  let '(s, u, dsq) := comb_lsu2dcache_stq (st cur) (st l) (un l) in
  let mm := comb_mmio_out (i_pready i) u in
  (Lsu (comb_check s) d u (lr l), LOut wbs tl ts dlq dsq mm).
