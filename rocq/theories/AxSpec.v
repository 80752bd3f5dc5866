(** An interconnect that queues the responses to one master, behind the boundary
    of AxModel.  What is assumed of it is what the code says about it:
    rv_simu_mmu_v2.cpp:53-55 (resp.ready is consumed in comb_outputs),
    MemSubSystem/include/MSHR.h:46-48 (ready is a hint, acceptance is committed in
    the interconnect's seq).  When it accepts, and when responses arrive, is up to
    the events of a tick. *)
From Verif Require Import Base AxModel.
Local Open Scope Z_scope.

Definition rsp := (Z * Z)%type.                              (* id, data *)
Record ev := EV { e_acc : option Z; e_rdy : bool; e_push : list rsp }.
(** The responses waiting, and whether the first has been put on the port. *)
Record icq := IC { iq : list rsp; ishown : bool }.

(** comb_outputs: the response on the port leaves if the master is ready, then the
    first one waiting is put on the port.  [own]: the interconnect goes by its own
    record of what it has put there, not by the valid bit of the port. *)
Definition comb_out (own : bool) (c : icq) (p : port) : icq * port :=
  let q := if (if own then ishown c else r_v p) && r_rdy p then tl (iq c) else iq c in
  let '(v, (id, d)) := match q with [] => (false, (0, 0)) | x :: _ => (true, x) end in
  (IC q v, PT (q_v p) (q_id p) (q_rdy p) (i_acc p) (q_aid p) v id d (r_rdy p) (i_acc p) (i_aid p)).
(** comb_inputs and seq: acceptance and arrivals *)
Definition comb_in (e : ev) (c : icq) (p : port) : icq * port :=
  (IC (iq c ++ e_push e) (ishown c),
   let a := match e_acc e with Some _ => true | None => false end in
   let k := match e_acc e with Some k => k | None => i_aid p end in
   PT (q_v p) (q_id p) (e_rdy e) a k (r_v p) (r_id p) (r_d p) (r_rdy p) a k).
Definition tick (own : bool) (e : ev) (x : icq * port) : icq * port :=
  let '(c, p) := comb_out own (fst x) (snd x) in comb_in e c p.

(** A CPU cycle.  [m_got]: what the master has taken, [m_all]: what has arrived for
    it, both in order.  An [early] master looks at the port before comb_outputs
    (the instruction cache, in front_cycle), the other kind after it (the MMIO
    bridge, bridge_axi_to_mem_subsystem).  A response is taken when it is visible
    and the master ready. *)
Record mach := MA { m_c : icq; m_p : port; m_got : list rsp; m_all : list rsp }.
Definition mach0 : mach := MA (IC [] false) port0 [] [].
Record cyc := CY { y_v : bool; y_id : Z; y_rdy : bool; y_main : ev; y_extra : list ev }.
Definition sees (own early : bool) (s : mach) : port := if early then m_p s else snd (comb_out own (m_c s) (clear_in (m_p s))).
Definition takes (own early : bool) (s : mach) (y : cyc) : option rsp :=
  let p := sees own early s in if r_v p && y_rdy y then Some (r_id p, r_d p) else None.
Definition cycle (own early wr : bool) (s : mach) (y : cyc) : mach :=
  let '(c2, p2) :=
    if early then comb_out own (m_c s) (drive (y_v y) (y_id y) (y_rdy y) (clear_in (m_p s)))
    else let '(c, p) := comb_out own (m_c s) (clear_in (m_p s)) in (c, drive (y_v y) (y_id y) (y_rdy y) p) in
  let '(c3, p3) := run_extra (tick own) false wr (y_extra y) (comb_in (y_main y) c2 p2) in
  MA c3 p3 (m_got s ++ match takes own early s y with Some x => [x] | None => [] end)
     (m_all s ++ flat_map e_push (y_main y :: y_extra y)).

(** A master that is ready only for a response it sees. *)
Definition modest (own early : bool) (s : mach) (y : cyc) : Prop := y_rdy y = true -> r_v (sees own early s) = true.
(** No request is accepted under the id of a response taken in the same cycle; on
    a write port none at all. *)
Definition fresh_ids (own early wr : bool) (s : mach) (y : cyc) : Prop :=
  forall k d, takes own early s y = Some (k, d) -> forall e, In e (y_main y :: y_extra y) -> e_acc e = None \/ wr = false /\ e_acc e <> Some k.
Inductive reach (own early wr : bool) (ok : mach -> cyc -> Prop) : mach -> Prop :=
| reach0 : reach own early wr ok mach0
| reachS s y : reach own early wr ok s -> ok s y -> reach own early wr ok (cycle own early wr s y).

(** The acceptances of a CPU cycle, in order. *)
Definition accepts (y : cyc) : list Z := flat_map (fun e => match e_acc e with Some k => [k] | None => [] end) (y_main y :: y_extra y).
