(** rv_simu_mmu_v2.cpp: the boundary between the CPU and the AXI subsystem, which
    makes CONFIG_AXI_SUBSYSTEM_FREQ_DIV ticks (include/config.h:239: 16) in one
    CPU cycle.  l.46-69 clear_axi_master_inputs, l.479-636 AxiCpuBoundaryState,
    capture/accumulate/restore/mask, l.696-723 run_extra_axi_subsystem_ticks and
    the order of the calls in SimCpu::cycle, l.1016-1090.

    All these functions are loops over the ports that treat each port alone, so
    one port is modelled; [fast] is is_dcache_read_master/is_dcache_write_master,
    [wr] says that it is a write port.  Address, size, strobes and write data are
    left out (they are only cleared with req.valid); resp.data is one number.
    Ids fit in a uint8_t.  The interconnect itself (axi-interconnect-kit) is not
    part of the repository: here it is any function on a state and the port. *)
From Verif Require Import Base.
Local Open Scope Z_scope.

(** read_ports[i] or write_ports[i], and the interconnect's own
    read_req_accepted[i], read_req_accepted_id[i] ([i_aid]: read ports only). *)
Record port := PT {
  q_v : bool; q_id : Z;
  q_rdy : bool; q_acc : bool; q_aid : Z;
  r_v : bool; r_id : Z; r_d : Z; r_rdy : bool;
  i_acc : bool; i_aid : Z }.
Definition port0 : port := PT false 0 false false 0 false 0 0 false false 0.

(** clear_axi_master_inputs, l.46-69: resp.ready is kept *)
Definition clear_in (p : port) : port :=
  PT false 0 (q_rdy p) (q_acc p) (q_aid p) (r_v p) (r_id p) (r_d p) (r_rdy p) (i_acc p) (i_aid p).
(** What the master drives. *)
Definition drive (v : bool) (id : Z) (rdy : bool) (p : port) : port :=
  PT v id (q_rdy p) (q_acc p) (q_aid p) (r_v p) (r_id p) (r_d p) rdy (i_acc p) (i_aid p).

(** AxiCpuBoundaryState, l.479-492 *)
Record bst := BS { b_rdy : bool; b_acc : bool; b_aid : Z; b_rv : bool; b_rid : Z; b_rrdy : bool }.
(** The id noted with an acceptance: the interconnect's for reads, the one on the
    request wires for writes (l.508-509, 539-540). *)
Definition noted (wr : bool) (p : port) : Z := if wr then q_id p else i_aid p.
(** capture_axi_cpu_boundary_state, l.494-517 *)
Definition capture (wr : bool) (p : port) : bst := BS (q_rdy p) (i_acc p) (noted wr p) (r_v p) (r_id p) (r_rdy p).
(** accumulate_axi_cpu_boundary_state, l.519-545 *)
Definition accumulate (fast wr : bool) (p : port) (b : bst) : bst :=
  if fast then b else
  BS (b_rdy b || q_rdy p) (if i_acc p then true else b_acc b) (if i_acc p then noted wr p else b_aid b) (b_rv b) (b_rid b) (b_rrdy b).
(** restore_axi_cpu_boundary_state, l.547-602 *)
Definition restore (fast wr : bool) (b : bst) (p : port) : port :=
  if fast then p else
  let from_extra := r_v p && negb (b_rv b && (b_rid b =? r_id p)) in
  let matches := b_acc b && r_v p && (r_id p =? b_aid b) in
  PT (q_v p) (q_id p) (b_rdy b) (b_acc b) (if wr then q_aid p else b_aid b)
     (if matches then false else r_v p) (r_id p) (r_d p)
     (if from_extra || matches then false else b_rrdy b)
     (b_acc b) (if wr then i_aid p else b_aid b).
(** mask_axi_cpu_boundary_for_internal_tick, l.604-636 *)
Definition mask (fast : bool) (p : port) : port :=
  if fast then p else
  PT false 0 (q_rdy p) (q_acc p) (q_aid p) (r_v p) (r_id p) (r_d p) false (i_acc p) (i_aid p).

(** run_extra_axi_subsystem_ticks, l.696-723, one tick per element of the list. *)
Section Extra.
Context {S E : Type} (tick : E -> S * port -> S * port) (fast wr : bool).
Fixpoint extra (es : list E) (x : S * port) (b : bst) : (S * port) * bst :=
  match es with
  | [] => (x, b)
  | e :: t => let x' := tick e (fst x, mask fast (snd x)) in extra t x' (accumulate fast wr (snd x') b)
  end.
Definition run_extra (es : list E) (x : S * port) : S * port :=
  match es with
  | [] => x
  | _ => let '(y, b) := extra es x (capture wr (snd x)) in (fst y, restore fast wr b (snd y))
  end.
(** The ports as they stand after each extra tick. *)
Fixpoint after (es : list E) (x : S * port) : list port :=
  match es with [] => [] | e :: t => let x' := tick e (fst x, mask fast (snd x)) in snd x' :: after t x' end.
(** The ports as the interconnect finds them at the start of each extra tick. *)
Fixpoint before (es : list E) (x : S * port) : list port :=
  match es with [] => [] | e :: t => mask fast (snd x) :: before t (tick e (fst x, mask fast (snd x))) end.
End Extra.
