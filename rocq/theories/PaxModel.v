(** MemSubSystem/PeripheralAxi.cpp: the bridge between the uncached unit of the
    LSU and, for addresses with a built-in device, PeripheralModel::read_load,
    for the others an AXI port.  PeripheralAxi.h:12-45 (state), PeripheralAxi.cpp
    (all of it), MemSubsystem.cpp:1123-1129 and 1189-1190 (comb_outputs and
    comb_inputs run back to back inside MemSubsystem::comb_inputs, seq later),
    rv_simu_mmu_v2.cpp:1035-1062 (the back end reads peripheral_resp before that,
    so it sees what the previous cycle left there).

    The pointers peripheral_req, peripheral_resp and peripheral_model are the
    non-null ones MemSubsystem::init installs (MemSubsystem.cpp:644-648).  req_id
    is always 0 and left out.  Of resp_data only word 0 is read.  The AXI
    interconnect is the environment: [axin] is what bridge_axi_to_mem_subsystem
    copies in. *)
From Verif Require Import Base MemModel PeriphModel LsuModel.
Local Open Scope Z_scope.

(** PeripheralAxi::State; [p_tag] is a ghost number copied with the request. *)
Record pax := PX { p_busy : bool; p_write : bool; p_acc : bool; p_rv : bool; p_addr : Z; p_wd : Z; p_f3 : Z; p_rd : Z; p_tag : nat }.
Definition pax0 : pax := PX false false false false 0 0 0 0 0%nat.
(** in.read.{req_accepted,resp_valid,resp_data[0]}, in.write.{req_accepted,resp_valid} *)
Record axin := AX { a_racc : bool; a_rrv : bool; a_rdata : Z; a_wacc : bool; a_wrv : bool }.
(** out.read / out.write: nothing, a read or write request, or resp_ready *)
Inductive axout := ANone | ARead (addr size : Z) | AWrite (addr size strb data : Z) | ARWait | AWWait.
(** peripheral_resp: ready, is_mmio with mmio_rdata; the ghost number of the answer *)
Record presp := PR { pr_ready : bool; pr_ans : option Z; pr_tag : nat }.
(** init, l.5-13 *)
Definition presp0 : presp := PR false None 0%nat.

(** access_size_bytes, l.15-24 *)
Definition access_size (f3 : Z) : Z := match Z.land f3 3 with 0 => 1 | 1 => 2 | _ => 4 end.
(** pack_write_data, l.26-35 *)
Definition pack_data (d f3 : Z) : Z := match Z.land f3 3 with 0 => Z.land d 255 | 1 => Z.land d 65535 | _ => d end.
(** pack_write_strb, l.37-46 *)
Definition pack_strb (f3 : Z) : Z := match Z.land f3 3 with 0 => 1 | 1 => 3 | _ => 15 end.
(** extract_read_data, l.48-65 *)
Definition extract_read (raw f3 : Z) : Z :=
  match f3 with
  | 0 => let v := Z.land raw 255 in if nz (Z.land v 128) then Z.lor v 4294967040 else v
  | 1 => let v := Z.land raw 65535 in if nz (Z.land v 32768) then Z.lor v 4294901760 else v
  | 4 => Z.land raw 255
  | 5 => Z.land raw 65535
  | _ => raw
  end.

(** comb_outputs, l.67-105 *)
Definition pax_out (s : pax) : axout :=
  if negb (p_busy s) then ANone else
  if negb (p_acc s) then
    let size := access_size (p_f3 s) - 1 in
    if p_write s then AWrite (p_addr s) size (pack_strb (p_f3 s)) (pack_data (p_wd s) (p_f3 s)) else ARead (p_addr s) size
  else if p_write s then AWWait else ARWait.
Definition pax_resp (s : pax) : presp := PR (negb (p_busy s)) (if p_rv s then Some (p_rd s) else None) (p_tag s).

(** comb_inputs, l.107-176; [v] is peripheral_model->read_load of the request *)
Definition pax_in (v : Z) (req : option mmioreq) (tag : nat) (a : axin) (s : pax) : pax :=
  let n := PX (p_busy s) (p_write s) (p_acc s) (if p_rv s then false else p_rv s) (p_addr s) (p_wd s) (p_f3 s) (p_rd s) (p_tag s) in
  if negb (p_busy s) then
    match req with
    | None => n
    | Some q =>
      if is_modeled_mmio (q_maddr q)
      then PX false (q_wen q) false true (q_maddr q) (q_mdata q) (q_mf3 q) (if q_wen q then 0 else v) tag
      else PX true (q_wen q) false false (q_maddr q) (q_mdata q) (q_mf3 q) 0 tag
    end
  else if negb (p_acc s) then
    if (p_write s && a_wacc a) || (negb (p_write s) && a_racc a)
    then PX (p_busy n) (p_write n) true (p_rv n) (p_addr n) (p_wd n) (p_f3 n) (p_rd n) (p_tag n) else n
  else if p_write s then
    if a_wrv a then PX false false false true (p_addr n) (p_wd n) (p_f3 n) 0 (p_tag n) else n
  else if a_rrv a then PX false false false true (p_addr n) (p_wd n) (p_f3 n) (extract_read (a_rdata a) (p_f3 s)) (p_tag n) else n.
(** l.173-175: reached only on the path of a read whose request was accepted *)
Definition pax_ready (s n : pax) : bool := if p_busy s && p_acc s && negb (p_write s) then negb (p_busy n) else negb (p_busy s).

(** One cycle: the devices are [dev] at time [t]. *)
Definition read_of (dev : periph) (t : Z) (req : option mmioreq) : Z := match req with Some q => read_load dev t (q_maddr q) (q_mf3 q) | None => 0 end.
Definition pax_cycle (dev : periph) (t : Z) (req : option mmioreq) (tag : nat) (a : axin) (s : pax) : pax * axout * presp :=
  let r := pax_resp s in
  let n := pax_in (read_of dev t req) req tag a s in
  (n, pax_out s, PR (pax_ready s n) (pr_ans r) (pr_tag r)).

(** *** The bridge behind the load/store unit.
    One CPU cycle (rv_simu_mmu_v2.cpp:1016-1080): the LSU reads the response the
    previous cycle left, then the bridge takes the request of the LSU. *)
Record csys := CS { c_l : lsu; c_p : pax; c_w : presp; c_n : nat; c_took : list (nat * nat); c_txs : list nat }.
Definition csys0 : csys := CS lsu0 pax0 presp0 0%nat [] [].
(** The inputs of the LSU with its response wires replaced by [w]. *)
Definition with_resp (w : presp) (i : lin) : lin :=
  LIn (i_commit i) (i_flush i) (i_mispred i) (i_brm i) (i_clear i) (pr_ans w) (pr_ready w) (i_dl i) (i_ds i) (i_fill i)
      (i_std i) (i_sta i) (i_ldr i) (i_ml i) (i_ms i) (i_head i) (i_la i) (i_sa i).
(** Everything the environment supplies in a cycle. *)
Record cin := CI { ci_lsu : lin; ci_dev : periph; ci_t : Z; ci_ax : axin }.
(** Ghosts: [c_n] counts the operations put into the uncached unit (an operation
    begins when the unit is filled in a cycle it entered empty); [c_took] lists,
    for every response that freed the unit, the number of the operation waiting and the
    number the response belongs to; [c_txs] the operations of the AXI
    transactions accepted. *)
Definition took (s : csys) : bool :=
  u_v (un (c_l s)) && match pr_ans (c_w s) with Some _ => true | None => false end &&
  (negb (u_ld (un (c_l s))) || (qn (fin (ld (c_l s))) <? LDQ_SIZE)%nat).
Definition ax_accepted (s : pax) (a : axin) : bool :=
  match pax_out s with ARead _ _ => a_racc a | AWrite _ _ _ _ => a_wacc a | _ => false end.
Definition c_step (s : csys) (i : cin) : csys * (lout * axout) :=
  let '(l', o) := lsu_cycle (c_l s) (with_resp (c_w s) (ci_lsu i)) in
  let n' := if negb (u_v (un (c_l s))) && u_v (un l') then S (c_n s) else c_n s in
  let '(p', ax, w') := pax_cycle (ci_dev i) (ci_t i) (o_mm o) n' (ci_ax i) (c_p s) in
  (CS l' p' w' n' (if took s then c_took s ++ [(c_n s, pr_tag (c_w s))] else c_took s)
      (if ax_accepted (c_p s) (ci_ax i) then c_txs s ++ [p_tag (c_p s)] else c_txs s), (o, ax)).
Fixpoint c_run (s : csys) (is : list cin) : csys :=
  match is with [] => s | i :: t => c_run (fst (c_step s i)) t end.
