(** The MMIO bridge of PaxModel in front of a bus whose acceptances are registered:
    they are committed in the interconnect's seq (MemSubSystem/include/MSHR.h:46-48)
    and reach the bridge in the next CPU cycle (rv_simu_mmu_v2.cpp:1040
    bridge_axi_to_mem_subsystem runs before :1060 bridge_mem_subsystem_to_axi and
    :1066 comb_inputs), whereas PaxModel alone sees any acceptance at any time.  A
    response is held until the bridge is ready for it (C82). *)
From Verif Require Import Base PeriphModel LsuModel PaxModel PaxSpec.
Local Open Scope Z_scope.

(** [b_ra], [b_wa]: a read (write) request was accepted in the last CPU cycle;
    [b_txs]: the transactions accepted so far; [b_vals]: the values the reads among
    them return; [b_rq], [b_wq]: the responses not yet taken. *)
Record bus := BU { b_ra : bool; b_wa : bool; b_txs : list axout; b_vals : list Z; b_rq : list Z; b_wq : nat }.
Definition bus0 : bus := BU false false [] [] [] 0.
(** A cycle: the request of the LSU, whether the bus accepts what is on its wires,
    the value an accepted read will return, whether responses are visible. *)
Record bin := BI { n_dev : periph; n_t : Z; n_req : option mmioreq; n_take : bool; n_val : Z; n_showr : bool; n_showw : bool }.
Definition b_ax (b : bus) (i : bin) : axin :=
  AX (b_ra b) (n_showr i && match b_rq b with [] => false | _ => true end) (hd 0 (b_rq b)) (b_wa b) (n_showw i && negb (Nat.eqb (b_wq b) 0)).
Definition b_pin (b : bus) (i : bin) : pin := PI (n_dev i) (n_t i) (n_req i) 0%nat (b_ax b i).
Definition is_rd (o : axout) : bool := match o with ARead _ _ => true | _ => false end.
Definition is_wr (o : axout) : bool := match o with AWrite _ _ _ _ => true | _ => false end.
Definition b_step (s : pax) (b : bus) (i : bin) : bus :=
  let o := pax_out s in
  let a := b_ax b i in
  let ra := n_take i && is_rd o in
  let wa := n_take i && is_wr o in
  BU ra wa (b_txs b ++ opt (ra || wa) o) (b_vals b ++ opt ra (n_val i))
     ((match o with ARWait => if a_rrv a then tl (b_rq b) else b_rq b | _ => b_rq b end) ++ opt ra (n_val i))
     ((match o with AWWait => if a_wrv a then pred (b_wq b) else b_wq b | _ => b_wq b end) + (if wa then 1 else 0))%nat.
Inductive breach (ok : pax -> bus -> bin -> Prop) : pax -> hist -> bus -> Prop :=
| br0 : breach ok pax0 hist0 bus0
| brS s h b i : breach ok s h b -> pin_ok (b_pin b i) -> is_w 32 (n_val i) -> ok s b i -> breach ok (p_step s (b_pin b i)) (h_step s (b_pin b i) h) (b_step s b i).

(** A bus that does not accept in the CPU cycle after one in which it accepted. *)
Definition gap (_ : pax) (b : bus) (i : bin) : Prop := n_take i = true -> b_ra b = false /\ b_wa b = false.
(** Devices without side effects: a read returns what is at its address. *)
Definition device (f : Z -> Z) (s : pax) (_ : bus) (i : bin) : Prop := forall a n, pax_out s = ARead a n -> n_val i = f a.
