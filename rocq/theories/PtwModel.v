(** MemSubSystem/include/MemPtwBlock.h: the shared page-table walker.  Left out:
    the performance counters; the packed state encodings (:115-225, 297-315, 371-778), which
    only the netlist generator uses; events with a nonzero replay code (:1123-1152),
    which the routing block never produces (MemRouteBlock.cpp:20-85). *)
From Verif Require Import Base RtModel.

(** PtwWalkReq, PtwWalkResp, back-end/include/IO.h:1080-1109 *)
Record wreq := mkwq { q_va : Z; q_satp : Z; q_type : Z }.
Record wresp := mkwr { r_fault : bool; r_va : Z; r_pte : Z; r_level : Z }.
Definition wreq0 : wreq := mkwq 0 0 0.

Inductive client := Dtlb | Itlb.
Definition client_eqb (a b : client) : bool := match a, b with Dtlb, Dtlb | Itlb, Itlb => true | _, _ => false end.
Definition other (c : client) : client := match c with Dtlb => Itlb | Itlb => Dtlb end.

(** PtwClientState (:320-326), WalkClientState (:328-334); [None] is resp_valid = false *)
Record mcl := mkmc { mc_pend : bool; mc_infl : bool; mc_addr : Z; mc_resp : option Z }.
Record wcl := mkwc { c_pend : bool; c_infl : bool; c_req : wreq; c_resp : option wresp }.
Inductive wstate := WIdle | L1Req | L1Wait | L2Req | L2Wait.
(** State, :347-358; [pw_id] is walk_req_id_valid with walk_req_id *)
Record ptw := mkpw {
  pw_m : client -> mcl; pw_c : client -> wcl; pw_st : wstate; pw_act : bool;
  pw_own : client; pw_rr : client; pw_l1 : Z; pw_drop : Z; pw_id : option Z }.
(** reset_state, :362-367 *)
Definition ptw0 : ptw :=
  mkpw (fun _ => mkmc false false 0 None) (fun _ => mkwc false false wreq0 None) WIdle false Dtlb Dtlb 0 0 None.

Definition set_m (c : client) (v : mcl) (p : ptw) : ptw :=
  mkpw (fun d => if client_eqb d c then v else pw_m p d) (pw_c p) (pw_st p) (pw_act p) (pw_own p) (pw_rr p) (pw_l1 p) (pw_drop p) (pw_id p).
Definition set_c (c : client) (v : wcl) (p : ptw) : ptw :=
  mkpw (pw_m p) (fun d => if client_eqb d c then v else pw_c p d) (pw_st p) (pw_act p) (pw_own p) (pw_rr p) (pw_l1 p) (pw_drop p) (pw_id p).
Definition set_st (s : wstate) (i : option Z) (p : ptw) : ptw :=
  mkpw (pw_m p) (pw_c p) s (pw_act p) (pw_own p) (pw_rr p) (pw_l1 p) (pw_drop p) i.

(** PortIn, per client: memory read request, walk request, and whether the response
    shown was taken. *)
Record pin := mkpi { i_mreq : option Z; i_mtake : bool; i_wreq : option wreq; i_wtake : bool }.

(** send_mem_req :954-976, send_walk_req :978-1000: the response is dropped even when
    the request is refused *)
Definition send_mem (c : client) (a : Z) (p : ptw) : ptw :=
  let s := pw_m p c in
  if mc_pend s || mc_infl s then set_m c (mkmc (mc_pend s) (mc_infl s) (mc_addr s) None) p
  else set_m c (mkmc true (mc_infl s) a None) p.
Definition send_walk (c : client) (q : wreq) (p : ptw) : ptw :=
  let s := pw_c p c in
  if c_pend s || c_infl s then set_c c (mkwc (c_pend s) (c_infl s) (c_req s) None) p
  else set_c c (mkwc true (c_infl s) q None) p.
(** apply_port_inputs :780-799, one client *)
Definition port_in (c : client) (i : pin) (p : ptw) : ptw :=
  let p := if i_mtake i then set_m c (mkmc (mc_pend (pw_m p c)) (mc_infl (pw_m p c)) (mc_addr (pw_m p c)) None) p else p in
  let p := match i_mreq i with Some a => send_mem c a p | None => p end in
  let p := if i_wtake i then set_c c (mkwc (c_pend (pw_c p c)) (c_infl (pw_c p c)) (c_req (pw_c p c)) None) p else p in
  match i_wreq i with Some q => send_walk c q p | None => p end.

(** select_walk_owner :827-852 *)
Definition grant_owner (c : client) (p : ptw) : ptw :=
  let s := pw_c p c in
  let p := set_c c (mkwc false true (c_req s) (c_resp s)) p in
  mkpw (pw_m p) (pw_c p) L1Req true c (other c) 0 (pw_drop p) (pw_id p).
Definition select_owner (p : ptw) : ptw :=
  if pw_act p then p else
  match pw_st p with
  | WIdle =>
      let first := pw_rr p in
      if c_pend (pw_c p first) then grant_owner first p
      else if c_pend (pw_c p (other first)) then grant_owner (other first) p else p
  | _ => p
  end.
(** comb_begin :240-247 *)
Definition comb_begin (i : client -> pin) (p : ptw) : ptw :=
  select_owner (port_in Itlb (i Itlb) (port_in Dtlb (i Dtlb) p)).

(** project_outputs_from_state :854-888: what the clients and the routing block see *)
Definition wready (p : ptw) (c : client) : bool := negb (c_pend (pw_c p c)) && negb (c_infl (pw_c p c)).
Definition l1_addr (q : wreq) : Z :=
  w32 (w32 (Z.shiftl (Z.land (q_satp q) 4194303) 12) + Z.shiftl (Z.land (Z.shiftr (q_va q) 22) 1023) 2).
Definition l2_addr (pte : Z) (q : wreq) : Z :=
  w32 (w32 (Z.shiftl (Z.land (Z.shiftr pte 10) 4194303) 12) + Z.shiftl (Z.land (Z.shiftr (q_va q) 12) 1023) 2).
Definition walk_read (p : ptw) : option Z :=
  if pw_act p then
    let q := c_req (pw_c p (pw_own p)) in
    match pw_st p with
    | L1Req => Some (l1_addr q)
    | L2Req => Some (l2_addr (pw_l1 p) q)
    | _ => None
    end
  else None.
Definition mem_read (p : ptw) (c : client) : option Z := if mc_pend (pw_m p c) then Some (mc_addr (pw_m p c)) else None.

(** apply_grant :892-910 with on_mem_read_granted :1002-1013, on_walk_read_granted :1029-1044 *)
Definition on_mem_granted (c : client) (p : ptw) : ptw :=
  let s := pw_m p c in set_m c (mkmc false true (mc_addr s) (mc_resp s)) p.
Definition on_walk_granted (id : Z) (p : ptw) : ptw :=
  set_st (match pw_st p with L1Req => L1Wait | L2Req => L2Wait | s => s end) (Some id) p.
Definition apply_grant (g : option (owner * Z)) (p : ptw) : ptw :=
  match g with
  | Some (ODtlb, _) => on_mem_granted Dtlb p
  | Some (OItlb, _) => on_mem_granted Itlb p
  | Some (OWalk, id) => on_walk_granted id p
  | _ => p
  end.
(** on_walk_mem_resp :1046-1121 *)
Definition publish (r : wresp) (p : ptw) : ptw :=
  let c := pw_own p in let s := pw_c p c in
  let p := set_c c (mkwc (c_pend s) false (c_req s) (Some r)) p in
  mkpw (pw_m p) (pw_c p) WIdle false (pw_own p) (pw_rr p) (pw_l1 p) (pw_drop p) None.
Definition on_walk_resp (id pte : Z) (p : ptw) : ptw :=
  let active := pw_act p && match pw_id p with Some i => i =? id | None => false end in
  if (0 <? pw_drop p) && negb active
  then mkpw (pw_m p) (pw_c p) (pw_st p) (pw_act p) (pw_own p) (pw_rr p) (pw_l1 p) (pw_drop p - 1) (pw_id p)
  else if negb active then p
  else
    let va := q_va (c_req (pw_c p (pw_own p))) in
    let v := Z.testbit pte 0 in let r := Z.testbit pte 1 in let w := Z.testbit pte 2 in let x := Z.testbit pte 3 in
    let fault := publish (mkwr true va 0 0) p in
    match pw_st p with
    | L1Wait =>
        if negb v || (negb r && w) then fault
        else if r || x then (if nz (Z.land (Z.shiftr pte 10) 1023) then fault else publish (mkwr false va pte 1) p)
        else mkpw (pw_m p) (pw_c p) L2Req (pw_act p) (pw_own p) (pw_rr p) pte (pw_drop p) None
    | L2Wait => if negb v || (negb r && w) || negb (r || x) then fault else publish (mkwr false va pte 0) p
    | _ => fault
    end.
(** on_mem_resp_client :1015-1027 *)
Definition on_mem_resp (c : client) (d : Z) (p : ptw) : ptw :=
  let s := pw_m p c in set_m c (mkmc (mc_pend s) false (mc_addr s) (Some d)) p.
(** apply_events :912-940: at most one event, replay code 0 *)
Definition apply_event (e : option event) (p : ptw) : ptw :=
  match e with
  | None => p
  | Some v => match v_owner v with
              | ODtlb => on_mem_resp Dtlb (v_data v) p
              | OItlb => on_mem_resp Itlb (v_data v) p
              | OWalk => on_walk_resp (v_id v) (v_data v) p
              | _ => p
              end
  end.
(** apply_wakeups :942-952, retry_mem_req :1154-1161, retry_active_walk :1163-1174 *)
Definition retry_mem (c : client) (p : ptw) : ptw :=
  let s := pw_m p c in if mc_infl s then set_m c (mkmc true false (mc_addr s) (mc_resp s)) p else p.
Definition retry_walk (p : ptw) : ptw :=
  if pw_act p then set_st (match pw_st p with L1Wait => L1Req | L2Wait => L2Req | s => s end) None p else p.
Definition apply_wakeups (w : three) (p : ptw) : ptw :=
  let p := if p_dtlb w then retry_mem Dtlb p else p in
  let p := if p_itlb w then retry_mem Itlb p else p in
  if p_walk w then retry_walk p else p.
(** comb_finish :249-254 *)
Definition comb_finish (g : option (owner * Z)) (e : option event) (w : three) (p : ptw) : ptw :=
  apply_wakeups w (apply_event e (apply_grant g p)).
(** seq :261-266, flush_walk_client_state :1176-1193 *)
Definition flush_client (c : client) (p : ptw) : ptw :=
  let s := pw_c p c in
  let p := set_c c (mkwc false false (c_req s) None) p in
  if pw_act p && client_eqb (pw_own p) c
  then mkpw (pw_m p) (pw_c p) WIdle false (pw_own p) (pw_rr p) 0
            (match pw_st p with L1Wait | L2Wait => w32 (pw_drop p + 1) | _ => pw_drop p end) None
  else p.
Definition pseq (f : client -> bool) (p : ptw) : ptw :=
  let p := if f Dtlb then flush_client Dtlb p else p in
  if f Itlb then flush_client Itlb p else p.

(** ** MemSubSystem/PtwWalker.cpp: the private walker a TLB uses when it has no port
    to the shared one (TlbMmu.cpp:1213-1232; not the case in the simulator).  [k_va],
    [k_satp], [k_l1], [k_pte], [k_lev] are its registers. *)
Inductive kstate := KIdle | KL1Req | KL1Resp | KL2Req | KL2Resp | KDone | KFault.
Record fsm := mkk { k_st : kstate; k_va : Z; k_satp : Z; k_l1 : Z; k_pte : Z; k_lev : Z }.
(** flush :8-15 *)
Definition kflush : fsm := mkk KIdle 0 0 0 0 0.
(** start :17-28 *)
Definition kstart (va satp : Z) (k : fsm) : option fsm :=
  match k_st k with KIdle => Some (mkk KL1Req va satp 0 0 0) | _ => None end.
(** The port: the answer shown, whether a read is accepted. *)
Record kport := mkkp { kp_resp : option Z; kp_ready : bool }.
(** tick :30-112: the new state, the read accepted, whether the answer was taken *)
Definition ktick (i : kport) (k : fsm) : fsm * option Z * bool :=
  let go s := mkk s (k_va k) (k_satp k) (k_l1 k) (k_pte k) (k_lev k) in
  let done p l := mkk KDone (k_va k) (k_satp k) (k_l1 k) p l in
  let q := mkwq (k_va k) (k_satp k) 0 in
  match k_st k with
  | KL1Req => if kp_ready i then (go KL1Resp, Some (l1_addr q), false) else (k, None, false)
  | KL1Resp =>
      match kp_resp i with
      | None => (k, None, false)
      | Some pte =>
          let v := Z.testbit pte 0 in let r := Z.testbit pte 1 in let w := Z.testbit pte 2 in let x := Z.testbit pte 3 in
          (if negb v || (negb r && w) then go KFault
           else if r || x then (if nz (Z.land (Z.shiftr pte 10) 1023) then go KFault else done pte 1)
           else mkk KL2Req (k_va k) (k_satp k) pte (k_pte k) (k_lev k), None, true)
      end
  | KL2Req => if kp_ready i then (go KL2Resp, Some (l2_addr (k_l1 k) q), false) else (k, None, false)
  | KL2Resp =>
      match kp_resp i with
      | None => (k, None, false)
      | Some pte =>
          let v := Z.testbit pte 0 in let r := Z.testbit pte 1 in let w := Z.testbit pte 2 in let x := Z.testbit pte 3 in
          (if negb v || (negb r && w) then go KFault else if negb (r || x) then go KFault else done pte 0, None, true)
      end
  | _ => (k, None, false)
  end.
