(** MemSubSystem/MemRouteBlock.cpp: how the instruction cache's probes and the page
    table reads share load port 1 of the data cache with the load/store unit.
    Left out: the performance counter and the debug dump.  Owner::LSU never occurs. *)
From Verif Require Import Base DcModel.

(** MemRouteBlock.h:14-25 dcache_req_id_is_route, next_route_req_id *)
Definition ROUTE_ID : Z := 2 ^ 31.
Definition is_route (id : Z) : bool := Z.testbit id 31.
Definition next_route_req_id (id : Z) : Z :=
  let next := w32 (id + 1) in if is_route next then next else ROUTE_ID.

Inductive owner := ONone | OIcache | ODtlb | OItlb | OWalk.
Definition owner_eqb (a b : owner) : bool :=
  match a, b with
  | ONone, ONone | OIcache, OIcache | ODtlb, ODtlb | OItlb, OItlb | OWalk, OWalk => true
  | _, _ => false
  end.
(** ReplayWakeup *)
Record three := mk3 { p_dtlb : bool; p_itlb : bool; p_walk : bool }.
Definition none3 : three := mk3 false false false.
Definition only (o : owner) : three := mk3 (owner_eqb o ODtlb) (owner_eqb o OItlb) (owner_eqb o OWalk).
Definition or3 (a b : three) : three := mk3 (p_dtlb a || p_dtlb b) (p_itlb a || p_itlb b) (p_walk a || p_walk b).

(** MemRouteBlockState, MemRouteBlock.h:88-97; [t_rep] is lsu_replay_valid with its id *)
Record rst := mkrt { t_owner : owner; t_addr : Z; t_id : Z; t_wait : three; t_rep : option Z; t_next : Z }.
(** init(), MemRouteBlock.cpp:13-19 *)
Definition rst0 : rst := mkrt ONone 0 0 none3 None ROUTE_ID.

(** PtwEvent; [replay] is always 0 *)
Record event := mkevt { v_owner : owner; v_data : Z; v_addr : Z; v_id : Z }.
Record rout := mkro {
  ro_l0 : option loadresp; ro_l1 : option loadresp;   (* lsu_resp: load ports *)
  ro_ic : option (option Z);                          (* icache_resp: Some None is a miss *)
  ro_ev : option event; ro_wake : three }.

(** MemRouteBlock.cpp:26-31: answers to routed requests are hidden from the LSU *)
Definition hide (r : option loadresp) : option loadresp :=
  match r with Some p => if is_route (lp_id p) then None else r | None => None end.
(** comb_response, MemRouteBlock.cpp:20-85: the outputs and the new [ptw_wait].
    [d] is the published data-cache answer. *)
Definition comb_response (d : latch) (s : rst) : rout * three :=
  let fill := match la_fill d with Some _ => true | None => false end in
  let mine := match la_ld1 d with
              | Some p => if negb (owner_eqb (t_owner s) ONone) && (lp_id p =? t_id s) then Some p else None
              | None => None
              end in
  let l0 := hide (la_ld0 d) in
  match mine with
  | None =>
      let wait := t_wait s in
      (mkro l0 (hide (la_ld1 d)) None None (if fill then wait else none3), if fill then none3 else wait)
  | Some p =>
      let l1 := match t_rep s with Some id => Some (mklp 0 CONFLICT id) | None => None end in
      let o := t_owner s in
      let ic := owner_eqb o OIcache in
      match lp_replay p with
      | HIT =>
          (mkro l0 l1 (if ic then Some (Some (lp_data p)) else None)
                (if ic then None else Some (mkevt o (lp_data p) (t_addr s) (t_id s)))
                (if fill then t_wait s else none3), if fill then none3 else t_wait s)
      | CONFLICT =>
          (mkro l0 l1 (if ic then Some None else None) None
                (or3 (only o) (if fill then t_wait s else none3)), if fill then none3 else t_wait s)
      | _ =>
          let wait := if fill then t_wait s else only o in
          (mkro l0 l1 (if ic then Some None else None) None
                (if fill then or3 (only o) wait else none3), if fill then none3 else wait)
      end
  end.

(** What the block receives for comb_request: the LSU's request ports, the
    instruction cache's probe, and the three page-table requests (an address each). *)
Record rreq := mkrr { rr_lsu : request; rr_ic : option Z; rr_walk : option Z; rr_dtlb : option Z; rr_itlb : option Z }.
(** MemRouteBlock.cpp:96-111 *)
Definition choose (i : rreq) (cur : owner) : owner * Z :=
  let may o := negb (owner_eqb cur o) in
  match (if may OIcache then rr_ic i else None) with Some a => (OIcache, a) | None =>
  match (if may OWalk then rr_walk i else None) with Some a => (OWalk, a) | None =>
  match (if may ODtlb then rr_dtlb i else None) with Some a => (ODtlb, a) | None =>
  match (if may OItlb then rr_itlb i else None) with Some a => (OItlb, a) | None => (ONone, 0)
  end end end end.
(** comb_request, MemRouteBlock.cpp:87-138: the request to the data cache, the
    grant (owner, id), and the next registers; [wait] is the result of comb_response *)
Definition comb_request (i : rreq) (wait : three) (s : rst) : request * option (owner * Z) * rst :=
  let '(o, a) := choose i (t_owner s) in
  let q := rr_lsu i in
  if owner_eqb o ONone
  then (mkrq (rq_ld0 q) (rq_ld1 q) (rq_st0 q) (rq_st1 q) 2, None,
        mkrt ONone 0 (t_next s) wait (t_rep s) (t_next s))
  else (mkrq (rq_ld0 q) (Some (mklr a (t_next s))) (rq_st0 q) (rq_st1 q) (if owner_eqb o OIcache then 1 else 2)%nat,
        (if owner_eqb o OIcache then None else Some (o, t_next s)),
        mkrt o a (t_next s) wait (match rq_ld1 q with Some l => Some (lq_id l) | None => None end)
             (next_route_req_id (t_next s))).
