(** What the instruction cache must do, and what its surroundings promise. *)
From Verif Require Import Base IcModel.

(** The instruction cache and its surroundings.
    [y_pres]: read request presented on the AXI port in the last cycle (id, address);
    [y_late]: request presented the cycle before, met by [ready] and not yet accepted;
    [y_out]: accepted reads not yet answered, by id: address, and whether it was
    accepted since the observation began; [y_pb0], [y_pb1]: data-cache probes
    presented one and two cycles ago, with the same flag.
    [y_pend]: the fetch request being served; [y_seen]: physical pages its virtual
    page has been translated to since it was accepted. *)
Record sys := mksys {
  y_ic : ic; y_pres : option (nat * Z); y_late : option (nat * Z); y_out : nat -> option (Z * bool);
  y_pb0 : option (Z * bool); y_pb1 : option (Z * bool); y_pend : option Z; y_seen : list Z }.
Definition sys0 : sys := mksys ic0 None None (fun _ => None) None None None [].

Definition kill (c : cinp) : bool := c_refetch c || c_inval c || c_fencei c.
(** The fetch request being served in a cycle. *)
Definition serving (y : sys) (c : cinp) : option Z :=
  if kill c then None else if c_v c then Some (c_pc c) else y_pend y.
(** The physical pages seen for it. *)
Definition pages (y : sys) (c : cinp) : list Z :=
  let old := if c_v c then [] else y_seen y in
  match serving y c with
  | Some pc => match c_tr c (pc / 4096) with TOk p => p :: old | _ => old end
  | None => []
  end.
(** The address of the read offered to the interconnect under id [k]. *)
Definition offered (y : sys) (k : nat) : option Z :=
  match y_pres y with
  | Some (k', a) => if Nat.eqb k' k then Some a else
      match y_late y with Some (k', a) => if Nat.eqb k' k then Some a else None | None => None end
  | None => match y_late y with Some (k', a) => if Nat.eqb k' k then Some a else None | None => None end
  end.
Definition out_now (y : sys) (c : cinp) : nat -> option (Z * bool) :=
  match c_acc c with
  | Some k => fupd (y_out y) k (match offered y k with Some a => Some (a, true) | None => None end)
  | None => y_out y
  end.

(** The surroundings.  [P x d]: word [d] is a legitimate value of the memory word
    numbered [x]. *)
Record env_ok (strict : bool) (P : Z -> Z -> Prop) (y : sys) (c : cinp) (second : bool) : Prop := mkenv {
  (* the front end asks only when told the cache is ready, front_top.cpp:631,1390 *)
  en_v : c_v c = true -> c_refetch c = false /\ exists hold, glue_ready hold (y_ic y) = true;
  (* the second call happens only without redirect (front_top.cpp:1576-1580); fence.i comes with one *)
  en_second : second = true -> c_refetch c = false /\ c_fencei c = false;
  en_inval : c_inval c = false;
  en_tr : forall v p, c_tr c v = TOk p -> is_w 20 p;
  (* the interconnect accepts only what was presented *)
  en_acc : forall k, c_acc c = Some k -> offered y k <> None;
  (* and answers only what it accepted, with legitimate words *)
  en_rsp : forall k l, c_rsp c = Some (k, l) ->
           exists a f, out_now y c k = Some (a, f) /\ (f = true -> forall n, 0 <= n < 16 -> P (a / 4 + n) (l n));
  (* strict: never in the cycle of acceptance (rv_simu_mmu_v2.cpp restore_axi_cpu_boundary_state) *)
  en_sep : strict = true -> forall k l, c_rsp c = Some (k, l) -> c_acc c <> Some k;
  (* the data cache answers a probe two cycles after it was presented *)
  en_dc : forall d, c_dc c = Some d ->
          exists x f, y_pb1 y = Some (x, f) /\ (f = true -> forall w, d = Some w -> P (x / 4) w);
  en_dcl : strict = true -> y_pb1 y <> None -> c_dc c <> None }.

Definition step_sys (y : sys) (c : cinp) (second : bool) (s' : ic) (o1 o2 : mout) : sys :=
  mksys s' (o_mem o2)
        (if c_ready c then match c_acc c with None => y_pres y | Some _ => None end else None)
        (match c_rsp c with Some (k, _) => if o_rrdy o2 then fupd (out_now y c) k None else out_now y c | None => out_now y c end)
        (match o_probe o2 with Some x => Some (x, true) | None => None end) (y_pb0 y)
        (if second then None else match o_rsp o1 with Some _ => None | None => serving y c end)
        (pages y c).
Inductive step (strict : bool) (P : Z -> Z -> Prop) (y : sys) (c : cinp) (second : bool) : mout -> sys -> Prop :=
| step_intro : forall s' o1 o2, env_ok strict P y c second -> ic_cycle c second (y_ic y) = (s', o1, o2) ->
    step strict P y c second o1 (step_sys y c second s' o1 o2).
Inductive reach (strict : bool) (P : Z -> Z -> Prop) (y0 : sys) : sys -> Prop :=
| reach0 : reach strict P y0 y0
| reachS : forall y c b o y', reach strict P y0 y -> step strict P y c b o y' -> reach strict P y0 y'.

(** Start observing afresh: whatever is in flight is no longer vouched for. *)
Definition forget (f : option (Z * bool)) : option (Z * bool) :=
  match f with Some (a, _) => Some (a, false) | None => None end.
Definition unvouched (y : sys) : sys :=
  mksys (y_ic y) (y_pres y) (y_late y) (fun k => forget (y_out y k)) (forget (y_pb0 y)) (forget (y_pb1 y)) (y_pend y) (y_seen y).

(** A legitimate fetch answer for a request at [pc] whose page has been translated
    to the pages of [ps]; [tr] is the present translation. *)
Definition answer_ok (P : Z -> Z -> Prop) (pc : Z) (ps : list Z) (tr : trans) (rs : Z * bool * line) : Prop :=
  let '(pc', pf, l) := rs in
  pc' = pc /\
  (if pf then tr = TFault
   else exists p, In p ps /\ forall n, 0 <= n < 16 -> P (p * 1024 + (pc mod 4096) / 64 * 16 + n) (l n)).

(** The surroundings hold the request up. *)
Definition stalled (y : sys) (c : cinp) (pc : Z) : Prop :=
  c_tr c (pc / 4096) = TRetry \/
  (forall k, (k < 16)%nat -> y_out y k <> None) \/
  (y_pres y <> None /\ c_acc c = None) \/
  (exists k p, In p (pages y c) /\ y_out y k = Some (line_addr p pc, true) /\ forall l, c_rsp c <> Some (k, l)).
(** Cycles of one request, none of them answering it: how many, and in how many of
    them the surroundings hold it up. *)
Inductive waits (P : Z -> Z -> Prop) (y0 : sys) : nat -> nat -> sys -> Prop :=
| waits0 : waits P y0 0 0 y0
| waits_go : forall n s y c o y' pc, waits P y0 n s y -> step true P y c false o y' -> serving y c = Some pc ->
    o_rsp o = None -> ~ stalled y c pc -> waits P y0 (S n) s y'
| waits_stall : forall n s y c o y' pc, waits P y0 n s y -> step true P y c false o y' -> serving y c = Some pc ->
    o_rsp o = None -> stalled y c pc -> waits P y0 (S n) (S s) y'.
