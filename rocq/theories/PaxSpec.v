(** What the MMIO bridge should do: serve requests one at a time, in order. *)
From Verif Require Import Base MemModel MemSpec PeriphModel LsuModel PaxModel.
Local Open Scope Z_scope.

(** The low bytes of a bus word as a load of kind [f3] reads them. *)
Definition loaded (f3 raw : Z) : Z := extend f3 (raw mod 2 ^ (8 * size f3)).
(** The bus transaction of a request: [size] bytes at its address. *)
Definition transaction (q : mmioreq) : axout :=
  let n := size (q_mf3 q) in
  if q_wen q then AWrite (q_maddr q) (n - 1) (2 ^ n - 1) (q_mdata q mod 2 ^ (8 * n)) else ARead (q_maddr q) (n - 1).
(** A request taken, with the value the built-in devices hold at that moment. *)
Definition taken := (mmioreq * Z)%type.
Definition bused (x : taken) : bool := negb (is_modeled_mmio (q_maddr (fst x))).
Definition transactions (ops : list taken) : list axout := map (fun x => transaction (fst x)) (filter bused ops).
(** The answers to [ops] when the bus reads return [raws] in this order. *)
Fixpoint serve (ops : list taken) (raws : list Z) : list Z :=
  match ops with
  | [] => []
  | (q, v) :: t =>
    if q_wen q then 0 :: serve t raws else
    if is_modeled_mmio (q_maddr q) then v :: serve t raws else
    match raws with [] => [] | r :: raws => loaded (q_mf3 q) r :: serve t raws end
  end.

(** Histories of the bridge at its pins. *)
Record hist := Hi { h_ops : list taken; h_txs : list axout; h_raws : list Z; h_ans : list Z }.
Definition hist0 : hist := Hi [] [] [] [].
Record pin := PI { pi_dev : periph; pi_t : Z; pi_req : option mmioreq; pi_tag : nat; pi_ax : axin }.
Definition opt {A} (b : bool) (x : A) : list A := if b then [x] else [].
Definition h_step (s : pax) (i : pin) (h : hist) : hist :=
  let a := pi_ax i in
  Hi (h_ops h ++ match pi_req i with Some q => opt (pr_ready (pax_resp s)) (q, read_load (pi_dev i) (pi_t i) (q_maddr q) (q_mf3 q)) | None => [] end)
     (h_txs h ++ opt (ax_accepted s a) (pax_out s))
     (h_raws h ++ match pax_out s with ARWait => opt (a_rrv a) (a_rdata a) | _ => [] end)
     (h_ans h ++ match pr_ans (pax_resp s) with Some d => [d] | None => [] end).
Definition p_step (s : pax) (i : pin) : pax := fst (fst (pax_cycle (pi_dev i) (pi_t i) (pi_req i) (pi_tag i) (pi_ax i) s)).
(** Requests are words with the access kinds of loads and stores. *)
Definition req_ok (q : mmioreq) : Prop := is_w 32 (q_maddr q) /\ is_w 32 (q_mdata q) /\ if q_wen q then store_f3 (q_mf3 q) else load_f3 (q_mf3 q).
Definition pin_ok (i : pin) : Prop := is_w 32 (a_rdata (pi_ax i)) /\ forall q, pi_req i = Some q -> req_ok q.
Inductive preach : pax -> hist -> Prop :=
| pr0 : preach pax0 hist0
| prS s h i : preach s h -> pin_ok i -> preach (p_step s i) (h_step s i h).

(** *** The bridge behind the load/store unit *)
Definition unit_of (s : csys) : uncu := un (c_l s).
(** An operation the theorem about own answers covers: a store, or a load of an
    address with a built-in device. *)
Definition covered (u : uncu) : Prop := u_ld u = true -> is_modeled_mmio (u_addr u) = true.
(** What the rest of the core guarantees in a cycle.
    - a unit freed or squashed in a cycle is not filled again in that cycle;
    - a store waiting in the unit is not squashed (it is committed). *)
Definition calm (s s' : csys) (i : cin) : Prop :=
  u_v (unit_of s) = true -> took s = true \/ i_flush (ci_lsu i) = true \/ i_mispred (ci_lsu i) = true ->
  u_v (unit_of s') = false \/ took s = false /\ unit_of s' = unit_of s.
Definition stays (s s' : csys) : Prop :=
  u_v (unit_of s) = true -> u_ld (unit_of s) = false -> took s = false -> u_v (unit_of s') = true.
Inductive creach (P : uncu -> Prop) : csys -> Prop :=
| cr0 : creach P csys0
| crS s i : creach P s -> calm s (fst (c_step s i)) i -> stays s (fst (c_step s i)) ->
    (u_v (unit_of (fst (c_step s i))) = true -> P (unit_of (fst (c_step s i)))) -> creach P (fst (c_step s i)).
