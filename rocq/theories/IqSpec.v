(** Specification side of C09/C10: micro-operations waiting in one queue. *)
From Verif Require Import Base IqModel.
Local Open Scope nat_scope.

(** A waiting micro-operation: as dispatched, the registers announced ready
    while it was waiting (including in its dispatch cycle), and the branches
    resolved since. *)
Record waiting := Waiting { w_uop : uop; w_ann : list nat; w_res : list Z }.
Definition announced (w : waiting) (p : nat) : bool := existsb (Nat.eqb p) (w_ann w).
(** A source is available: it was at dispatch, or it was announced since. *)
Definition s1_avail (w : waiting) : bool := negb (u_s1en (w_uop w)) || negb (u_s1busy (w_uop w)) || announced w (u_s1 (w_uop w)).
Definition s2_avail (w : waiting) : bool := negb (u_s2en (w_uop w)) || negb (u_s2busy (w_uop w)) || announced w (u_s2 (w_uop w)).
Definition w_mask (w : waiting) : Z := fold_left Z.ldiff (w_res w) (u_mask (w_uop w)).

(** The stored entry for it: only availability and branch mask differ from
    what was dispatched. *)
Definition stored_as (w : waiting) (u : uop) : Prop :=
  u_id u = u_id (w_uop w) /\ u_op u = u_op (w_uop w) /\ u_pay u = u_pay (w_uop w) /\
  u_s1en u = u_s1en (w_uop w) /\ u_s1 u = u_s1 (w_uop w) /\
  u_s2en u = u_s2en (w_uop w) /\ u_s2 u = u_s2 (w_uop w) /\
  (u_s1en u && u_s1busy u = negb (s1_avail w)) /\
  (u_s2en u && u_s2busy u = negb (s2_avail w)) /\
  u_mask u = w_mask w.

Record hist := Hist {
  ever : list nat;            (* ids dispatched to this queue so far *)
  queue : list waiting;
  issued : list nat;          (* ids issued so far *)
  squashed : list nat         (* ids squashed so far *)
}.
Definition wid (w : waiting) : nat := u_id (w_uop w).
Definition ids (q : list waiting) : list nat := map wid q.

(** Entries a mispredict or flush removes. *)
Definition killed (i : iq_in) (w : waiting) : bool :=
  i_flush_all i || (i_flush_br i && negb (Z.land (w_mask w) (i_br_mask i) =? 0)%Z).
Definition gone (l : list nat) (w : waiting) : bool := existsb (Nat.eqb (wid w)) l.

(** One cycle, given the ids that were issued: remove them, hear the wakeups,
    add the dispatched ones (which hear them too), squash, resolve. *)
Definition h_step (h : hist) (i : iq_in) (out : list nat) : hist :=
  let q1 := filter (fun w => negb (gone out w)) (queue h) in
  let q2 := map (fun w => Waiting (w_uop w) (w_ann w ++ i_wake i) (w_res w)) q1 ++
            map (fun u => Waiting u (i_wake i) []) (i_enq i) in
  Hist (ever h ++ map u_id (i_enq i))
       (map (fun w => Waiting (w_uop w) (w_ann w) (w_res w ++ [i_clear i])) (filter (fun w => negb (killed i w)) q2))
       (issued h ++ out)
       (squashed h ++ ids (filter (killed i) q2)).

(** Dispatch enters no more than the free slots reported, each instruction
    once, with register numbers that exist. *)
Record env_ok (c : cfg) (st : iq) (h : hist) (i : iq_in) : Prop := EnvOk {
  env_room : length (i_enq i) <= free_slots c st;
  env_fresh : NoDup (map u_id (i_enq i)) /\ (forall x, In x (map u_id (i_enq i)) -> ~ In x (ever h));
  env_pregs : Forall (fun u => u_s1 u < 64 /\ u_s2 u < 64) (i_enq i)
}.

Inductive reach (c : cfg) : iq -> hist -> Prop :=
| reach_init : reach c iq_init (Hist [] [] [] [])
| reach_step st h i : reach c st h -> env_ok c st h i ->
    reach c (iq_step c st i) (h_step h i (map (fun pu => u_id (snd pu)) (grants c st i))).

(** The entries held. *)
Definition held (c : cfg) (st : iq) : list uop :=
  flat_map (fun k => match slots st k with Some u => [u] | None => [] end) (seq 0 (c_size c)).
