(** Delayed and fast wakeups of the issue stage, seen by one execution port:
    back-end/Isu.cpp comb_calc_latency_next (l.204-325), comb_awake
    (l.334-452), comb_flush (l.461-535) and get_latency (l.111-137).
    Simplifications: the load wake channels (0-1) are copied from the register
    file stage and are not here; each port has one delayed and one fast channel
    (l.352-363).  With the configured ports, port 0 carries the MUL shift
    register and port 1 the DIV and FP countdown slots. *)
From Verif Require Import Base ExuModel.
Local Open Scope nat_scope.

(** MulWakeEntry / IterWakeEntry, Isu.h:22-34 (the valid bit is [option]). *)
Record went := Went { g_preg : nat; g_mask : Z }.
Inductive tst :=
| TNone                              (* ALU, CSR: no delayed entry *)
| TPipe (st : list (option went))    (* mul_wake_pipe, stage 0 first *)
| TIter (o : option (nat * went)).   (* div/fp_wake_slots: countdown, entry *)
Record trk := Trk { k_op : nat; k_st : tst }.

(** get_latency, l.111-137; operation codes as in ExuModel. *)
Definition isu_lat (op : nat) (fn : Z) : nat :=
  match op with
  | 1 => 2
  | 2 => 18
  | 4 => let f := Z.shiftr fn 2 in
         if ((f =? 0) || (f =? 1))%Z then 5 else if (f =? 2)%Z then 3 else if (f =? 3)%Z then 10
         else if (fn =? 0x2C)%Z then 10 else if ((fn =? 0x60) || (fn =? 0x68))%Z then 3 else 5
  | _ => 1
  end.

(** dest_en / dest_preg of an issued operation: the payload, negative when it
    has no destination. *)
Definition dest (u : einst) : option nat := if (e_pay u <? 0)%Z then None else Some (Z.to_nat (e_pay u)).
Definition new_ent (u : einst) : option went := option_map (fun p => Went p (e_mask u)) (dest u).

(** comb_calc_latency_next *)
Definition calc (iss : option einst) (t : trk) : tst :=
  let new := match iss with
             | Some u => if (e_op u =? k_op t) && (1 <? isu_lat (e_op u) (e_fn u))
                         then option_map (fun e => (isu_lat (e_op u) (e_fn u), e)) (new_ent u) else None
             | None => None end in
  match k_st t with
  | TNone => TNone
  | TPipe st => TPipe (option_map snd new :: removelast st)
  | TIter o =>
      let nxt := match o with Some (S n, e) => Some (n, e) | _ => None end in
      TIter (match nxt, new with
             | None, Some (lat, e) => Some (lat - 1, e)
             | _, _ => nxt                        (* Assert(ok) otherwise *)
             end)
  end.
(** comb_flush, on the next state *)
Definition sweep (c : ctl) (e : went) : option went :=
  if c_flush c then None
  else if c_mispred c && nz (Z.land (g_mask e) (c_brmask c)) then None
  else Some (Went (g_preg e) (Z.ldiff (g_mask e) (c_clear c))).
Definition obind {A B} (o : option A) (f : A -> option B) : option B := match o with Some a => f a | None => None end.
Definition tflush (c : ctl) (s : tst) : tst :=
  match s with
  | TNone => TNone
  | TPipe st => TPipe (map (fun o => obind o (sweep c)) st)
  | TIter o => TIter (obind o (fun ne => option_map (pair (fst ne)) (sweep c (snd ne))))
  end.
Definition trk_next (c : ctl) (iss : option einst) (t : trk) : trk := Trk (k_op t) (tflush c (calc iss t)).

(** comb_awake l.385-429: what an entry announces, and the port's delayed
    channel: DIV is written before FP, later writes win. *)
Definition fires (t : trk) : option nat :=
  match k_st t with
  | TPipe st => option_map g_preg (last st None)
  | TIter (Some (0, e)) => Some (g_preg e)
  | _ => None
  end.
Definition delayed (ts : list trk) : option nat :=
  fold_left (fun acc t => match fires t with Some p => Some p | None => acc end) ts None.
(** l.432-446: single-cycle operations are announced as they issue. *)
Definition fast (iss : option einst) : option nat :=
  match iss with
  | Some u => if isu_lat (e_op u) (e_fn u) <=? 1 then dest u else None
  | None => None end.

Definition wake0 : list trk := [Trk 1 (TPipe [None]); Trk 0 TNone; Trk 3 TNone].
Definition wake1 : list trk := [Trk 2 (TIter None); Trk 0 TNone; Trk 4 (TIter None)].
