(** Specification side of C42: an execution port together with its wakeup
    channels. *)
From Verif Require Import Base ExuModel ExuSpec WakeModel.
Local Open Scope nat_scope.

(** The port receives what the issue stage issues to it. *)
Inductive jreach (fs0 : list fu) (ts0 : list trk) : nat -> list fu -> list trk -> hist -> Prop :=
| jreach_init : jreach fs0 ts0 1 fs0 ts0 (Hist (map (fun _ => []) fs0) [] [] [])
| jreach_step now fs ts h c iss : jreach fs0 ts0 now fs ts h -> c_now c = now -> env_ok c iss fs h -> no_zombie c fs h ->
    jreach fs0 ts0 (S now) (port_step c iss fs) (map (trk_next c iss) ts)
      (h_step c iss (option_map e_id (winner c fs)) fs h).

(** The wakeup state fits the unit: same operation, same latency. *)
Definition fits (f : fu) (t : trk) : Prop :=
  (forall op, f_ops f op = (op =? k_op t)) /\
  match f_kind f, k_st t with
  | KSingle, TNone => forall fn, isu_lat (k_op t) fn <= 1
  | KFixed L, TPipe st => 2 <= L /\ st = repeat None (L - 1) /\ forall fn, isu_lat (k_op t) fn = L
  | KIter lat, TIter o => o = None /\ forall fn, isu_lat (k_op t) fn = lat fn /\ 2 <= lat fn
  | _, _ => False
  end.
(** An operation in flight with its destination that must be announced in
    cycle [now]: its result is on the bypass network one cycle later. *)
Definition announces (f : fu) (l : list item) (now p : nat) : Prop :=
  exists x, In x l /\ dest (x_u x) = Some p /\ due_at (f_kind f) x = now + 1.
