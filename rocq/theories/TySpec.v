(** Specification vocabulary for C65. *)
From Verif Require Import Base BpModel TyModel.
Local Open Scope Z_scope.

(** The updates so far, newest cycle first; within a cycle in slot order. *)
Definition yhist : Type := list (list (Z * Z)).
Inductive yreach : yhist -> ttab -> Prop :=
| yr_init : yreach [] ttab0
| yr_step : forall h t us, yreach h t -> yreach (us :: h) (ty_cycle t us).

(** Instructions told apart: those less than 2 MiB apart. *)
Definition same_key (a b : Z) : Prop := (a / 4) mod 2 ^ 19 = (b / 4) mod 2 ^ 19.
(** Instructions that share the two places of a set. *)
Definition same_set (a b : Z) : Prop := (a / 4) mod 2 ^ 7 = (b / 4) mod 2 ^ 7.

(** [us] updates [pc]'s key to [ty], not followed by another type. *)
Definition settles (us : list (Z * Z)) (pc ty : Z) : Prop :=
  exists a p b, us = a ++ (p, ty) :: b /\ same_key p pc /\
    forall q y, In (q, y) b -> same_key q pc -> y = BR_NONCTL.
Definition untouched (us : list (Z * Z)) (pc : Z) : Prop := forall q y, In (q, y) us -> ~ same_key q pc.

(** What was last said about an instruction; the answer of an ideal predictor. *)
Fixpoint last_said (h : yhist) (pc : Z) : Z :=
  match h with
  | [] => BR_NONCTL
  | us :: h => fold_left (fun acc u => if (fst u / 4) mod 2 ^ 19 =? (pc / 4) mod 2 ^ 19 then snd u else acc) us (last_said h pc)
  end.
(** No two updates of the set of [pc] in one cycle *)
Definition one_at_a_time (h : yhist) (pc : Z) : Prop := forall us, In us h ->
  forall a u b v c, us = a ++ u :: b ++ v :: c -> same_set (fst u) pc -> same_set (fst v) pc -> False.
(** The cycles that said something about [pc] *)
Definition about (h : yhist) (pc : Z) : yhist :=
  filter (existsb (fun u => (fst u / 4) mod 2 ^ 19 =? (pc / 4) mod 2 ^ 19)) h.
