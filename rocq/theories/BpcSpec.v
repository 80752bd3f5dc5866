(** Specification vocabulary for C67: executions of the composite. *)
From Verif Require Import Base FrontModel BpModel BpSpec TyModel TySpec BtbModel BtbSpec BpcModel.
Local Open Scope nat_scope.

Definition cin_ok (y : cinp) : Prop :=
  word (ci_addr y) /\ forall i u, ci_upd y i = Some u -> word (u_pc u) /\ word (u_target u) /\ (0 <= u_type u <= 5)%Z.
Inductive creach : trace -> cst -> Prop :=
| cr_init : creach [] cst0
| cr_step : forall t s y s' o, creach t s -> cin_ok y -> ccycle s y = Some (s', o) -> creach ((bound_in s y, o) :: t) s'.

(** The commits, cycle by cycle, newest first *)
Definition commit_cycles (t : trace) : yhist := map (fun c => map (fun u => (u_pc u, u_type u)) (commits (fst c))) t.
(** Control transfers that were taken *)
Definition taken (u : upd) : Prop := u_dir u = true /\ u_type u <> BR_NONCTL.
(** [u] shares the target entry of the instruction at [pc] *)
Definition at_place (u : upd) (pc : Z) : Prop := bank_of (u_pc u) = bank_of pc /\ same_place (u_pc u / 4) (pc / 4) = true.
(** The target of the latest taken transfer at the place of [pc], in program order *)
Definition last_taken (us : list upd) (pc : Z) (a : Z) : Prop :=
  exists l u r, us = l ++ u :: r /\ taken u /\ at_place u pc /\ u_target u = a /\ forall v, In v r -> taken v -> ~ at_place v pc.
