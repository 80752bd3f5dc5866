(** Specification side of C06: instructions in flight, oldest first. *)
From Verif Require Import Base IduModel.
Local Open Scope nat_scope.

(** An instruction that left decode and has neither committed nor been squashed:
    its br_mask as the downstream queues keep it (they remove every bit of a
    broadcast clear_mask), and its tag while it is an unresolved branch. *)
Record ginst := GInst { g_mask : Z; g_tag : option nat }.

Definition tags (l : list ginst) : list nat :=
  flat_map (fun e => match g_tag e with Some t => [t] | None => [] end) l.

(** Keep everything up to and including the unresolved branch with tag [t]. *)
Fixpoint upto_tag (t : nat) (l : list ginst) : list ginst :=
  match l with
  | [] => []
  | e :: l' => if match g_tag e with Some u => u =? t | None => false end then [e] else e :: upto_tag t l'
  end.
(** Effect of broadcasting [clear]. *)
Definition resolve (clear : Z) (e : ginst) : ginst :=
  GInst (Z.ldiff (g_mask e) clear)
        (match g_tag e with Some t => if Z.testbit clear (Z.of_nat t) then None else Some t | None => None end).

(** One cycle: the latched resolution is broadcast, [k] finished instructions
    commit, and what decode fires is appended. *)
Definition g_step (g : list ginst) (st : idu) (i : idu_in) (k : nat) : list ginst :=
  if i_flush i then []
  else
    let b := br_latch st in
    let g1 := map (resolve (l_clear b)) (if l_mispred b then upto_tag (l_id b) g else g) in
    skipn k g1 ++ map (fun p => GInst (snd p) (fst p)) (fired st i).

(** What the execution stage may report: resolutions of branches still in
    flight; a mispredicted branch is among the resolved ones. *)
Definition latch_ok (l : latch) (g : list ginst) : Prop :=
  (0 <= l_clear l)%Z /\
  (forall t, Z.testbit (l_clear l) (Z.of_nat t) = true -> In t (tags g)) /\
  (l_mispred l = true -> Z.testbit (l_clear l) (Z.of_nat (l_id l)) = true).
(** Only instructions that are not unresolved branches commit. *)
Definition commit_ok (g : list ginst) (st : idu) (k : nat) : Prop :=
  tags (firstn k (map (resolve (l_clear (br_latch st)))
    (if l_mispred (br_latch st) then upto_tag (l_id (br_latch st)) g else g))) = [].

Inductive reach : idu -> list ginst -> Prop :=
| reach_init : reach idu_init []
| reach_step st g i k :
    reach st g -> commit_ok g st k ->
    (i_flush i = false -> latch_ok (i_exu i) (g_step g st i k)) ->
    reach (idu_step st i) (g_step g st i k).
