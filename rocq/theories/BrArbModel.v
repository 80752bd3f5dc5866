(** Branch misprediction arbitration: back-end/Exu/Exu.cpp:17-22,561-602. *)
From Verif Require Import Base.
Local Open Scope Z_scope.

(** The fields of a branch result read here (br_res[i].uop). *)
Record brres := BrRes { r_idx : Z; r_flag : bool; r_brid : Z; r_mispred : bool; r_target : Z; r_ftq : Z }.
(** cmp_inst_age, l.17-22 *)
Definition cmp_age (a b : brres) : bool :=
  if Bool.eqb (r_flag a) (r_flag b) then r_idx b <? r_idx a else r_idx a <? r_idx b.
(** Loop body, l.567-582: [valid] is option; BR_MASK_WIDTH = 16. *)
Definition arb1 (acc : option brres * Z) (o : option brres) : option brres * Z :=
  match o with
  | None => acc
  | Some r =>
      (if r_mispred r then match fst acc with
                           | None => Some r
                           | Some w => if cmp_age w r then Some r else Some w
                           end
       else fst acc,
       Z.lor (snd acc) (Z.shiftl 1 (r_brid r) mod 2 ^ 16))
  end.
Definition arb (l : list (option brres)) : option brres * Z := fold_left arb1 l (None, 0).
(** exu2id, l.584-599 *)
Record exu2id := Exu2Id { x_clear : Z; x_mispred : bool; x_pc : Z; x_rob : Z; x_brid : Z; x_ftq : Z }.
Definition arbitrate (l : list (option brres)) : exu2id :=
  let '(w, m) := arb l in
  match w with
  | Some r => Exu2Id m true (r_target r) (r_idx r) (r_brid r) (r_ftq r)
  | None => Exu2Id m false 0 0 0 0
  end.
