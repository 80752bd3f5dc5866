(** The machine without renaming, and what the rest of the back end does in a cycle. *)
From Verif Require Import Base RenModel RenSpec PrfModel PrfProps OooModel.
Local Open Scope nat_scope.

(** One instruction at a time on the architectural registers. *)
Definition src1 (V : nat -> Z) (x : fly) : Z := if w_en1 (x_w x) then V (fst (g_src1 (x_g x))) else 0%Z.
Definition src2 (V : nat -> Z) (x : fly) : Z := if w_en2 (x_w x) then V (fst (g_src2 (x_g x))) else 0%Z.
Definition result (V : nat -> Z) (x : fly) : Z := w_fun (x_w x) (src1 V x) (src2 V x).
Definition seq1 (V : nat -> Z) (x : fly) : nat -> Z := if g_en (x_g x) then fupd V (g_dest (x_g x)) (result V x) else V.
Definition seq_run (V : nat -> Z) (l : list fly) : nat -> Z := fold_left seq1 l V.

(** A unit drives the result of [x] as [w]. *)
Definition result_of (x : fly) (w : wb) : Prop :=
  g_en (x_g x) = true /\ b_dest w = Some (g_preg (x_g x)) /\ exists v1 v2, x_ops x = Some (v1, v2) /\ b_val w = w_fun (x_w x) v1 v2.
(** Physical register [p] may be read: an instruction in flight that writes it has written
    back or is on the bypass network. *)
Definition readable (l : list fly) (i : prf_in) (p : nat) : Prop :=
  forall y, In y l -> g_en (x_g y) = true -> g_preg (x_g y) = p ->
    x_wb y = true \/ exists w, In (Some w) (p_bypass i) /\ b_dest w = Some p.

(** The rules of a cycle.
    [o_traffic] what Ren is sent (C04, C06, C16); the retired ones have written back (C04).
    [o_read] an instruction reads its enabled sources when they are readable (C09, C40, C42).
    [o_entry], [o_bypass] what is driven belongs to an instruction in flight and is computed from
    the operands it read (C44; C41 shows that a load to x0 breaks this for register 0, and C11
    that a flush leaves operations in the units).
    [o_mark] a result counts as arrived when it is not squashed in the register file. *)
Record cycle_with (drives : fly -> wb -> Prop) (c : core) (y : cyc) : Prop := {
  o_traffic : traffic_ok (k_ren c) (map x_g (k_fly c)) (y_ren y) (map x_g (firstn (y_done y) (k_fly c))) (y_clear y);
  o_done : forall x, In x (firstn (y_done y) (k_fly c)) -> g_en (x_g x) = true -> x_wb x = true;
  o_new : length (y_new y) = length (leaving (k_ren c) (y_ren y));
  o_srcs : forall e w, In (e, w) (combine (leaving (k_ren c) (y_ren y)) (y_new y)) ->
    (w_en1 w = true -> fst (g_src1 e) < RAT_NUM) /\ (w_en2 w = true -> fst (g_src2 e) < RAT_NUM);
  o_read : forall a x b, k_fly c = a ++ x :: b -> y_read y (length a) = true ->
    (w_en1 (x_w x) = true -> readable (k_fly c) (y_prf y) (snd (g_src1 (x_g x)))) /\
    (w_en2 (x_w x) = true -> readable (k_fly c) (y_prf y) (snd (g_src2 (x_g x))));
  o_entry : forall w, In (Some w) (p_entry (y_prf y)) -> survives (y_prf y) w -> b_dest w <> None -> exists x, In x (k_fly c) /\ drives x w;
  o_bypass : forall w, In (Some w) (p_bypass (y_prf y)) -> b_dest w <> None -> exists x, In x (k_fly c) /\ result_of x w;
  o_mark : forall a x b, k_fly c = a ++ x :: b -> y_wb y (length a) = true -> g_en (x_g x) = true ->
    exists w, In (Some w) (p_entry (y_prf y)) /\ survives (y_prf y) w /\ b_dest w = Some (g_preg (x_g x)) }.

Definition cycle_ok := cycle_with result_of.
(** [n]: the number of write-back ports. *)
Inductive runs_with (drives : fly -> wb -> Prop) (n : nat) : core -> Prop :=
| runs_init : runs_with drives n (core_init n)
| runs_step c y : runs_with drives n c -> cycle_with drives c y -> runs_with drives n (core_step c y).
Definition runs := runs_with result_of.
(** What the load unit really drives (RealLsu.cpp:996-1017): a load without a destination
    drives physical register 0. *)
Definition real_drives (x : fly) (w : wb) : Prop :=
  result_of x w \/ (g_en (x_g x) = false /\ b_dest w = Some 0 /\ b_load w = true).
Definition zero : nat -> Z := fun _ => 0%Z.
