(** Renaming and the physical register file together: RenModel and PrfModel in one
    cycle, with the instructions between them.  An instruction that left Ren reads its
    operands through Prf::comb_read once (the bypass network included), is executed by
    some unit and written back through exe2prf; the ROB retires a prefix.
    What the issue queues, units and the ROB do is the input of a cycle, restricted by
    [OooSpec.cycle_ok].  The work of an instruction is a function of its two operands:
    immediates, the program counter and loaded data are part of the function. *)
From Verif Require Import Base RenModel RenSpec PrfModel.
Local Open Scope nat_scope.

Record work := Work { w_en1 : bool; w_en2 : bool; w_fun : Z -> Z -> Z }.
(** An instruction in flight: [x_ops] the operands it has read, [x_wb]: its result has
    been handed to the register file. *)
Record fly := Fly { x_g : gentry; x_w : work; x_ops : option (Z * Z); x_wb : bool }.
(** [k_log]: ghost, the instructions retired, oldest first. *)
Record core := Core { k_ren : ren; k_prf : prf; k_fly : list fly; k_log : list fly }.
(** One cycle: the inputs of both modules; how many instructions retire; the tags
    resolved; the work of the instructions leaving Ren; which instructions (by place)
    read their operands, and whose results arrive. *)
Record cyc := Cyc { y_ren : ren_in; y_prf : prf_in; y_done : nat; y_clear : nat -> bool; y_new : list work; y_read : nat -> bool; y_wb : nat -> bool }.

(** Prf::comb_read of both operands, src1_en and src2_en as decoded *)
Definition reads (r : prf) (i : prf_in) (x : fly) : Z * Z :=
  (operand r i (w_en1 (x_w x)) (snd (g_src1 (x_g x))), operand r i (w_en2 (x_w x)) (snd (g_src2 (x_g x)))).
Definition mark (r : prf) (y : cyc) (k : nat) (x : fly) : fly :=
  Fly (x_g x) (x_w x) (if y_read y k then Some (reads r (y_prf y) x) else x_ops x) (x_wb x || y_wb y k).
Fixpoint marks (r : prf) (y : cyc) (k : nat) (l : list fly) : list fly :=
  match l with [] => [] | x :: l => mark r y k x :: marks r y (S k) l end.
Definition untagx (c : nat -> bool) (x : fly) : fly := Fly (untag c (x_g x)) (x_w x) (x_ops x) (x_wb x).
Definition fresh (p : gentry * work) : fly := Fly (fst p) (snd p) None false.

Definition core_step (c : core) (y : cyc) : core :=
  let l := marks (k_prf c) y 0 (k_fly c) in
  Core (ren_step (k_ren c) (y_ren y)) (prf_step (k_prf c) (y_prf y))
    (if i_flush (y_ren y) then []
     else match i_mispred (y_ren y) with
     | Some t => map (untagx (fun u => y_clear y u || (u =? t))) (firstn (length (upto_tag t (map x_g l))) l)
     | None => map (untagx (y_clear y)) (skipn (y_done y) l) ++ map fresh (combine (leaving (k_ren c) (y_ren y)) (y_new y))
     end)
    (k_log c ++ firstn (y_done y) (k_fly c)).
Definition core_init (n : nat) : core := Core ren_init (prf_init n) [] [].

(** SimCpu::difftest_prepare, rv_simu_mmu_v2.cpp:786-791, called by Ren::comb_fire after each
    retirement (Ren.cpp:314-320): reg_file_1[arch_RAT_1[r]] once [k] instructions of the
    cycle's commit group have been recorded.  Prf::comb_write has run (BackTop.cpp:286). *)
Definition checked_gpr (c : core) (y : cyc) (k r : nat) : Z :=
  let st := k_ren c in
  regs (prf_step (k_prf c) (y_prf y))
    (ca_arch (fold_left (commit_one (i_interrupt (y_ren y))) (firstn k (committing (y_ren y)))
       (ComAcc (arch_rat st) (free_list st) (free_tail st) (free_head_commit st))) r).
(** BackTop::get_reg, BackTop.h:173-175, as called by main.cpp:496 (after seq()). *)
Definition get_reg (c : core) (r : nat) : Z := regs (k_prf c) (arch_rat (k_ren c) r).
