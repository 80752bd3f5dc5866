(** The physical register file and its write-back latch: back-end/Prf.cpp.
    Not here: the FTQ program-counter ports (PreIduModel), the load wake-up
    channel limit is modelled in [wakes]. *)
From Verif Require Import Base.
Local Open Scope nat_scope.

(** ExePrfIO::ExePrfWbUop (IO.h): the fields the stage reads. *)
Record wb := Wb { b_dest : option nat;   (* dest_preg if dest_en *)
                  b_val : Z; b_mask : Z; b_load : bool }.
Record prf := Prf { regs : nat -> Z; latch : list (option wb) (* inst_r *) }.
Record prf_in := PrfIn {
  p_bypass : list (option wb);   (* exe2prf->bypass, by unit *)
  p_entry : list (option wb);    (* exe2prf->entry, by port *)
  p_flush : bool; p_mispred : bool; p_brmask : Z; p_clear : Z
}.
Definition writes (p : nat) (o : option wb) : bool :=
  match o with Some w => match b_dest w with Some q => q =? p | None => false end | None => false end.
Definition val_of (d : Z) (o : option wb) : Z := match o with Some w => b_val w | None => d end.

(** read_operand_with_bypass, l.14-42 *)
Definition read (st : prf) (i : prf_in) (p : nat) : Z :=
  let d1 := fold_left (fun d o => if writes p o then val_of d o else d) (latch st) (regs st p) in
  match find (writes p) (p_bypass i) with Some o => val_of d1 o | None => d1 end.
Definition operand (st : prf) (i : prf_in) (en : bool) (p : nat) : Z := if en then read st i p else 0%Z.

(** is_killed, l.8-12 *)
Definition wb_killed (i : prf_in) (w : wb) : bool := p_mispred i && nz (Z.land (b_mask w) (p_brmask i)).
(** comb_awake, l.148-171 (LSU_LOAD_WB_WIDTH = 2).  BackTop::comb calls it before
    Idu::comb_branch, so the branch broadcast it reads is still the one of the
    cycle before: [m] and [br] are that broadcast's mispred and br_mask. *)
Definition LSU_WB := 2.
Definition wakes (st : prf) (m : bool) (br : Z) : list nat :=
  firstn LSU_WB (flat_map (fun o => match o with
    | Some w => match b_dest w with
                | Some q => if b_load w && negb (m && nz (Z.land (b_mask w) br)) then [q] else []
                | None => [] end
    | None => [] end) (latch st)).
(** comb_write, l.185-193 *)
Definition write1 (r : nat -> Z) (o : option wb) : nat -> Z :=
  match o with
  | Some w => match b_dest w with Some q => if q =? 0 then r else fupd r q (b_val w) | None => r end
  | None => r end.
Definition write_all (l : list (option wb)) (r : nat -> Z) : nat -> Z := fupd (fold_left write1 l r) 0 0%Z.
(** comb_pipeline, l.199-219 *)
Definition latch1 (i : prf_in) (o : option wb) : option wb :=
  if p_flush i then None
  else match o with
       | Some w => if wb_killed i w then None
                   else Some (Wb (b_dest w) (b_val w) (Z.ldiff (b_mask w) (p_clear i)) (b_load w))
       | None => None end.
Definition prf_step (st : prf) (i : prf_in) : prf := Prf (write_all (latch st) (regs st)) (map (latch1 i) (p_entry i)).
Definition prf_init (n : nat) : prf := Prf (fun _ => 0%Z) (repeat None n).

(** The write-back of a load, RealLsu.cpp:996-1017: dest_en is always set;
    rename gives an instruction without destination register 0 as dest_preg
    (Ren.cpp:108,161), and decode removes the destination of x0
    (Idu.cpp:554-555). *)
Definition load_wb (rd : nat) (preg : nat) (v mask : Z) : wb := Wb (Some (if rd =? 0 then 0 else preg)) v mask true.
