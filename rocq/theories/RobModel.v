(** The reorder buffer: back-end/Rob.cpp, back-end/include/Rob.h.
    One definition per comb_* function.  Not modelled: debug printing,
    performance and TMA fields, the address-alignment asserts, and the
    stall_cycle counter (after 50000 idle cycles it ends the simulation). *)
From Verif Require Import Base ExecModel.
Local Open Scope nat_scope.

(** include/config.h: ROB_BANK_NUM = DECODE_WIDTH = COMMIT_WIDTH = 2,
    ROB_LINE_NUM = ROB_NUM / ROB_BANK_NUM = 32. *)
Definition BANKS : nat := 2.
Definition LINES : nat := 32.

(** RobStoredInst, Rob.h:25-56.  [u_rest] stands for the fields the reorder
    buffer copies without looking at them (destination registers, FTQ and STQ
    indices, debug data). *)
Record ruop := RUop {
  u_type : inst_type;
  u_pf_inst : bool; u_pf_load : bool; u_pf_store : bool; u_illegal : bool;
  u_flush_pipe : bool;
  u_expect : Z; u_cplt : Z;
  u_diag : Z;
  u_mispred : bool; u_taken : bool; u_last : bool;
  u_rest : nat
}.
Record rentry := REntry { e_valid : bool; e_uop : ruop }.

(** Rob.cpp:33-61. *)
Definition is_page_fault (u : ruop) : bool := u_pf_inst u || u_pf_load u || u_pf_store u.
Definition is_exception (u : ruop) : bool :=
  is_page_fault u || u_illegal u || it_eqb (u_type u) T_ECALL.
Definition is_wfi (u : ruop) : bool := it_eqb (u_type u) T_WFI.
Definition is_flush_inst (u : ruop) : bool :=
  it_eqb (u_type u) T_CSR || it_eqb (u_type u) T_ECALL || it_eqb (u_type u) T_MRET ||
  it_eqb (u_type u) T_SRET || it_eqb (u_type u) T_SFENCE_VMA || it_eqb (u_type u) T_FENCE_I ||
  is_exception u || it_eqb (u_type u) T_EBREAK || u_flush_pipe u.
Definition is_fence_inst (u : ruop) : bool :=
  it_eqb (u_type u) T_FENCE || it_eqb (u_type u) T_FENCE_I || it_eqb (u_type u) T_SFENCE_VMA.
Definition is_complete (u : ruop) : bool := Z.eqb (u_cplt u) (u_expect u).

(** Registers, Rob.h:157-161: entry[bank][line] as line -> banks. *)
Record rob := Rob {
  lines : nat -> list rentry;
  enq_ptr : nat; deq_ptr : nat; enq_flag : bool; deq_flag : bool
}.

(** Rob.h:171-172. *)
Definition is_empty (r : rob) : bool := (enq_ptr r =? deq_ptr r) && Bool.eqb (enq_flag r) (deq_flag r).
Definition is_full (r : rob) : bool := (enq_ptr r =? deq_ptr r) && negb (Bool.eqb (enq_flag r) (deq_flag r)).

(** util.h:62-66. *)
Definition rob_line (idx : nat) : nat := idx / BANKS.
Definition rob_bank (idx : nat) : nat := idx mod BANKS.
Definition make_rob_idx (line bank : nat) : nat := line * BANKS + bank.

Definition blank : ruop :=
  RUop T_NOP false false false false false 0%Z 0%Z 0%Z false false false 0.
(** Rob::init, Rob.cpp:65-78. *)
Definition rob_init : rob :=
  Rob (fun _ => repeat (REntry false blank) BANKS) 0 0 false false.

(** A completion report, ExuRobIO, with the issue port it arrives on. *)
Record wback := WBack {
  w_port : nat; w_idx : nat;
  w_pf_inst : bool; w_pf_load : bool; w_pf_store : bool;
  w_flush_pipe : bool; w_diag : Z; w_result : Z;
  w_branch : bool;                           (* is_branch_uop(op), util.h:170 *)
  w_mispred : bool; w_taken : bool
}.

(** Inputs of one cycle. *)
Record rob_in := RobIn {
  i_mispred : option nat;                    (* dec_bcast->mispred, redirect_rob_idx *)
  i_interrupt_req : bool;                    (* csr2rob->interrupt_req *)
  i_store_pending : bool;                    (* lsu2rob->committed_store_pending *)
  i_front_stall : bool;
  i_wb : list wback;                         (* exu2rob, valid ones, by port *)
  i_fire : list (option ruop)                (* dis2rob: dis_fire[i], uop[i] *)
}.

(** *** Rob::comb_ready, Rob.cpp:100-152 *)
Definition rob_stall (r : rob) : bool :=
  existsb (fun e => e_valid e && is_flush_inst (e_uop e)) (lines r (deq_ptr r)).
Definition rob_ready (r : rob) : bool := negb (is_full r).

(** Index of the first valid bank of a line. *)
Fixpoint first_valid (l : list rentry) : option (nat * ruop) :=
  match l with
  | [] => None
  | e :: l' => if e_valid e then Some (0, e_uop e)
               else match first_valid l' with Some (k, u) => Some (S k, u) | None => None end
  end.

(** *** Rob::comb_commit, Rob.cpp:216-335: what to commit this cycle *)
Inductive decision : Type := D_group | D_single (bank : nat) | D_none.

Definition is_mis (i : rob_in) : bool := match i_mispred i with Some _ => true | None => false end.

(** l.218-254: [commit] before the special cases. *)
Definition group_ok (r : rob) (i : rob_in) : bool :=
  let hl := lines r (deq_ptr r) in
  let has_head := existsb e_valid hl in
  let c := negb (is_empty r) && negb (is_mis i) in
  let c := if has_head && i_front_stall i then false else c in
  let c := c && (has_head || negb has_head) in
  fold_left (fun c e => if e_valid e then c && is_complete (e_uop e) else c) hl c.

(** l.274-335; returns (commit, single_commit with its bank, interrupt_fire). *)
Definition single_part (r : rob) (i : rob_in) (commit : bool) : bool * option nat * bool :=
  let hl := lines r (deq_ptr r) in
  let intp := i_interrupt_req i in
  let special := existsb (fun e => (e_valid e && (is_flush_inst (e_uop e) || is_fence_inst (e_uop e) || is_wfi (e_uop e))) || intp) hl in
  match first_valid hl with
  | Some (k, u) =>
      let single := if negb intp && negb (is_complete u) then false else special in
      let gate := negb intp && is_fence_inst u && i_store_pending i in
      let single := if gate then false else single in
      let commit := if gate then false else commit in
      let fire := single && intp in
      if negb commit && negb single && negb intp
      then (* forward-progress fallback, l.320-334 *)
        if is_complete u && negb (is_flush_inst u) then (commit, Some k, fire) else (commit, None, fire)
      else (commit, if single then Some k else None, fire)
  | None => (commit, None, false)
  end.

Definition decide (r : rob) (i : rob_in) : decision * bool :=
  let commit := group_ok r i in
  if is_mis i then (if commit then D_group else D_none, false)
  else match single_part r i commit with
  | (_, Some k, fire) => (D_single k, fire)
  | (true, None, fire) => (D_group, fire)
  | (false, None, fire) => (D_none, fire)
  end.

(** commit_entry[] as (bank, uop) pairs in bank order. *)
Definition valid_banks (l : list rentry) : list (nat * ruop) :=
  flat_map (fun p : nat * rentry => if e_valid (snd p) then [(fst p, e_uop (snd p))] else [])
           (combine (seq 0 (length l)) l).
Definition entry_at (l : list rentry) (k : nat) : rentry := nth k l (REntry false blank).
Definition committed (r : rob) (i : rob_in) : list (nat * ruop) :=
  match fst (decide r i) with
  | D_group => valid_banks (lines r (deq_ptr r))
  | D_single k => [(k, e_uop (entry_at (lines r (deq_ptr r)) k))]
  | D_none => []
  end.

(** Broadcast of one cycle, Rob.cpp:180-187, 336-337, 427-480. *)
Record bcast := Bcast {
  b_flush : bool; b_exception : bool; b_interrupt : bool;
  b_ecall : bool; b_mret : bool; b_sret : bool;
  b_pf_store : bool; b_pf_load : bool; b_pf_inst : bool; b_illegal : bool;
  b_ebreak : bool; b_wfi : bool; b_csr_commit : bool; b_fence : bool; b_fence_i : bool
}.
Definition quiet : bcast :=
  Bcast false false false false false false false false false false false false false false false.
Definition broadcast (r : rob) (i : rob_in) : bcast :=
  let (d, fire) := decide r i in
  match d with
  | D_single k =>
      let u := e_uop (entry_at (lines r (deq_ptr r)) k) in
      let t := it_eqb (u_type u) in
      let fl := is_flush_inst u || fire in
      let ex := fl && (is_exception u || fire) in
      let b := Bcast fl ex fire in
      if negb (is_flush_inst u || fire || is_wfi u) then
        b false false false false false false false false false false false false
      else if fire then b false false false false false false false false false false false false
      else if t T_ECALL then b true false false false false false false false false false false false
      else if t T_MRET then b false true false false false false false false false false false false
      else if t T_SRET then b false false true false false false false false false false false false
      else if u_pf_store u then b false false false true false false false false false false false false
      else if u_pf_load u then b false false false false true false false false false false false false
      else if u_pf_inst u then b false false false false false true false false false false false false
      else if u_illegal u then b false false false false false false true false false false false false
      else if t T_EBREAK then b false false false false false false false true false false false false
      else if is_wfi u then b false false false false false false false false true false false false
      else if t T_CSR then b false false false false false false false false false true false false
      else if t T_SFENCE_VMA then b false false false false false false false false false false true false
      else if t T_FENCE_I then b false false false false false false false false false false false true
      else b false false false false false false false false false false false false
  | _ => Bcast false false fire false false false false false false false false false false false false
  end.

(** LOOP_INC on a line pointer. *)
Definition line_inc (x : nat) : nat := if x + 1 =? LINES then 0 else x + 1.

Definition clear (l : list rentry) : list rentry := map (fun e => REntry false (e_uop e)) l.
Definition clear_at (k : nat) (l : list rentry) : list rentry :=
  upd k (REntry false (e_uop (entry_at l k))) l.
Definition drained (l : list rentry) : bool := negb (existsb e_valid l).

(** Rob.cpp:345-416: effect of the commit on entry_1, deq_ptr_1, deq_flag_1. *)
Definition comb_commit (r : rob) (i : rob_in) : rob :=
  let hl := lines r (deq_ptr r) in
  let go nl :=
    let ls := fupd (lines r) (deq_ptr r) nl in
    if drained nl then
      let d := line_inc (deq_ptr r) in
      Rob ls (enq_ptr r) d (enq_flag r) (if d =? 0 then negb (deq_flag r) else deq_flag r)
    else Rob ls (enq_ptr r) (deq_ptr r) (enq_flag r) (deq_flag r) in
  match fst (decide r i) with
  | D_group => go (clear hl)
  | D_single k => go (clear_at k hl)
  | D_none => r
  end.

(** *** Rob::comb_complete, Rob.cpp:534-631 *)
(** rob_cplt_mask_from_issue_port, util.h:88-110 with the port layout of
    include/config.h: 0-1 ALU, 2-3 LD, 4-5 STA, 6-7 STD, 8-9 BR. *)
Definition cplt_bit (port : nat) : Z :=
  if port <? 4 then 1%Z                       (* ROB_CPLT_G0 *)
  else if port <? 6 then 2%Z                  (* ROB_CPLT_G1 *)
  else if port <? 8 then 4%Z                  (* ROB_CPLT_G2 *)
  else 2%Z.
Definition complete_uop (w : wback) (u : ruop) : ruop :=
  let pf := w_pf_inst w || w_pf_load w || w_pf_store w in
  let is_ld := (2 <=? w_port w) && (w_port w <? 4) in
  let is_sta := (4 <=? w_port w) && (w_port w <? 6) in
  let mem := is_ld || is_sta in
  let pfi := if mem && pf then u_pf_inst u || w_pf_inst w else u_pf_inst u in
  let pfs := if mem && pf then u_pf_store u || w_pf_store w else u_pf_store u in
  let pfl0 := if mem && pf then u_pf_load u || w_pf_load w else u_pf_load u in
  let pfl := if is_sta && pf && pfs then false else pfl0 in
  let diag := if mem then if pf then w_result w else w_diag w else u_diag u in
  RUop (u_type u) pfi pfl pfs (u_illegal u) (u_flush_pipe u || w_flush_pipe w)
       (u_expect u) (Z.lor (u_cplt u) (cplt_bit (w_port w)))
       (if w_branch w then w_diag w else diag)
       (if w_branch w then w_mispred w else u_mispred u)
       (if w_branch w then w_taken w else u_taken u) (u_last u) (u_rest u).
Definition upd_uop (k : nat) (f : ruop -> ruop) (l : list rentry) : list rentry :=
  upd k (REntry (e_valid (entry_at l k)) (f (e_uop (entry_at l k)))) l.
Definition complete_one (ls : nat -> list rentry) (w : wback) : nat -> list rentry :=
  fupd ls (rob_line (w_idx w)) (upd_uop (rob_bank (w_idx w)) (complete_uop w) (ls (rob_line (w_idx w)))).
Definition comb_complete (r : rob) (i : rob_in) : rob :=
  Rob (fold_left complete_one (i_wb i) (lines r)) (enq_ptr r) (deq_ptr r) (enq_flag r) (deq_flag r).

(** *** Rob::comb_branch, Rob.cpp:637-682.  [r] is the state at the start of the
    cycle (enq_ptr, enq_flag); [r1] the working copy. *)
Fixpoint clear_lines (fuel ptr tail : nat) (ls : nat -> list rentry) : nat -> list rentry :=
  match fuel with
  | O => ls
  | S f => if ptr =? tail then ls
           else clear_lines f ((ptr + 1) mod LINES) tail (fupd ls ptr (clear (ls ptr)))
  end.
Definition set_last (u : ruop) : ruop :=
  RUop (u_type u) (u_pf_inst u) (u_pf_load u) (u_pf_store u) (u_illegal u) (u_flush_pipe u)
       (u_expect u) (u_cplt u) (u_diag u) (u_mispred u) (u_taken u) true (u_rest u).
(** clear banks [start ..] *)
Fixpoint clear_from (start : nat) (l : list rentry) : list rentry :=
  match l, start with
  | [], _ => []
  | e :: l', O => REntry false (e_uop e) :: clear_from 0 l'
  | e :: l', S s => e :: clear_from s l'
  end.
Definition comb_branch (r : rob) (i : rob_in) (flush : bool) (r1 : rob) : rob :=
  match i_mispred i with
  | Some idx =>
      if flush then r1 else
      let line := rob_line idx in
      let bank := rob_bank idx in
      let e := (line + 1) mod LINES in
      let fl := if enq_ptr r <? e then negb (enq_flag r) else enq_flag r1 in
      let ls1 := fupd (lines r1) line (upd_uop bank set_last (lines r1 line)) in
      let ls2 := fupd ls1 line (clear_from (bank + 1) (ls1 line)) in
      Rob (clear_lines LINES e (enq_ptr r) ls2) e (deq_ptr r1) fl (deq_flag r1)
  | None => r1
  end.

(** *** Rob::comb_fire, Rob.cpp:688-709 *)
Definition set_cplt0 (u : ruop) : ruop :=
  RUop (u_type u) (u_pf_inst u) false false (u_illegal u) (u_flush_pipe u)
       (u_expect u) 0%Z (u_diag u) (u_mispred u) (u_taken u) (u_last u) (u_rest u).
Fixpoint fill (l : list rentry) (f : list (option ruop)) : list rentry :=
  match l, f with
  | e :: l', Some u :: f' => REntry true (set_cplt0 u) :: fill l' f'
  | e :: l', None :: f' => e :: fill l' f'
  | _, _ => l
  end.
Definition any_fire (f : list (option ruop)) : bool :=
  existsb (fun o => match o with Some _ => true | None => false end) f.
Definition comb_fire (r : rob) (i : rob_in) (r1 : rob) : rob :=
  if rob_ready r && any_fire (i_fire i) then
    let e := line_inc (enq_ptr r1) in
    Rob (fupd (lines r1) (enq_ptr r) (fill (lines r1 (enq_ptr r)) (i_fire i))) e (deq_ptr r1)
        (if e =? 0 then negb (enq_flag r) else enq_flag r1) (deq_flag r1)
  else r1.

(** *** Rob::comb_flush, Rob.cpp:715-728 *)
Definition comb_flush (flush : bool) (r1 : rob) : rob :=
  if flush then Rob (fun l => clear (lines r1 l)) 0 0 false false else r1.

(** One cycle in the order of BackTop::comb (commit, complete, branch, fire,
    flush) followed by seq. *)
Definition rob_step (r : rob) (i : rob_in) : rob :=
  let fl := b_flush (broadcast r i) in
  let r1 := comb_complete (comb_commit r i) i in
  comb_flush fl (comb_fire r i (comb_branch r i fl r1)).
