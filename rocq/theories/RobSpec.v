(** Specification side of C03-C05: the instructions in the reorder buffer as a
    plain list, oldest first, with everything that was reported about each. *)
From Verif Require Import Base ExecModel RobModel.
Local Open Scope nat_scope.

(** Everything the storage holds, in program order: all lines, starting at the
    head line and going round, banks in order.  The key of an instruction is its
    reorder-buffer index. *)
Definition line_contents (r : rob) (l : nat) : list (nat * ruop) :=
  map (fun p : nat * ruop => (make_rob_idx l (fst p), snd p)) (valid_banks (lines r l)).
Definition contents (r : rob) : list (nat * ruop) :=
  flat_map (fun k => line_contents r ((deq_ptr r + k) mod LINES)) (seq 0 LINES).

(** An instruction in flight: its index, the micro-op Dispatch handed over, the
    reports received since, and whether a mispredict ended its fetch block at it. *)
Record qent := QEnt { q_idx : nat; q_uop : ruop; q_reports : list wback; q_cut : bool }.

(** Which execution resource reports on a port (include/config.h:400-425). *)
Inductive port_kind := P_int | P_load | P_sta | P_std | P_br.
Definition kind (port : nat) : port_kind :=
  match port with
  | 0 | 1 => P_int | 2 | 3 => P_load | 4 | 5 => P_sta | 6 | 7 => P_std | _ => P_br
  end.
(** Completion group of a report: 0 integer/load, 1 branch/store address,
    2 store data. *)
Definition group (port : nat) : nat :=
  match kind port with P_int | P_load => 0 | P_sta | P_br => 1 | P_std => 2 end.
Definition memory_report (w : wback) : bool :=
  match kind (w_port w) with P_load | P_sta => true | _ => false end.
Definition reported (P : wback -> bool) (e : qent) : bool := existsb P (q_reports e).

(** Last element satisfying [P]. *)
Definition last_branch (l : list wback) : option wback :=
  fold_left (fun o w => if w_branch w then Some w else o) l None.

(** Value later offered as trap value: the latest of a branch's, a memory
    access's physical address, or a faulting access's virtual address. *)
Fixpoint trap_value (d : Z) (l : list wback) : Z :=
  match l with
  | [] => d
  | w :: l' =>
      trap_value (if w_branch w then w_diag w
                  else if memory_report w
                       then if w_pf_inst w || w_pf_load w || w_pf_store w then w_result w else w_diag w
                       else d) l'
  end.

(** The stored micro-op is what was dispatched plus what was reported. *)
Record tracks (e : qent) (p : nat * ruop) : Prop := Tracks {
  tr_idx : fst p = q_idx e;
  tr_type : u_type (snd p) = u_type (q_uop e);
  tr_illegal : u_illegal (snd p) = u_illegal (q_uop e);
  tr_expect : u_expect (snd p) = u_expect (q_uop e);
  tr_rest : u_rest (snd p) = u_rest (q_uop e);
  tr_cplt : forall b, Z.testbit (u_cplt (snd p)) (Z.of_nat b) =
                      reported (fun w => group (w_port w) =? b) e;
  tr_cplt_pos : (0 <= u_cplt (snd p))%Z;
  tr_flush : u_flush_pipe (snd p) = u_flush_pipe (q_uop e) || reported w_flush_pipe e;
  tr_pfi : u_pf_inst (snd p) =
           u_pf_inst (q_uop e) || reported (fun w => memory_report w && w_pf_inst w) e;
  tr_pfs : u_pf_store (snd p) = reported (fun w => memory_report w && w_pf_store w) e;
  tr_pfl : u_pf_load (snd p) = true ->
           reported (fun w => memory_report w && w_pf_load w) e = true;
  tr_pfl_only : u_pf_store (snd p) = false ->
           u_pf_load (snd p) = reported (fun w => memory_report w && w_pf_load w) e;
  tr_branch : match last_branch (q_reports e) with
              | Some w => u_mispred (snd p) = w_mispred w /\ u_taken (snd p) = w_taken w
              | None => u_mispred (snd p) = u_mispred (q_uop e) /\ u_taken (snd p) = u_taken (q_uop e)
              end;
  tr_diag : u_diag (snd p) = trap_value (u_diag (q_uop e)) (q_reports e);
  tr_last : u_last (snd p) = u_last (q_uop e) || q_cut e
}.

(** *** What one cycle does to the queue *)
Definition add_reports (ws : list wback) (e : qent) : qent :=
  QEnt (q_idx e) (q_uop e) (q_reports e ++ filter (fun w => w_idx w =? q_idx e) ws) (q_cut e).
(** Keep everything up to and including the mispredicted branch. *)
Fixpoint upto (idx : nat) (l : list qent) : list qent :=
  match l with
  | [] => []
  | e :: l' => if q_idx e =? idx then [QEnt (q_idx e) (q_uop e) (q_reports e) true]
               else e :: upto idx l'
  end.
Fixpoint arrivals (line bank : nat) (f : list (option ruop)) : list qent :=
  match f with
  | [] => []
  | Some u :: f' => QEnt (make_rob_idx line bank) u [] false :: arrivals line (S bank) f'
  | None :: f' => arrivals line (S bank) f'
  end.
Definition q_step (q : list qent) (r : rob) (i : rob_in) : list qent :=
  let q1 := skipn (length (committed r i)) q in
  let q2 := map (add_reports (i_wb i)) q1 in
  let q3 := match i_mispred i with Some idx => upto idx q2 | None => q2 end in
  let q4 := if rob_ready r then q3 ++ arrivals (enq_ptr r) 0 (i_fire i) else q3 in
  if b_flush (broadcast r i) then [] else q4.

(** Inputs the rest of the back end can produce: Dispatch never fires in a
    mispredict cycle (Dispatch.cpp:374-377) and a redirect names an instruction
    that is in the reorder buffer. *)
Record traffic_ok (r : rob) (i : rob_in) : Prop := Traffic {
  tk_width : length (i_fire i) = BANKS;
  tk_no_fire : is_mis i = true -> any_fire (i_fire i) = false;
  tk_redirect : forall idx, i_mispred i = Some idx -> In idx (map fst (contents r))
}.

Inductive reach : rob -> list qent -> Prop :=
| reach_init : reach rob_init []
| reach_step r q i : reach r q -> traffic_ok r i -> reach (rob_step r i) (q_step q r i).

(** *** Why the machine redirects at commit *)
Inductive cause :=
| C_ecall | C_mret | C_sret | C_store_fault | C_load_fault | C_fetch_fault | C_illegal
| C_ebreak | C_wfi | C_csr | C_sfence | C_fencei | C_refetch | C_none.
(** Exceptions reported by memory accesses come before those known at decode;
    a store fault of an AMO wins over its load fault. *)
Definition cause_of (e : qent) : cause :=
  match u_type (q_uop e) with
  | T_ECALL => C_ecall
  | T_MRET => C_mret
  | T_SRET => C_sret
  | t =>
      if reported (fun w => memory_report w && w_pf_store w) e then C_store_fault
      else if reported (fun w => memory_report w && w_pf_load w) e then C_load_fault
      else if u_pf_inst (q_uop e) || reported (fun w => memory_report w && w_pf_inst w) e then C_fetch_fault
      else if u_illegal (q_uop e) then C_illegal
      else match t with
           | T_EBREAK => C_ebreak
           | T_WFI => C_wfi
           | T_CSR => C_csr
           | T_SFENCE_VMA => C_sfence
           | T_FENCE_I => C_fencei
           | _ => if u_flush_pipe (q_uop e) || reported w_flush_pipe e then C_refetch else C_none
           end
  end.
(** Does the cause empty the pipeline?  [pipe]: a refetch was asked for. *)
Definition flushes (c : cause) (pipe : bool) : bool :=
  match c with C_none => false | C_wfi => pipe | _ => true end.
Definition wants_refetch (e : qent) : bool := u_flush_pipe (q_uop e) || reported w_flush_pipe e.
(** Is a trap raised for this instruction? *)
Definition faulty (e : qent) : bool :=
  it_eqb (u_type (q_uop e)) T_ECALL || u_illegal (q_uop e) || u_pf_inst (q_uop e) ||
  reported (fun w => memory_report w && (w_pf_inst w || w_pf_load w || w_pf_store w)) e.
(** The signals raised for a cause. *)
Definition signals (c : cause) (b : bcast) : Prop :=
  b_ecall b = (match c with C_ecall => true | _ => false end) /\
  b_mret b = (match c with C_mret => true | _ => false end) /\
  b_sret b = (match c with C_sret => true | _ => false end) /\
  b_pf_store b = (match c with C_store_fault => true | _ => false end) /\
  b_pf_load b = (match c with C_load_fault => true | _ => false end) /\
  b_pf_inst b = (match c with C_fetch_fault => true | _ => false end) /\
  b_illegal b = (match c with C_illegal => true | _ => false end) /\
  b_ebreak b = (match c with C_ebreak => true | _ => false end) /\
  b_wfi b = (match c with C_wfi => true | _ => false end) /\
  b_csr_commit b = (match c with C_csr => true | _ => false end) /\
  b_fence b = (match c with C_sfence => true | _ => false end) /\
  b_fence_i b = (match c with C_fencei => true | _ => false end).
