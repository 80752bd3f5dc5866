(** The branch prediction unit's own logic, front-end/BPU/BPU.h: branch history
    (global, folded, path), return address stacks, choice of the next fetch
    address, update queues, pc register; and the two places of
    rv_simu_mmu_v2.cpp that say what a committed instruction is to it
    (back2front_comb) and what the back end is told (front_cycle).

    Build options: ENABLE_BPU_RAS, SPECULATIVE_ON, FRONTEND_DISABLE_2AHEAD (so
    bpu_nlp_comb only clears outputs the front end then ignores),
    FETCH_WIDTH = BPU_BANK_NUM = 4, COMMIT_WIDTH = 2.

    Arrays are functions, read below their declared sizes.  The answers of the
    type, direction and target predictors are inputs of the model here
    (TageModel.v models the direction predictor).  The bookkeeping fields that a queue
    entry only copies are one opaque value.  The assert of the update queue is
    the result [None]. *)
From Verif Require Import Base FrontModel.
Local Open Scope nat_scope.

Definition NC : nat := 2.            (* COMMIT_WIDTH *)
Definition NB : nat := 4.            (* BPU_BANK_NUM *)
Definition GHRL : nat := 512.        (* GHR_LENGTH *)
Definition QD : nat := 500.          (* Q_DEPTH *)
Definition RASD : nat := 16.         (* RAS_DEPTH *)
Definition PATHM : Z := (2 ^ 16 - 1)%Z. (* TAGE_SC_PATH_MASK *)

(** Branch types, frontend.h *)
Definition BR_DIRECT : Z := 0.  Definition BR_CALL : Z := 1.  Definition BR_RET : Z := 2.
Definition BR_IDIRECT : Z := 3. Definition BR_NONCTL : Z := 4. Definition BR_JAL : Z := 5.

(** BPU_configs.h: ghr_length, fh_length *)
Definition ghr_len (i : nat) : nat := nth i [8; 13; 32; 119] 0.
Definition fh_len (k i : nat) : nat := nth i (nth k [[8; 11; 11; 11]; [8; 8; 8; 8]; [7; 7; 7; 7]] []) 0.

(* ------------------------------------------------------------------ *)
(** * Histories *)

Record hist := Hist { h_ghr : nat -> bool; h_fh : nat -> nat -> Z; h_path : Z }.

(** tage_ghr_update_comb, TAGE_top.h:241-247 *)
Definition ghr_push (g : nat -> bool) (d : bool) : nat -> bool :=
  fun i => match i with O => d | S j => if i <? GHRL then g j else g i end.

(** tage_fh_update_comb, TAGE_top.h:249-264: one folded register *)
Definition fh_push (len n : nat) (g : nat -> bool) (d : bool) (v : Z) : Z :=
  (let old_highest := Z.land (Z.shiftr v (Z.of_nat len - 1)) 1 in
   let v := Z.land (w32 (Z.shiftl v 1)) (Z.shiftl 1 (Z.of_nat len) - 1) in
   let v := Z.lor v (Z.lxor (b2z d) old_highest) in
   Z.lxor v (w32 (Z.shiftl (b2z (g (n - 1)%nat)) (Z.of_nat (n mod len)))))%Z.

(** tage_path_update_value, BPU.h:101-111 *)
Definition pc_mix (pc : Z) (d : bool) : Z :=
  (let m := Z.shiftr pc 2 in
   let m := Z.lxor m (Z.shiftr m 5) in
   let m := Z.lxor m (Z.shiftr m 11) in
   Z.lxor m (if d then 2654435769 else 2135587861))%Z.
Definition path_push (p pc : Z) (d : bool) : Z :=
  Z.land (Z.lxor (w32 (Z.shiftl (Z.land p PATHM) 1)) (pc_mix pc d)) PATHM.

(** The three updates as applied together, BPU.h:1299-1306, 1350-1361; the folds
    use the history before the push. *)
Definition hist_push (h : hist) (pc : Z) (d : bool) : hist :=
  Hist (ghr_push (h_ghr h) d)
       (fun k i => fh_push (fh_len k i) (ghr_len i) (h_ghr h) d (h_fh h k i))
       (path_push (h_path h) pc d).
Definition hist0 : hist := Hist (fun _ => false) (fun _ _ => 0%Z) 0%Z.

(* ------------------------------------------------------------------ *)
(** * Return address stacks *)

Record ras := Ras { r_st : nat -> Z; r_cnt : nat }.
(** ras_push, ras_pop, BPU.h:714-729 *)
Definition ras_push (r : ras) (v : Z) : ras :=
  if r_cnt r <? RASD then Ras (fupd (r_st r) (r_cnt r) v) (S (r_cnt r))
  else Ras (fun i => if i =? RASD - 1 then v else if i <? RASD - 1 then r_st r (S i) else r_st r i) (r_cnt r).
Definition ras_pop (r : ras) : ras := if 0 <? r_cnt r then Ras (r_st r) (r_cnt r - 1) else r.
(** bpu_pre_read_req_comb 812-817, bpu_data_seq_read 862-871 *)
Definition ras_top (r : ras) : option Z := if 0 <? r_cnt r then Some (r_st r (r_cnt r - 1)) else None.
Definition ras0 : ras := Ras (fun _ => 0%Z) 0.

(* ------------------------------------------------------------------ *)
(** * Inputs, state *)

(** One committed instruction as the unit receives it (in_update_base_pc,
    in_actual_dir, in_actual_br_type, in_actual_targets, in_pred_dir and the
    copied bookkeeping). *)
Record upd := Upd { u_pc : Z; u_dir : bool; u_type : Z; u_target : Z; u_pdir : bool; u_meta : Z }.
Definition upd0 : upd := Upd 0 false 0 0 false 0.

Record bin := BIn {
  bi_refetch : bool; bi_addr : Z; bi_ready : bool;
  bi_upd : nat -> option upd;             (* COMMIT_WIDTH slots *)
  bi_type : nat -> Z;                     (* type predictor, per slot *)
  bi_tage : nat -> option (bool * Z);     (* direction predictor, per bank: tage_pred_out_valid, pred_out, bookkeeping *)
  bi_btb : nat -> option Z }.             (* target predictor, per bank *)

Record bst := Bst {
  b_pc : Z; b_send : bool;
  b_arch : hist; b_spec : hist; b_aras : ras; b_sras : ras;
  q_ent : nat -> nat -> upd; q_wr : nat -> nat; q_rd : nat -> nat; q_cnt : nat -> nat }.

(** reset_internal_all, BPU.h:1938-1990 *)
Definition bst0 : bst :=
  Bst RESET_PC true hist0 hist0 ras0 ras0 (fun _ _ => upd0) (fun _ => 0) (fun _ => 0) (fun _ => 0).

(** bank_sel_comb, bank_pc_comb, BPU.h:56-80 *)
Definition bank_sel (pc : Z) : nat := Z.to_nat (Z.modulo (Z.shiftr pc 2) (Z.of_nat NB)).
Definition bank_pc (pc : Z) : Z := Z.shiftr pc 2.

Section COMB.
  Variables (s : bst) (x : bin).

  (** bpu_pre_read_req_comb, BPU.h:807-858 *)
  Definition p_pc : Z := if bi_refetch x then bi_addr x else b_pc s.
  Definition p_bound : Z := seq_next p_pc.
  Definition p_on (i : nat) : bool := Z.ltb (slot_pc p_pc i) p_bound.
  Definition p_bank (i : nat) : nat := bank_sel (slot_pc p_pc i).
  Definition p_do : bool := b_send s && (bi_ready x || bi_refetch x).
  Definition p_ras : option Z := ras_top (if bi_refetch x then b_aras s else b_sras s).
  Definition p_upd (b : nat) : bool := negb (q_cnt s b =? 0).

  (** bpu_predict_main_comb, BPU.h:1070-1171 *)
  Definition pred_taken (i : nat) : bool :=
    let t := bi_type x i in
    if Z.eqb t BR_NONCTL then false
    else if Z.eqb t BR_RET || Z.eqb t BR_CALL || Z.eqb t BR_IDIRECT || Z.eqb t BR_JAL then true
    else match bi_tage x (p_bank i) with Some (d, _) => d | None => false end.
  Definition final_dir (i : nat) : bool := p_do && p_on i && pred_taken i.
  Definition meta_out (i : nat) : Z :=
    if p_do && p_on i then match bi_tage x (p_bank i) with Some (_, m) => m | None => 0%Z end else 0%Z.
  Definition next_step (acc : Z * bool) (i : nat) : Z * bool :=
    let (next, found) := acc in
    if negb (p_on i) then acc
    else match bi_btb x (p_bank i) with
         | Some tgt =>
             if pred_taken i && negb found then
               (if Z.eqb (bi_type x i) BR_RET then match p_ras with Some r => r | None => tgt end else tgt, true)
             else acc
         | None => acc
         end.
  Definition p_next : Z := if p_do then fst (fold_left next_step (seq 0 NF) (p_bound, false)) else p_bound.

  (** bpu_hist_comb, BPU.h:1261-1405: the speculative side.  Both loops stop at
      the first slot predicted taken. *)
  Fixpoint spec_hist (is : list nat) (h : hist) : hist :=
    match is with
    | [] => h
    | i :: is' =>
        if negb (p_on i) then spec_hist is' h
        else
          let h := if Z.eqb (bi_type x i) BR_DIRECT then hist_push h (slot_pc p_pc i) (final_dir i) else h in
          if final_dir i then h else spec_hist is' h
    end.
  Fixpoint spec_ras (is : list nat) (r : ras) : ras :=
    match is with
    | [] => r
    | i :: is' =>
        if negb (p_on i) then spec_ras is' r
        else if negb (final_dir i) then spec_ras is' r
        else if Z.eqb (bi_type x i) BR_CALL then ras_push r (w32 (slot_pc p_pc i + 4))
        else if Z.eqb (bi_type x i) BR_RET then ras_pop r
        else r
    end.
  Definition should_spec : bool := p_do && negb (bi_refetch x).

  (** the committed side: (architectural, speculative) histories *)
  Definition arch_step (acc : hist * hist) (i : nat) : hist * hist :=
    let (a, sp) := acc in
    match bi_upd x i with
    | None => acc
    | Some u =>
        if negb (Z.eqb (u_type u) BR_DIRECT) then acc
        else let a' := hist_push a (u_pc u) (u_dir u) in
             (a', if xorb (u_pdir u) (u_dir u) then a' else sp)
    end.
  Definition aras_step (r : ras) (i : nat) : ras :=
    match bi_upd x i with
    | None => r
    | Some u => if Z.eqb (u_type u) BR_CALL then ras_push r (w32 (u_pc u + 4))
                else if Z.eqb (u_type u) BR_RET then ras_pop r else r
    end.
  Definition hist_next : hist * hist :=
    fold_left arch_step (seq 0 NC)
      (b_arch s, if should_spec then spec_hist (seq 0 NF) (b_spec s) else b_spec s).
  Definition aras_next : ras := fold_left aras_step (seq 0 NC) (b_aras s).
  Definition sras_next : ras := if should_spec then spec_ras (seq 0 NF) (b_sras s) else b_sras s.

  (** bpu_queue_comb, BPU.h:1407-1475, with the writes of bpu_seq_write *)
  Definition qs : Type := ((nat -> nat -> upd) * (nat -> nat) * (nat -> nat))%type.  (* entries, wr, count *)
  Definition pop_cnt : nat -> nat := fun b => if p_upd b then q_cnt s b - 1 else q_cnt s b.
  Definition pop_rd : nat -> nat := fun b => if p_upd b then (q_rd s b + 1) mod QD else q_rd s b.
  Definition push_one (q : qs) (u : upd) : option qs :=
    let '(e, wr, cnt) := q in
    let b := bank_sel (u_pc u) in
    if cnt b <? QD then
      Some (fupd e b (fupd (e b) (wr b) u), fupd wr b ((wr b + 1) mod QD), fupd cnt b (S (cnt b)))
    else None.
  Definition push_step (q : option qs) (i : nat) : option qs :=
    match q, bi_upd x i with
    | Some q, Some u => push_one q u
    | q, _ => q
    end.
  Definition q_next : option qs := fold_left push_step (seq 0 NC) (Some (q_ent s, q_wr s, pop_cnt)).
  Definition q_full (cnt : nat -> nat) : bool := existsb (fun b => QD - cnt b <? NC) (seq 0 NB).

  (** The entry read for training, bpu_data_seq_read l.888-920, and what reaches
      the predictors, bpu_post_read_req_comb l.1000-1040. *)
  Definition train (b : nat) : option upd := if p_upd b then Some (q_ent s b (q_rd s b)) else None.
  Definition train_tage (b : nat) : option upd :=
    match train b with Some u => if Z.eqb (u_type u) BR_DIRECT then Some u else None | None => None end.
  Definition train_btb (b : nat) : option upd := train b.
  (** pred_req and pred_pc sent to the direction and target predictors of a bank *)
  Definition pred_req (b : nat) : option Z :=
    if p_do then
      match find (fun i => p_on i && (p_bank i =? b)) (seq 0 NF) with
      | Some i => Some (bank_pc (slot_pc p_pc i))
      | None => None
      end
    else None.
End COMB.

Record bout := BOut {
  bo_pc : Z; bo_valid : bool; bo_ptab : bool; bo_dir : nat -> bool; bo_meta : nat -> Z; bo_next : Z;
  bo_full : bool; bo_tage : nat -> option upd; bo_btb : nat -> option upd }.

(** bpu_core_comb_calc, BPU.h:1493-1814, with bpu_seq_write, 1816-1930 *)
Definition bcycle (s : bst) (x : bin) : option (bst * bout) :=
  match q_next s x with
  | None => None
  | Some (e, wr, cnt) =>
      let (a, sp) := hist_next s x in
      let ar := aras_next s x in
      Some (
        Bst (if bi_refetch x then bi_addr x else if p_do s x then p_next s x else b_pc s)
            (if bi_refetch x then true else if p_do s x then true else b_send s)
            a (if bi_refetch x then a else sp) ar (if bi_refetch x then ar else sras_next s x)
            e wr (pop_rd s) cnt,
        BOut (p_pc s x) (b_send s && negb (bi_refetch x)) (p_do s x && negb (bi_refetch x))
             (final_dir s x) (meta_out s x) (p_next s x) (q_full cnt) (train_tage s) (train_btb s))
  end.

(* ------------------------------------------------------------------ *)
(** * What the rest of the machine tells the unit *)

(** back2front_comb, rv_simu_mmu_v2.cpp:1296-1316: the branch type of a committed
    instruction, given the decoder's facts about it. *)
Inductive cinst := CBranch | CJal | CJalr | COther.
Definition br_type_of (k : cinst) (dest_en : bool) (rd : Z) (is_ret : bool) : Z :=
  let t := match k with CBranch => BR_DIRECT | CJal => BR_JAL | _ => BR_NONCTL end in
  match k with
  | CJal => if dest_en && Z.eqb rd 1 then BR_CALL else t
  | CJalr => if is_ret then BR_RET else BR_IDIRECT
  | _ => t
  end.
(** Idu.cpp:535-536 *)
Definition is_ret_of (k : cinst) (rs1 rd imm : Z) : bool :=
  match k with CJalr => Z.eqb rs1 1 && Z.eqb rd 0 && Z.eqb imm 0 | _ => false end.
