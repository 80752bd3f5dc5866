(** The queue between fetch and decode: back-end/PreIduQueue.cpp,
    back-end/InstructionBuffer.cpp, back-end/include/FTQ.h.
    Performance counters are left out.  The per-slot branch-predictor metadata
    (FTQTrainMetaEntry) is one opaque value per slot: the code only copies it.
    Types narrower than int (ftq_count: uint8_t) wrap as in C++. *)
From Verif Require Import Base.
Local Open Scope nat_scope.

Definition FW : nat := 4.       (* FETCH_WIDTH *)
Definition DW : nat := 2.       (* DECODE_WIDTH *)
Definition FTQN : nat := 16.    (* FTQ_SIZE *)
Definition IBN : nat := 32.     (* IDU_INST_BUFFER_SIZE *)

(** What fetch offers in a cycle (FrontPreIO): one record per slot, and the
    predicted address of the next block. *)
Record fslot := FSlot { fs_valid : bool; fs_inst : Z; fs_pc : Z; fs_fault : bool; fs_dir : bool; fs_meta : Z }.
Record fetch := Fetch { f_slot : nat -> fslot; f_next : Z }.

(** InstructionBufferEntry. *)
Record ibe := Ibe { e_valid : bool; e_inst : Z; e_pc : Z; e_fault : bool; e_idx : nat; e_off : nat; e_last : bool }.
Definition ibe0 : ibe := Ibe false 0 0 false 0 0 false.

(** InstructionBuffer *)
Record ibuf := IBuf { ib_ent : nat -> ibe; ib_head : nat; ib_tail : nat; ib_count : nat }.
(** InstructionBuffer::clear, InstructionBuffer.cpp:32-39 *)
Definition ib_clear : ibuf := IBuf (fun _ => ibe0) 0 0 0.
(** InstructionBuffer::peek, l.6-11 *)
Definition ib_peek (b : ibuf) (k : nat) : ibe := ib_ent b ((ib_head b + k) mod IBN).
(** InstructionBuffer::pop_front, l.13-23: [actual] iterations, then the count. *)
Fixpoint ib_pop_loop (n : nat) (b : ibuf) : ibuf :=
  match n with
  | O => b
  | S n' => ib_pop_loop n' (IBuf (fupd (ib_ent b) (ib_head b) ibe0) ((ib_head b + 1) mod IBN) (ib_tail b) (ib_count b))
  end.
Definition ib_pop (n : nat) (b : ibuf) : ibuf :=
  let actual := if ib_count b <? n then ib_count b else n in
  let b' := ib_pop_loop actual b in
  IBuf (ib_ent b') (ib_head b') (ib_tail b') (ib_count b - actual).
(** InstructionBuffer::push_back, l.25-30 (the Assert is not a guard). *)
Definition ib_push (b : ibuf) (e : ibe) : ibuf :=
  IBuf (fupd (ib_ent b) (ib_tail b) e) (ib_head b) ((ib_tail b + 1) mod IBN) (ib_count b + 1).
(** InstructionBuffer::can_accept, InstructionBuffer.h:28-31 *)
Definition can_accept (b : ibuf) (n : nat) : bool := n <=? IBN - ib_count b.

(** FTQEntry and FTQTrainMetaEntry, FTQ.h *)
Record fent := FEnt { fe_pc : nat -> Z; fe_taken : nat -> bool; fe_next : Z; fe_meta : nat -> Z }.
Definition fent0 : fent := FEnt (fun _ => 0%Z) (fun _ => false) 0 (fun _ => 0%Z).

Record preq := PreQ {
  ib : ibuf;
  q_ent : nat -> fent; q_valid : nat -> bool;
  q_head : nat; q_tail : nat; q_count : nat
}.
(** PreIduQueue::init, PreIduQueue.cpp:67-81 *)
Definition preq_init : preq := PreQ ib_clear (fun _ => fent0) (fun _ => false) 0 0 0.

(** RobCommitIO as seen here: ftq index, offset and last flag. *)
Record centry := CEntry { c_idx : nat; c_off : nat; c_last : bool }.
Record pre_in := PreIn {
  i_fetch : fetch;
  i_stale_flush : bool;      (* rob_bcast->flush as comb_accept_front reads it *)
  i_flush : bool;            (* rob_bcast->flush as comb_fire reads it *)
  i_mispred : bool;          (* idu_br_latch->mispred *)
  i_mis_idx : nat;           (* idu_br_latch->ftq_idx *)
  i_consume : list bool;     (* idu_consume->fire *)
  i_commit : list (option centry)
}.

(** comb_begin l.95-98: entries offered to decode. *)
Definition issue (st : preq) : list ibe :=
  map (ib_peek (ib st)) (seq 0 (if ib_count (ib st) <? DW then ib_count (ib st) else DW)).

(** *** comb_accept_front, PreIduQueue.cpp:113-202 *)
(** Offered slots, in slot order (l.119-122 counts them). *)
Definition incoming (f : fetch) : list nat := filter (fun i => fs_valid (f_slot f i)) (seq 0 FW).
(** l.114-126 *)
Definition front_ready (st : preq) (i : pre_in) : bool :=
  negb (i_mispred i || i_stale_flush i) &&
  ((q_count st <? FTQN) && can_accept (ib st) (length (incoming (i_fetch i)))).
(** l.135-138 *)
Definition accepts (st : preq) (i : pre_in) : bool :=
  front_ready st i && negb (length (incoming (i_fetch i)) =? 0).
(** l.139-163 *)
Definition ftq_entry (f : fetch) : fent :=
  FEnt (fun i => fs_pc (f_slot f i)) (fun i => fs_dir (f_slot f i)) (f_next f) (fun i => fs_meta (f_slot f i)).
(** l.177-183 *)
Definition last_fire (f : fetch) : nat := last (incoming f) 0.
(** l.184-196 *)
Definition push_entry (idx : nat) (f : fetch) (i : nat) : ibe :=
  Ibe true (fs_inst (f_slot f i)) (fs_pc (f_slot f i)) (fs_fault (f_slot f i)) idx i (i =? last_fire f).
Definition push_entries (st : preq) (i : pre_in) : list ibe :=
  if accepts st i then map (push_entry (q_tail st) (i_fetch i)) (incoming (i_fetch i)) else [].
(** l.164-171 with ftq_alloc (l.23-31): the queue part after acceptance. *)
Definition after_accept (st : preq) (i : pre_in) : preq :=
  if accepts st i then
    PreQ (ib st) (fupd (q_ent st) (q_tail st) (ftq_entry (i_fetch i))) (fupd (q_valid st) (q_tail st) true)
         (q_head st) ((q_tail st + 1) mod FTQN) (q_count st + 1)
  else st.

(** ftq_pop, l.33-45 *)
Fixpoint ftq_pop (n : nat) (st : preq) : preq :=
  match n with
  | O => st
  | S n' =>
      if q_count st <=? 0 then st
      else ftq_pop n' (PreQ (ib st) (q_ent st) (fupd (q_valid st) (q_head st) false)
                            ((q_head st + 1) mod FTQN) (q_tail st) (q_count st - 1))
  end.
(** ftq_recover, l.47-56; count is a uint8_t. *)
Definition ftq_recover (nt : nat) (st : preq) : preq :=
  let norm := nt mod FTQN in
  let discarded := (q_tail st + FTQN - norm) mod FTQN in
  PreQ (ib st) (q_ent st)
       (fold_left (fun v k => fupd v ((norm + k) mod FTQN) false) (seq 0 discarded) (q_valid st))
       (q_head st) norm ((q_count st + 256 - discarded) mod 256).
(** ftq_flush, l.58-65 *)
Definition ftq_flush (st : preq) : preq := PreQ (ib st) (q_ent st) (fun _ => false) 0 0 0.

(** *** comb_fire, PreIduQueue.cpp:204-262 *)
Fixpoint lead (l : list bool) : nat := match l with true :: l' => S (lead l') | _ => 0 end.
Definition pop_count (i : pre_in) : nat := lead (firstn DW (i_consume i)).
Definition committed_last (i : pre_in) : nat :=
  length (filter (fun o => match o with Some c => c_last c | None => false end) (i_commit i)).
Definition set_ib (st : preq) (b : ibuf) : preq := PreQ b (q_ent st) (q_valid st) (q_head st) (q_tail st) (q_count st).
Definition pre_step (st : preq) (i : pre_in) : preq :=
  let st1 := after_accept st i in
  if i_flush i then set_ib (ftq_flush st1) ib_clear
  else if i_mispred i then set_ib (ftq_recover ((i_mis_idx i + 1) mod FTQN) st1) ib_clear
  else
    let b := fold_left ib_push (push_entries st i) (ib_pop (pop_count i) (ib st)) in
    ftq_pop (committed_last i) (set_ib st1 b).

(** *** Lookups *)
(** fill_ftq_pc_resp l.9-21: (entry_valid, pc, pred_taken, next_pc). *)
Definition ftq_lookup (st : preq) (idx off : nat) : bool * Z * bool * Z :=
  (q_valid st idx, fe_pc (q_ent st idx) off, fe_taken (q_ent st idx) off, fe_next (q_ent st idx)).

(** comb_commit_info, l.288-339: per commit slot the pc, the direction and the
    training data; [None] for an invalid slot.  The last component says
    whether the Assert at l.308 holds. *)
Fixpoint commit_info (st : preq) (cur : nat) (cv : bool) (cs : list (option centry)) : list (option (Z * bool * Z * bool)) :=
  match cs with
  | [] => []
  | None :: r => None :: commit_info st cur cv r
  | Some c :: r =>
      let hit := (c_idx c <? FTQN) && q_valid st (c_idx c) in
      let pc := if hit then fe_pc (q_ent st (c_idx c)) (c_off c) else 0%Z in
      let tk := if hit then fe_taken (q_ent st (c_idx c)) (c_off c) else false in
      let meta := if cv then fe_meta (q_ent st cur) (c_off c) else 0%Z in
      let ok := if cv then c_idx c =? cur else true in
      let next := (cur + 1) mod FTQN in
      let adv := c_last c && cv in
      let cv' := if adv then negb (next =? q_tail st) else cv in
      let cur' := if adv && negb (next =? q_tail st) then next else cur in
      Some (pc, tk, meta, ok) :: commit_info st cur' cv' r
  end.
Definition commit_infos (st : preq) (i : pre_in) := commit_info st (q_head st) (0 <? q_count st) (i_commit i).
