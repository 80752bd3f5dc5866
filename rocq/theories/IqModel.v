(** One issue queue: back-end/include/IssueQueue.h, driven by back-end/Isu.cpp
    (comb_issue, comb_awake's broadcast, comb_enq, comb_flush, in the order
    BackTop::comb calls them).
    A stored entry is [Some uop] when its valid bit is set; contents of invalid
    entries are never read.  Fields the queue only copies are one payload [u_pay];
    [u_id] is a ghost instance number (the code carries dbg.inst_idx).
    The 64-bit words of the wake matrices are one boolean per slot: the loops
    over words and set bits (l.231-262) visit every set slot of the row. *)
From Verif Require Import Base.
Local Open Scope nat_scope.

Definition PRF_NUM : nat := 64.
Record uop := Uop {
  u_id : nat;
  u_s1en : bool; u_s1busy : bool; u_s1 : nat;
  u_s2en : bool; u_s2busy : bool; u_s2 : nat;
  u_op : nat; u_mask : Z; u_pay : Z
}.
Definition set_busy1 (u : uop) (b : bool) : uop :=
  Uop (u_id u) (u_s1en u) b (u_s1 u) (u_s2en u) (u_s2busy u) (u_s2 u) (u_op u) (u_mask u) (u_pay u).
Definition set_busy2 (u : uop) (b : bool) : uop :=
  Uop (u_id u) (u_s1en u) (u_s1busy u) (u_s1 u) (u_s2en u) b (u_s2 u) (u_op u) (u_mask u) (u_pay u).
Definition set_mask (u : uop) (m : Z) : uop :=
  Uop (u_id u) (u_s1en u) (u_s1busy u) (u_s1 u) (u_s2en u) (u_s2busy u) (u_s2 u) (u_op u) m (u_pay u).

(** IssueQueueConfig: size and ports (index, capability). *)
Record cfg := Cfg { c_size : nat; c_ports : list (nat * (nat -> bool)) }.

Record iq := Iq {
  slots : nat -> option uop;
  count : nat;
  wm1 : nat -> nat -> bool;     (* wake_matrix_src1: preg, slot *)
  wm2 : nat -> nat -> bool
}.
(** Constructor, l.172-191. *)
Definition iq_init : iq := Iq (fun _ => None) 0 (fun _ _ => false) (fun _ _ => false).

Record iq_in := IqIn {
  i_block : bool;                     (* issue_block: flush or mispredict, Isu.cpp:202 *)
  i_fu_ready : nat -> nat -> bool;    (* port_fu_ready_mask: port, op *)
  i_wake : list nat;                  (* the valid wakeup ports' registers *)
  i_enq : list uop;                   (* valid dis2iss requests for this queue *)
  i_flush_all : bool; i_flush_br : bool; i_br_mask : Z; i_clear : Z
}.

Definition mupd (m : nat -> nat -> bool) (p k : nat) (b : bool) : nat -> nat -> bool :=
  fun x y => if (x =? p) && (y =? k) then b else m x y.

(** set_dep_bits_for_slot, l.446-463 *)
Definition set_dep (u : uop) (k : nat) (st : iq) : iq :=
  Iq (slots st) (count st)
     (if u_s1en u && u_s1busy u && (u_s1 u <? PRF_NUM) then mupd (wm1 st) (u_s1 u) k true else wm1 st)
     (if u_s2en u && u_s2busy u && (u_s2 u <? PRF_NUM) then mupd (wm2 st) (u_s2 u) k true else wm2 st).
(** clear_dep_bits_for_slot, l.465-482 *)
Definition clear_dep (u : uop) (k : nat) (st : iq) : iq :=
  Iq (slots st) (count st)
     (if u_s1en u && (u_s1 u <? PRF_NUM) then mupd (wm1 st) (u_s1 u) k false else wm1 st)
     (if u_s2en u && (u_s2 u <? PRF_NUM) then mupd (wm2 st) (u_s2 u) k false else wm2 st).
(** is_ready, l.484-489 *)
Definition is_ready (u : uop) : bool :=
  (negb (u_s1en u) || negb (u_s1busy u)) && (negb (u_s2en u) || negb (u_s2busy u)).

(** schedule, l.375-435, with ISSUE_SCHEDULE_POLICY = IQ_SLOT_PRIORITY
    (include/config.h). *)
(** l.384-397: the scan stops once [count] valid entries were seen. *)
Fixpoint gather (st : iq) (ks : list nat) (seen : nat) : list nat :=
  match ks with
  | [] => []
  | k :: ks' =>
      match slots st k with
      | None => gather st ks' seen
      | Some u =>
          let here := if is_ready u then [k] else [] in
          if count st <=? S seen then here else here ++ gather st ks' (S seen)
      end
  end.
(** l.418-432: one port. *)
Definition pick (st : iq) (cap : nat -> bool) (ready issued : list nat) : option nat :=
  find (fun k => negb (existsb (Nat.eqb k) issued) &&
                 match slots st k with Some u => cap (u_op u) | None => false end) ready.
Fixpoint sched (st : iq) (ports : list (nat * (nat -> bool))) (ready issued : list nat) : list (nat * nat) :=
  match ports with
  | [] => []
  | (p, cap) :: ports' =>
      match pick st cap ready issued with
      | Some k => (k, p) :: sched st ports' ready (k :: issued)
      | None => sched st ports' ready issued
      end
  end.
Definition schedule (c : cfg) (st : iq) : list (nat * nat) :=
  sched st (c_ports c) (gather st (seq 0 (c_size c)) 0) [].

(** comb_issue, l.265-287: the granted (slot, port) pairs. *)
Definition granted (c : cfg) (st : iq) (i : iq_in) : list (nat * nat) :=
  filter (fun kp => match slots st (fst kp) with
                    | Some u => i_fu_ready i (snd kp) (u_op u) && negb (i_block i)
                    | None => false end) (schedule c st).
(** The grants as seen by Isu: port and micro-operation. *)
Definition grants (c : cfg) (st : iq) (i : iq_in) : list (nat * uop) :=
  flat_map (fun kp => match slots st (fst kp) with Some u => [(snd kp, u)] | None => [] end) (granted c st i).
(** commit_issue, l.356-364 (also the body of the flush loops): drop a slot. *)
Definition drop_slot (st : iq) (k : nat) : iq :=
  match slots st k with
  | None => st
  | Some u =>
      let st' := clear_dep u k st in
      Iq (fupd (slots st) k None) (count st - 1) (wm1 st') (wm2 st')
  end.

(** comb_wakeup, l.219-263, one wakeup port. *)
Definition wake_one (st : iq) (p : nat) : iq :=
  if p <? PRF_NUM then
    Iq (fun k => match slots st k with
                 | None => None
                 | Some u =>
                     let u1 := if wm1 st p k && u_s1en u && u_s1busy u && (u_s1 u =? p) then set_busy1 u false else u in
                     Some (if wm2 st p k && u_s2en u1 && u_s2busy u1 && (u_s2 u1 =? p) then set_busy2 u1 false else u1)
                 end)
       (count st)
       (fun x y => if x =? p then false else wm1 st x y)
       (fun x y => if x =? p then false else wm2 st x y)
  else st.

(** Isu::apply_wakeup_to_uop, Isu.cpp:14-27 *)
Definition apply_wakes (ws : list nat) (u : uop) : uop :=
  fold_left (fun u p =>
    let u1 := if u_s1en u && (u_s1 u =? p) then set_busy1 u false else u in
    if u_s2en u1 && (u_s2 u1 =? p) then set_busy2 u1 false else u1) ws u.
(** enqueue, IssueQueue.h:303-318: first free slot; nothing when full. *)
Definition enqueue (c : cfg) (st : iq) (u : uop) : iq :=
  if c_size c <=? count st then st
  else
    match find (fun k => match slots st k with None => true | Some _ => false end) (seq 0 (c_size c)) with
    | None => st
    | Some k => let st' := set_dep u k st in Iq (fupd (slots st) k (Some u)) (count st + 1) (wm1 st') (wm2 st')
    end.

(** comb_flush, l.289-299, with flush_br l.320-333, clear_br l.336-343 and
    flush_all l.345-353. *)
Definition flush_br (c : cfg) (m : Z) (st : iq) : iq :=
  fold_left (fun st k => match slots st k with
                         | Some u => if nz (Z.land (u_mask u) m) then drop_slot st k else st
                         | None => st end) (seq 0 (c_size c)) st.
Definition clear_br (c : cfg) (m : Z) (st : iq) : iq :=
  Iq (fun k => if k <? c_size c then match slots st k with Some u => Some (set_mask u (Z.ldiff (u_mask u) m)) | None => None end
               else slots st k) (count st) (wm1 st) (wm2 st).
Definition comb_flush (c : cfg) (i : iq_in) (st : iq) : iq :=
  let st1 := if i_flush_all i then iq_init
             else if i_flush_br i then flush_br c (i_br_mask i) st else st in
  if nz (i_clear i) then clear_br c (i_clear i) st1 else st1.

(** One cycle. *)
Definition after_issue (c : cfg) (st : iq) (i : iq_in) : iq := fold_left drop_slot (map fst (granted c st i)) st.
Definition before_flush (c : cfg) (st : iq) (i : iq_in) : iq :=
  let st1 := after_issue c st i in
  let st2 := fold_left wake_one (i_wake i) st1 in
  fold_left (enqueue c) (map (apply_wakes (i_wake i)) (i_enq i)) st2.
Definition iq_step (c : cfg) (st : iq) (i : iq_in) : iq := comb_flush c i (before_flush c st i).

(** free_slots reported to Dispatch at the start of the cycle, l.193-200. *)
Definition free_slots (c : cfg) (st : iq) : nat := c_size c - count st.
