(** One execution port with its functional units: back-end/Exu/Exu.cpp
    (comb_exec, comb_ready, comb_pipeline, seq) and
    back-end/Exu/include/AbstractFU.h.
    Units of different ports share nothing, so a port is modelled alone.  An
    instruction keeps its ghost number [e_id], its branch mask, the function
    code the latency depends on and a payload; the arithmetic of impl_compute
    is in ExecModel.v. *)
From Verif Require Import Base.
Local Open Scope nat_scope.

Record einst := Einst { e_id : nat; e_op : nat; e_mask : Z; e_fn : Z; e_pay : Z }.
Definition with_mask (u : einst) (m : Z) : einst := Einst (e_id u) (e_op u) m (e_fn u) (e_pay u).

(** SingleCycleFU l.42-67, FixedLatencyFU l.70-165, IterativeFU l.167-243.
    [KIter]'s argument is calculate_latency. *)
Inductive kind := KSingle | KFixed (L : nat) | KIter (lat : Z -> nat).
Inductive ust := USingle | UFixed (pipe : list (einst * nat)) | UIter (cur : option (einst * nat)).
Record fu := Fu { f_kind : kind; f_ops : nat -> bool; f_slot : option einst; f_unit : ust }.

Record ctl := Ctl {
  c_now : nat;              (* sim_time *)
  c_flush : bool;           (* rob_bcast->flush *)
  c_mispred : bool; c_brmask : Z; c_clear : Z   (* dec_bcast *)
}.
(** is_br_killed, Exu.cpp:5-9 *)
Definition br_killed (c : ctl) (u : einst) : bool := c_mispred c && nz (Z.land (e_mask u) (c_brmask c)).
Definition clr (c : ctl) (u : einst) : einst := with_mask u (Z.ldiff (e_mask u) (c_clear c)).
(** comb_fu_ctrl, Exu.cpp:344-360: the flush mask is a 16-bit unsigned. *)
Definition flush_mask (c : ctl) : Z := if c_flush c then 65535%Z else if c_mispred c then c_brmask c else 0%Z.
Definition fu_flush (c : ctl) : bool := c_flush c || c_mispred c.
(** [in.flush_mask == ~wire<BR_MASK_WIDTH>(0)], AbstractFU.h:119,195.  wire<16>
    is uint16_t: both operands are promoted to int, the right one to ~0 = -1. *)
Definition is_flush_all (m : Z) : bool := (m =? -1)%Z.

(** comb_ctrl *)
Definition ctrl (c : ctl) (s : ust) : ust :=
  match s with
  | USingle => USingle
  | UFixed p =>
      let p1 := if fu_flush c then
                  if is_flush_all (flush_mask c) then []
                  else filter (fun e => negb (nz (Z.land (e_mask (fst e)) (flush_mask c)))) p
                else p in
      UFixed (map (fun e => (clr c (fst e), snd e)) p1)
  | UIter o =>
      let o1 := match o with
                | Some (u, d) => if fu_flush c && (is_flush_all (flush_mask c) || nz (Z.land (e_mask u) (flush_mask c)))
                                 then None else Some (u, d)
                | None => None end in
      UIter (match o1 with Some (u, d) => Some (clr c u, d) | None => None end)
  end.
(** comb_issue: next unit state and the completed instruction. *)
Definition limit (L : nat) : nat := if L =? 0 then 1 else L.
Definition front_done (now : nat) (p : list (einst * nat)) : option einst :=
  match p with (u, d) :: _ => if d <=? now then Some u else None | [] => None end.
Definition iter_done (now : nat) (o : option (einst * nat)) : option einst :=
  match o with Some (u, d) => if d <=? now then Some u else None | None => None end.
Definition issue (k : kind) (now : nat) (en : option einst) (s : ust) : ust * option einst :=
  match k, s with
  | KFixed L, UFixed p =>
      let p1 := match en with
                | Some u => if length p <? limit L then p ++ [(u, now + L - 1)] else p
                | None => p end in
      (UFixed p1, front_done now p1)
  | KIter lat, UIter o =>
      let o1 := match en, o with Some u, None => Some (u, now + lat (e_fn u)) | _, _ => o end in
      (UIter o1, iter_done now o1)
  | _, _ => (s, en)
  end.
(** comb_consume: next unit state and ready. *)
Definition consume (k : kind) (now : nat) (en : bool) (win : bool) (s : ust) : ust * bool :=
  match k, s with
  | KFixed L, UFixed p =>
      let p1 := match p with
                | (u, d) :: p' => if win && (d <=? now) then p' else p
                | [] => [] end in
      (UFixed p1, length p1 <? limit L)
  | KIter _, UIter o =>
      let o1 := match o with Some (u, d) => if win && (d <=? now) then None else o | None => None end in
      (UIter o1, match o1 with None => true | Some _ => false end)
  | _, _ => (s, negb en || win)
  end.

Definition is_some {A} (o : option A) : bool := match o with Some _ => true | None => false end.
(** comb_exec stages 0-2 for one unit (comb_fu_ctrl, comb_exu2fu_dispatch
    l.369-390, comb_fu_exec): unit, completion, en. *)
Definition fu_a (c : ctl) (f : fu) : fu * option einst * bool :=
  let s1 := ctrl c (f_unit f) in
  let live := match f_slot f with Some u => negb (c_flush c || br_killed c u) | None => false end in
  let en := match f_slot f with Some u => if live then Some (clr c u) else None | None => None end in
  let '(s2, cm) := issue (f_kind f) (c_now c) en s1 in
  (Fu (f_kind f) (f_ops f) (if live then f_slot f else None) s2, cm, is_some en).
(** Stage 3 for one unit, l.500-511: consume, then release the input slot. *)
Definition fu_b (c : ctl) (win en : bool) (f : fu) : fu * bool :=
  let '(s1, rdy) := consume (f_kind f) (c_now c) en win (f_unit f) in
  (Fu (f_kind f) (f_ops f) (if rdy then None else f_slot f) s1, rdy).
(** Stage 3, l.441-455,497: the first unit with a completion wins the port. *)
Fixpoint collect (c : ctl) (l : list (fu * option einst * bool)) (taken : bool) : list (fu * bool) * option einst :=
  match l with
  | [] => ([], None)
  | (f, cm, en) :: l' =>
      let win := negb taken && is_some cm in
      let '(r, o) := collect c l' (taken || is_some cm) in
      (fu_b c win en f :: r, if win then cm else o)
  end.
Definition exec (c : ctl) (fs : list fu) : list (fu * bool) * option einst := collect c (map (fu_a c) fs) false.
(** The result bus of every unit, l.417-429 (bypass). *)
Definition bypass (c : ctl) (fs : list fu) : list (option einst) := map (fun f => snd (fst (fu_a c f))) fs.
(** comb_ready, l.209-232 *)
Definition fu_ready (c : ctl) (r : list (fu * bool)) (op : nat) : bool :=
  negb (c_flush c) && existsb (fun fr => f_ops (fst fr) op && (negb (is_some (f_slot (fst fr))) || snd fr)) r.
(** comb_pipeline, l.287-335 *)
Definition fu_c (c : ctl) (fr : fu * bool) : fu * bool :=
  let f := fst fr in
  (Fu (f_kind f) (f_ops f)
      (if c_flush c then None
       else match f_slot f with Some u => if br_killed c u then None else Some (clr c u) | None => None end)
      (f_unit f), snd fr).
Fixpoint insert (u : einst) (r : list (fu * bool)) : list (fu * bool) :=
  match r with
  | [] => []                                       (* Assert, l.331: no free input slot *)
  | (f, rdy) :: r' =>
      if f_ops f (e_op u) && (negb (is_some (f_slot f)) || rdy)
      then (Fu (f_kind f) (f_ops f) (Some u) (f_unit f), rdy) :: r'
      else (f, rdy) :: insert u r'
  end.
Definition pipeline (c : ctl) (iss : option einst) (r : list (fu * bool)) : list fu :=
  let r1 := map (fu_c c) r in
  map fst (match iss with
           | Some u => if c_flush c || br_killed c u then r1 else insert (clr c u) r1
           | None => r1 end).
(** One cycle; [iss] is what Isu issued to the port (prf2exe). *)
Definition port_step (c : ctl) (iss : option einst) (fs : list fu) : list fu := pipeline c iss (fst (exec c fs)).
Definition winner (c : ctl) (fs : list fu) : option einst := snd (exec c fs).
(** What reaches the reorder buffer, l.457-466 (loads and store addresses go
    through the load/store unit instead), and what is written back, l.484-489:
    the write-back has no flush check. *)
Definition to_rob (c : ctl) (fs : list fu) : option einst :=
  match winner c fs with
  | Some u => if c_flush c || br_killed c u then None else Some u
  | None => None end.
Definition to_prf (c : ctl) (fs : list fu) : option einst := winner c fs.

(** Initial units: Exu::init l.36-143. *)
Definition fu_init (k : kind) (ops : nat -> bool) : fu :=
  Fu k ops None (match k with KSingle => USingle | KFixed _ => UFixed [] | KIter _ => UIter None end).
(** Port 0 (MUL, ALU, CSR) and port 1 (DIV, ALU, FP) in push_back order;
    operation codes: 0 ALU class, 1 MUL, 2 DIV, 3 CSR, 4 FP, others single
    ports.  FP latency: FPU.h:248-269 on func7. *)
Definition fp_latency (fn : Z) : nat :=
  (if (Z.shiftr fn 2 =? 2)%Z then 3 else if (Z.shiftr fn 2 =? 3)%Z then 10
   else if ((Z.shiftr fn 2 =? 0) || (Z.shiftr fn 2 =? 1))%Z then 5
   else if ((fn =? 0x60) || (fn =? 0x68))%Z then 3 else if (fn =? 0x2C)%Z then 10 else 5).
Definition port0 : list fu := [fu_init (KFixed 2) (Nat.eqb 1); fu_init KSingle (Nat.eqb 0); fu_init KSingle (Nat.eqb 3)].
Definition port1 : list fu := [fu_init (KIter (fun _ => 18)) (Nat.eqb 2); fu_init KSingle (Nat.eqb 0); fu_init (KIter fp_latency) (Nat.eqb 4)].
Definition port_single (op : nat) : list fu := [fu_init KSingle (Nat.eqb op)].
