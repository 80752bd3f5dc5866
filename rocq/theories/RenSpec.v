(** Specification side of C01/C02: the instructions in flight as a plain list,
    the traffic the rest of the back end sends to Ren, and what renaming must
    mean in terms of that list alone. *)
From Verif Require Import Base RenModel.
Local Open Scope nat_scope.

(** An instruction that left Ren and is neither committed nor squashed.
    [g_src1]/[g_src2] pair the architectural source with the physical register
    Ren chose for it; [g_tag] is the tag of a branch not resolved yet. *)
Record gentry := GEntry {
  g_en : bool; g_dest : nat; g_preg : nat; g_old : nat; g_src1 : nat * nat; g_src2 : nat * nat;
  g_tag : option nat
}.

(** The physical register that holds the newest value of [a] for a reader that
    follows [l] in program order: last writer in [l], else the committed one. *)
Fixpoint newest (arch : nat -> nat) (l : list gentry) (a : nat) : nat :=
  match l with
  | [] => arch a
  | e :: l' => newest (fun x => if g_en e && (x =? g_dest e) then g_preg e else arch x) l' a
  end.

(** Physical registers taken by the instructions in flight. *)
Fixpoint taken (l : list gentry) : list nat :=
  match l with
  | [] => []
  | e :: l' => if g_en e then g_preg e :: taken l' else taken l'
  end.

(** Registers Ren considers free: free_list[free_head .. free_tail). *)
Definition free_regs (st : ren) : list nat :=
  map (fun k => free_list st ((free_head st + k) mod PRF_NUM))
      (seq 0 (ring_distance (free_head st) (free_tail st))).

Definition tags (l : list gentry) : list nat :=
  flat_map (fun e => match g_tag e with Some t => [t] | None => [] end) l.

Definition untag (clear : nat -> bool) (e : gentry) : gentry :=
  match g_tag e with
  | Some t => if clear t
              then GEntry (g_en e) (g_dest e) (g_preg e) (g_old e) (g_src1 e) (g_src2 e) None
              else e
  | None => e
  end.

(** Keep everything up to and including the unresolved branch with tag [t]. *)
Fixpoint upto_tag (t : nat) (l : list gentry) : list gentry :=
  match l with
  | [] => []
  | e :: l' => match g_tag e with
               | Some u => if u =? t then [e] else e :: upto_tag t l'
               | None => e :: upto_tag t l'
               end
  end.

(** How an instruction that leaves Ren enters the list: [s] is the decoded slot. *)
Definition enters (r : renamed) (s : dslot) : gentry :=
  GEntry (r_dest_en r) (r_dest r) (r_preg r) (r_old r)
         (s_src1 s, r_src1 r) (s_src2 s, r_src2 r)
         (if r_branch r then Some (r_tag r) else None).
Definition leaving (st : ren) (i : ren_in) : list gentry :=
  map (fun p : dslot * renamed => enters (snd p) (fst p))
      (filter (fun p : dslot * renamed => fires (i_ready i) (snd p))
              (combine (inst st) (comb_rename st))).

(** The decoded slots that leave Ren this cycle. *)
Definition left_slots (st : ren) (i : ren_in) : list dslot :=
  map fst (filter (fun p : dslot * renamed => fires (i_ready i) (snd p))
                  (combine (inst st) (comb_rename st))).

(** A commit record that reports the retirement of [e]. *)
Definition reports (c : centry) (e : gentry) : Prop :=
  c_dest_en c = g_en e /\
  (g_en e = true -> c_dest c = g_dest e /\ c_preg c = g_preg e /\ c_old c = g_old e).

(** Well-formed decoded slot: a register-writing slot writes x1..x31 or the
    internal register 32 (Idu::decode clears dest_en for rd = 0). *)
Definition slot_ok (s : dslot) : Prop :=
  s_valid s = true -> s_dest_en s = true -> 1 <= s_dest s < RAT_NUM.

(** The traffic in one cycle, given the list [g] in flight: commits report a
    prefix [done] of [g] in order, or an instruction that traps instead of
    retiring and everything is flushed; [clear] is the set of tags resolved in this cycle; a
    branch leaving Ren carries a tag below MAX_BR_NUM that no unresolved branch
    has; a misprediction names an unresolved branch and no commit or flush
    happens in that cycle (Rob.cpp:218,274). *)
Definition committing (i : ren_in) : list centry := filter c_valid (i_commit i).

Definition traffic_ok (st : ren) (g : list gentry) (i : ren_in)
    (done : list gentry) (clear : nat -> bool) : Prop :=
  (exists rest, g = done ++ rest) /\
  ((i_interrupt i = false /\ Forall (fun c => c_exc c = false) (committing i) /\
    Forall2 reports (committing i) done)
   \/ (done = [] /\ i_flush i = true /\
       Forall (fun c => c_exc c = true \/ i_interrupt i = true) (committing i))) /\
  Forall slot_ok (i_dec i) /\
  (NoDup (tags (map (untag clear) g) ++ tags (leaving st i)) /\
   Forall (fun t => t < MAX_BR_NUM) (tags (leaving st i))) /\
  match i_mispred i with
  | Some t => In t (tags g) /\ committing i = [] /\ i_flush i = false
  | None => True
  end.

(** The abstract step: retire a prefix, squash, append what left Ren. *)
Definition g_step (g : list gentry) (i : ren_in) (new done : list gentry)
    (clear : nat -> bool) : list gentry :=
  if i_flush i then []
  else match i_mispred i with
  | Some t => map (untag (fun u => clear u || (u =? t))) (upto_tag t g)
  | None => map (untag clear) (skipn (length done) g) ++ new
  end.

(** Reachable pairs of module state and in-flight list. *)
Inductive reach : ren -> list gentry -> Prop :=
| reach_init : reach ren_init []
| reach_step : forall st g i done clear,
    reach st g -> traffic_ok st g i done clear ->
    reach (ren_step st i) (g_step g i (leaving st i) done clear).
