(** What the branch prediction unit must keep and answer, over lists of committed
    and predicted branches, without its registers and queues. *)
From Verif Require Import Base IsaSpec FrontModel BpModel.
Local Open Scope nat_scope.

(** ** Executions.  The newest cycle comes first. *)
Definition trace := list (bin * bout).
(** Addresses on the inputs are 32-bit words. *)
Definition word (a : Z) : Prop := (0 <= a < M32)%Z.
Definition bin_ok (x : bin) : Prop :=
  word (bi_addr x) /\ (forall b a, bi_btb x b = Some a -> word a) /\
  (forall i u, bi_upd x i = Some u -> word (u_pc u)).
Inductive breach : trace -> bst -> Prop :=
| br_init : breach [] bst0
| br_step : forall t s x s' o, breach t s -> bin_ok x -> bcycle s x = Some (s', o) -> breach ((x, o) :: t) s'.

(** Instructions committed in a cycle, and so far, in program order. *)
Definition commits (x : bin) : list upd :=
  flat_map (fun i => match bi_upd x i with Some u => [u] | None => [] end) [0; 1].
Fixpoint committed (t : trace) : list upd :=
  match t with [] => [] | c :: t' => committed t' ++ commits (fst c) end.

Definition is_cond (u : upd) : bool := Z.eqb (u_type u) 0.
Definition branch_of (u : upd) : Z * bool := (u_pc u, u_dir u).
(** Committed conditional branches, the latest first. *)
Definition arch_br (t : trace) : list (Z * bool) := rev (map branch_of (filter is_cond (committed t))).

(** ** Fetch blocks: four instructions of one 64-byte line; a block that reaches
    the top of the address space gets no prediction. *)
Definition in_block (pc : Z) (i : nat) : bool :=
  Z.eqb ((pc + 4 * Z.of_nat i) / 64)%Z (pc / 64)%Z && Z.ltb (pc + 16)%Z M32 && (i <? 4).
Definition pc_of (pc : Z) (i : nat) : Z := ((pc + 4 * Z.of_nat i) mod M32)%Z.

(** Conditional branches a prediction runs over, in program order: those of the
    block up to the first slot predicted taken. *)
Fixpoint guessed (pc : Z) (ty : nat -> Z) (dir : nat -> bool) (n i : nat) : list (Z * bool) :=
  match n with
  | O => []
  | S n' =>
      if in_block pc i then
        (if Z.eqb (ty i) 0 then [(pc_of pc i, dir i)] else []) ++
        (if dir i then [] else guessed pc ty dir n' (S i))
      else guessed pc ty dir n' (S i)
  end.
(** The first slot predicted taken. *)
Fixpoint first_taken (pc : Z) (dir : nat -> bool) (n i : nat) : option nat :=
  match n with
  | O => None
  | S n' => if in_block pc i && dir i then Some i else first_taken pc dir n' (S i)
  end.

(** ** The speculative history: a redirection sets it to the committed one; a
    committed branch that was predicted wrongly sets it to the committed history
    ending with that branch; a prediction extends it. *)
Fixpoint resync (us : list upd) (arch spec : list (Z * bool)) : list (Z * bool) :=
  match us with
  | [] => spec
  | u :: us' =>
      if is_cond u then resync us' (branch_of u :: arch) (if Bool.eqb (u_pdir u) (u_dir u) then spec else branch_of u :: arch)
      else resync us' arch spec
  end.
Fixpoint spec_br (t : trace) : list (Z * bool) :=
  match t with
  | [] => []
  | (x, o) :: t' =>
      if bi_refetch x then arch_br t
      else resync (commits x) (arch_br t')
             (rev (if bo_ptab o then guessed (bo_pc o) (bi_type x) (bo_dir o) 4 0 else []) ++ spec_br t')
  end.

(** A register holds the last 512 directions of a history. *)
Definition holds_dirs (g : nat -> bool) (l : list (Z * bool)) : Prop :=
  forall i, i < 512 -> g i = nth i (map snd l) false.

(** Folding the last [n] directions into [len] bits: bit [b] is the parity of the
    taken branches whose age is [b] modulo [len]. *)
Fixpoint fold_bit (len n : nat) (l : list (Z * bool)) (b : nat) : bool :=
  match n with
  | O => false
  | S m => xorb (fold_bit len m l b) (nth m (map snd l) false && (m mod len =? b))
  end.
Definition is_fold (len n : nat) (l : list (Z * bool)) (v : Z) : Prop :=
  (0 <= v < 2 ^ Z.of_nat len)%Z /\
  forall b, b < len -> Z.testbit v (Z.of_nat b) = fold_bit len n l b.
(** The twelve folds of the unit: history length and width. *)
Definition folds : list (nat * nat * nat * nat) :=   (* register k, table i, length, width *)
  [(0, 0, 8, 8); (0, 1, 13, 11); (0, 2, 32, 11); (0, 3, 119, 11);
   (1, 0, 8, 8); (1, 1, 13, 8); (1, 2, 32, 8); (1, 3, 119, 8);
   (2, 0, 8, 7); (2, 1, 13, 7); (2, 2, 32, 7); (2, 3, 119, 7)].

(** ** Return addresses: a stack of sixteen that forgets its oldest entry. *)
Definition sk_push (v : Z) (l : list Z) : list Z := firstn 16 (v :: l).
Definition ret_addr (pc : Z) : Z := ((pc + 4) mod M32)%Z.
Definition sk_event (ty pc : Z) (l : list Z) : list Z :=
  if Z.eqb ty 1 then sk_push (ret_addr pc) l else if Z.eqb ty 2 then tl l else l.
Fixpoint arch_sk (t : trace) : list Z :=
  match t with
  | [] => []
  | c :: t' => fold_left (fun l u => sk_event (u_type u) (u_pc u) l) (commits (fst c)) (arch_sk t')
  end.
Fixpoint spec_sk (t : trace) : list Z :=
  match t with
  | [] => []
  | (x, o) :: t' =>
      if bi_refetch x then arch_sk t
      else if bo_ptab o then
        match first_taken (bo_pc o) (bo_dir o) 4 0 with
        | Some i => sk_event (bi_type x i) (pc_of (bo_pc o) i) (spec_sk t')
        | None => spec_sk t'
        end
      else spec_sk t'
  end.
(** What a stack register shows: its entries, the latest first. *)
Definition shows (r : ras) (l : list Z) : Prop :=
  r_cnt r = length l /\ forall i, i < r_cnt r -> r_st r (r_cnt r - 1 - i) = nth i l 0%Z.

(** The return addresses of the calls in progress, without a bound. *)
Definition call_stack (us : list upd) : list Z :=
  fold_left (fun l u => if Z.eqb (u_type u) 1 then ret_addr (u_pc u) :: l
                        else if Z.eqb (u_type u) 2 then tl l else l) us [].
(** The deepest nesting on the way. *)
Fixpoint shallow (us : list upd) (l : list Z) : Prop :=
  length l <= 16 /\
  match us with
  | [] => True
  | u :: us' => shallow us' (if Z.eqb (u_type u) 1 then ret_addr (u_pc u) :: l
                             else if Z.eqb (u_type u) 2 then tl l else l)
  end.

(** ** The next fetch address *)
(** Which slots jump: calls, returns, jumps always; a conditional branch when the
    direction predictor of its bank says so. *)
Definition jumps (ty : Z) (dir : bool) : bool :=
  if Z.eqb ty 4 then false
  else if Z.eqb ty 1 || Z.eqb ty 2 || Z.eqb ty 3 || Z.eqb ty 5 then true else dir.
Definition target (ty : Z) (top : option Z) (btb : Z) : Z :=
  if Z.eqb ty 2 then match top with Some a => a | None => btb end else btb.
Definition bank_of (pc : Z) : nat := Z.to_nat ((pc / 4) mod 4)%Z.

(** ** Training: what a bank has been trained with, oldest first. *)
Fixpoint trained (b : nat) (t : trace) : list upd :=
  match t with
  | [] => []
  | (_, o) :: t' => trained b t' ++ match bo_btb o b with Some u => [u] | None => [] end
  end.
Fixpoint trained_dir (b : nat) (t : trace) : list upd :=
  match t with
  | [] => []
  | (_, o) :: t' => trained_dir b t' ++ match bo_tage o b with Some u => [u] | None => [] end
  end.
Definition of_bank (b : nat) (u : upd) : bool := bank_of (u_pc u) =? b.

(** The ROB's side of the stall: at most one commit in the cycle after the unit
    reported a full queue. *)
Definition heeds (t : trace) (x : bin) : Prop :=
  match t with (_, o) :: _ => bo_full o = true -> length (commits x) <= 1 | [] => True end.
Inductive sreach : trace -> bst -> Prop :=
| sr_init : sreach [] bst0
| sr_step : forall t s x s' o, sreach t s -> bin_ok x -> heeds t x -> bcycle s x = Some (s', o) -> sreach ((x, o) :: t) s'.
