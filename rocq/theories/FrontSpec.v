(** What the fetch side of the front end must do, stated without its queues:
    which instructions steer fetch, where a fetch block ends, and which sequences
    of blocks may reach the back end. *)
From Verif Require Import Base IsaSpec FrontModel.
Local Open Scope Z_scope.

(** ** Where fetch goes after a block *)

(** The instructions that steer fetch, by major opcode. *)
Inductive steer := SNone | SJump (t : Z) | SBranch (t : Z) | SIndirect.
Definition steering (inst pc : Z) : steer :=
  if inst mod 128 =? 111 then SJump ((pc + isa_immJ inst) mod M32)
  else if inst mod 128 =? 99 then SBranch ((pc + isa_immB inst) mod M32)
  else if inst mod 128 =? 103 then SIndirect
  else SNone.

(** A block starting at [pc] ends after four instructions or at the end of its
    64-byte line, whichever comes first. *)
Definition block_end (pc : Z) : Z := Z.min (pc + 16) ((pc / 64 + 1) * 64) mod M32.

(** The next fetch address of a block: the first slot that jumps decides;
    [dir] says which conditional branches are taken, [guess] is the predictor's
    address (the only source for an indirect jump). *)
Fixpoint walk (n i : nat) (inst : nat -> Z) (valid : nat -> bool) (pcs : nat -> Z) (dir : nat -> bool)
         (fall guess : Z) : Z :=
  match n with
  | O => fall
  | S n' =>
      let rest := walk n' (S i) inst valid pcs dir fall guess in
      if valid i then
        match steering (inst i) (pcs i) with
        | SNone => rest
        | SJump t => t
        | SBranch t => if dir i then t else rest
        | SIndirect => guess
        end
      else rest
  end.

(** Directions handed to the back end: never taken where nothing steers, always
    taken on an unconditional jump, the predictor's word on a branch. *)
Definition dir_ok (inst pc : Z) (valid : bool) (predicted : bool) : bool :=
  if valid then
    match steering inst pc with SNone => false | SBranch _ => predicted | _ => true end
  else false.

(** ** Sequences of blocks *)

Inductive ev := EvReset | EvRedirect (a : Z) | EvGroup (g : bentry).
(** Each block starts where the previous one said, after a redirection at its
    address, after reset at the reset address. *)
Fixpoint follows (a : Z) (t : list ev) : Prop :=
  match t with
  | [] => True
  | EvReset :: t' => follows 0 t'
  | EvRedirect b :: t' => follows b t'
  | EvGroup g :: t' => (forall i, (i < 4)%nat -> be_pc g i = (a + 4 * Z.of_nat i) mod M32) /\ follows (be_next g) t'
  end.

(** What a cycle shows to the back end. *)
Definition event (c : fcin) (o : fcout) : list ev :=
  if c_reset c then [EvReset]
  else if c_refetch c then [EvRedirect (c_addr c)]
  else match co_group o with Some g => [EvGroup g] | None => [] end.

(** A block handed over is a fetched block combined with the prediction made for
    the same address. *)
Definition delivers (F : igroup -> Prop) (G : Z -> pred -> Prop) (g : bentry) : Prop :=
  exists (ig : igroup) (p : pred),
    F ig /\ G (ig_pc ig) p /\
    (forall i, (i < 4)%nat ->
       be_inst g i = ig_inst ig i /\ be_pf g i = ig_pf ig i /\ be_valid g i = ig_valid ig i /\
       be_meta g i = pr_meta p i /\
       be_pc g i = (ig_pc ig + 4 * Z.of_nat i) mod M32 /\
       be_dir g i = dir_ok (ig_inst ig i) (be_pc g i) (ig_valid ig i) (pr_dir p i)) /\
    be_next g = walk 4 0 (ig_inst ig) (ig_valid ig) (be_pc g) (pr_dir p) (block_end (ig_pc ig)) (pr_next p).

(** ** Executions.
    The instruction cache's contract: it answers the requests made while it is
    ready, each at most once, in order, with a block for the requested address;
    a redirection cancels what is outstanding.  [F] and [G] are arbitrary facts
    about the blocks it returns and about the predictor's answers. *)
Record gstate := GS { gs : fstate; outst : list Z; trace : list ev }.
Definition qlist {A} (q : fst_ A) : list A := map (s_ent q) (List.seq 0 (s_size q)).
(** The request made in a cycle: the oldest queued fetch address. *)
Definition asked (s : fstate) (c : fcin) : list Z :=
  if re_fa s c then firstn 1 (qlist (fs_fa s)) else [].

Definition fenv (F : igroup -> Prop) (G : Z -> pred -> Prop) (s : fstate) (o : list Z) (c : fcin) (o' : list Z) : Prop :=
  0 <= c_addr c < M32 /\
  0 <= pr_next (c_pred c) < M32 /\
  G (bpu_pc s c) (c_pred c) /\
  (forall g, c_resp c = Some g -> F g) /\
  (if g_reset c || g_refetch s c then o' = []
   else match c_resp c with
        | Some g => (forall i, 0 <= ig_inst g i < M32) /\ o ++ asked s c = ig_pc g :: o'
        | None => o' = o ++ asked s c
        end).

Inductive freach (F : igroup -> Prop) (G : Z -> pred -> Prop) : gstate -> Prop :=
| fr_init : freach F G (GS fs_init [] [])
| fr_step g c o' s' out :
    freach F G g -> fenv F G (gs g) (outst g) c o' ->
    fcycle (gs g) c = Some (s', out) ->
    freach F G (GS s' o' (trace g ++ event c out)).
