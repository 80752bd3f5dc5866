(** Register renaming: back-end/Ren.cpp, one definition per comb_* function.
    Physical and architectural register numbers, ring pointers and branch tags
    are [nat]; register alias tables and the free list are total functions of
    the index with point update (the C++ arrays are indexed in range whenever
    the indices are, which [RenProofs.v] shows).  Decode and commit bundles are
    lists, so the model covers every DECODE_WIDTH / COMMIT_WIDTH.
    Not modelled: performance counters, logging, difftest calls, and the fields
    that Ren only copies from its input to its output.  Assert is compiled out
    in release builds, so it is not modelled as stopping the program. *)
From Verif Require Import Base.
Local Open Scope nat_scope.

(** include/config.h: PRF_NUM = 64, ARF_NUM = 32, MAX_BR_NUM = 16. *)
Definition PRF_NUM : nat := 64.
Definition RAT_NUM : nat := 33.            (* ARF_NUM + 1 *)
Definition MAX_BR_NUM : nat := 16.
Definition POOL : nat := 31.               (* PRF_NUM - (ARF_NUM + 1), Ren.cpp:22 *)

(** LOOP_INC (util.h): increment with wrap-around at [PRF_NUM]. *)
Definition loop_inc (x : nat) : nat := if x + 1 =? PRF_NUM then 0 else x + 1.

(** ring_distance, Ren.cpp:12-18. *)
Definition ring_distance (from to : nat) : nat :=
  if to <? from then to + PRF_NUM - from else to - from.

(** The fields of DecRenIO::DecRenInst that Ren looks at, with the valid bit of
    its slot (inst_valid[i] / in.dec2ren->valid[i]). *)
Record dslot := DSlot {
  s_valid : bool; s_dest_en : bool; s_dest : nat; s_src1 : nat; s_src2 : nat;
  s_branch : bool;                           (* is_branch(inst_r[i].type) *)
  s_tag : nat                                (* inst_r[i].br_id *)
}.

(** The renamed operands driven on ren2dis. *)
Record renamed := Renamed {
  r_valid : bool; r_dest_en : bool; r_dest : nat;
  r_src1 : nat; r_src2 : nat; r_old : nat; r_preg : nat;
  r_branch : bool; r_tag : nat
}.

(** One entry of in.rob_commit; [c_exc] is is_exception(uop) (util.h:222-225). *)
Record centry := CEntry {
  c_valid : bool; c_dest_en : bool; c_dest : nat; c_preg : nat; c_old : nat; c_exc : bool
}.

(** Ren.h: registers of the module. *)
Record ren := Ren {
  inst : list dslot;                         (* inst_r, inst_valid *)
  spec_rat : nat -> nat;
  arch_rat : nat -> nat;
  ckpt : nat -> nat -> nat;                  (* RAT_checkpoint[tag][areg] *)
  free_list : nat -> nat;
  free_head : nat;
  free_head_commit : nat;
  free_tail : nat;
  ckpt_head : nat -> nat                     (* alloc_checkpoint_head *)
}.

(** Inputs of one cycle. *)
Record ren_in := RenIn {
  i_dec : list dslot;                        (* in.dec2ren *)
  i_ready : bool;                            (* in.dis2ren->ready *)
  i_commit : list centry;                    (* in.rob_commit *)
  i_interrupt : bool;                        (* in.rob_bcast->interrupt *)
  i_flush : bool;                            (* in.rob_bcast->flush *)
  i_mispred : option nat                     (* in.dec_bcast->mispred / br_id *)
}.

(** Ren::init, Ren.cpp:37-71.  RAT_checkpoint is zero-initialised storage. *)
Definition ren_init : ren :=
  Ren [] (fun i => i) (fun i => i) (fun _ _ => 0)
      (fun k => if k <? POOL then k + RAT_NUM else 0) 0 0 POOL (fun _ => 0).

(** Ren::comb_alloc, Ren.cpp:105-115: walk the slots, taking the next free
    register for each one that writes a register while any is left. *)
Fixpoint alloc_loop (fl : nat -> nat) (head count : nat) (l : list dslot)
  : list (nat * bool) :=
  match l with
  | [] => []
  | s :: l' =>
      if s_valid s && s_dest_en s && (0 <? count)
      then (fl head, true) :: alloc_loop fl (loop_inc head) (count - 1) l'
      else (0, false) :: alloc_loop fl head count l'
  end.
Definition comb_alloc (st : ren) : list (nat * bool) :=
  alloc_loop (free_list st) (free_head st)
             (ring_distance (free_head st) (free_tail st)) (inst st).

(** Ren.cpp:119-129: out.ren2dis->valid with the running [stall]. *)
Fixpoint valid_loop (stall : bool) (l : list dslot) (a : list (nat * bool)) : list bool :=
  match l, a with
  | s :: l', (_, av) :: a' =>
      if s_valid s && s_dest_en s && negb stall
      then av :: valid_loop (negb av) l' a'
      else if s_valid s && negb (s_dest_en s)
           then negb stall :: valid_loop stall l' a'
           else false :: valid_loop stall l' a'
  | _, _ => []
  end.
Definition ren_valid (st : ren) : list bool := valid_loop false (inst st) (comb_alloc st).

(** Ren.cpp:178-221: value for architectural register [a] seen by a slot, from
    the speculative table overridden by the same-cycle earlier slots [prev]
    (oldest first; the last match wins, Ren.cpp:177). *)
Definition bypass (rat : nat -> nat) (prev : list (dslot * nat)) (a : nat) : nat :=
  fold_left (fun v (p : dslot * nat) =>
    let (s, preg) := p in
    if negb (s_valid s) || negb (s_dest_en s) then v
    else if s_dest s =? 0 then v
    else if a =? s_dest s then preg else v) prev (rat a).

(** Ren::comb_rename, Ren.cpp:145-223. *)
Fixpoint rename_loop (rat : nat -> nat) (prev : list (dslot * nat))
    (l : list dslot) (a : list (nat * bool)) (v : list bool) : list renamed :=
  match l, a, v with
  | s :: l', (preg, _) :: a', vi :: v' =>
      Renamed vi (s_dest_en s) (s_dest s)
              (bypass rat prev (s_src1 s)) (bypass rat prev (s_src2 s))
              (bypass rat prev (s_dest s)) preg (s_branch s) (s_tag s)
      :: rename_loop rat (prev ++ [(s, preg)]) l' a' v'
  | _, _, _ => []
  end.
Definition comb_rename (st : ren) : list renamed :=
  rename_loop (spec_rat st) [] (inst st) (comb_alloc st) (ren_valid st).

(** Ren.cpp:233-235: fire[i]. *)
Definition fires (rdy : bool) (r : renamed) : bool := r_valid r && rdy.

(** Ren.cpp:237-258: the *_1 copies updated by the firing slots. *)
Record fire_acc := FireAcc {
  fa_rat : nat -> nat; fa_head : nat; fa_ckpt : nat -> nat -> nat; fa_ckh : nat -> nat
}.
Definition fire_one (rdy : bool) (acc : fire_acc) (r : renamed) : fire_acc :=
  let acc1 :=
    if fires rdy r && r_dest_en r
    then FireAcc (fupd (fa_rat acc) (r_dest r) (r_preg r)) (loop_inc (fa_head acc))
                 (fa_ckpt acc) (fa_ckh acc)
    else acc in
  if fires rdy r && r_branch r
  then FireAcc (fa_rat acc1) (fa_head acc1)
               (fupd (fa_ckpt acc1) (r_tag r) (fa_rat acc1))
               (fupd (fa_ckh acc1) (r_tag r) (fa_head acc1))
  else acc1.
Definition fire_loop (st : ren) (rdy : bool) : fire_acc :=
  fold_left (fire_one rdy) (comb_rename st)
    (FireAcc (spec_rat st) (free_head st) (ckpt st) (ckpt_head st)).

(** Ren.cpp:269-322: retirement. *)
Record com_acc := ComAcc {
  ca_arch : nat -> nat; ca_fl : nat -> nat; ca_tail : nat; ca_hc : nat
}.
Definition commit_one (intr : bool) (acc : com_acc) (c : centry) : com_acc :=
  if c_valid c && c_dest_en c && negb (c_exc c) && negb intr
  then ComAcc (fupd (ca_arch acc) (c_dest c) (c_preg c))
              (fupd (ca_fl acc) (ca_tail acc) (c_old c))
              (loop_inc (ca_tail acc)) (loop_inc (ca_hc acc))
  else acc.
Definition commit_loop (st : ren) (i : ren_in) : com_acc :=
  fold_left (commit_one (i_interrupt i)) (i_commit i)
    (ComAcc (arch_rat st) (free_list st) (free_tail st) (free_head_commit st)).

(** Ren.cpp:260-266: ren2dec.ready. *)
Definition ren_ready (st : ren) (i : ren_in) : bool :=
  forallb (fun p : dslot * renamed => fires (i_ready i) (snd p) || negb (s_valid (fst p)))
          (combine (inst st) (comb_rename st))
  && negb (i_flush i || match i_mispred i with Some _ => true | None => false end).

(** Ren::comb_pipeline, Ren.cpp:353-397 (br_mask is only carried, not used here). *)
Definition set_valid (s : dslot) (b : bool) : dslot :=
  DSlot b (s_dest_en s) (s_dest s) (s_src1 s) (s_src2 s) (s_branch s) (s_tag s).
Definition comb_pipeline (st : ren) (i : ren_in) : list dslot :=
  if i_flush i || match i_mispred i with Some _ => true | None => false end
  then map (fun s => set_valid s false) (inst st)
  else if ren_ready st i then i_dec i
  else map (fun p : dslot * renamed =>
              set_valid (fst p) (s_valid (fst p) && negb (fires (i_ready i) (snd p))))
           (combine (inst st) (comb_rename st)).

(** Ren::comb_fire, Ren.cpp:232-344, with comb_pipeline and seq (399-415):
    one cycle of the module. *)
Definition ren_step (st : ren) (i : ren_in) : ren :=
  let f := fire_loop st (i_ready i) in
  let c := commit_loop st i in
  let p := comb_pipeline st i in
  if i_flush i then
    Ren p (ca_arch c) (ca_arch c) (fa_ckpt f) (ca_fl c) (ca_hc c) (ca_hc c)
        (ca_tail c) (fa_ckh f)
  else match i_mispred i with
  | Some t =>
    Ren p (ckpt st t) (ca_arch c) (fa_ckpt f) (ca_fl c) (ckpt_head st t) (ca_hc c)
        (free_tail st) (fa_ckh f)
  | None =>
    Ren p (fa_rat f) (ca_arch c) (fa_ckpt f) (ca_fl c) (fa_head f) (ca_hc c)
        (ca_tail c) (fa_ckh f)
  end.

(** What leaves for Dispatch this cycle. *)
Definition ren_out (st : ren) (i : ren_in) : list renamed :=
  filter (fires (i_ready i)) (comb_rename st).
