(** The supply of instructions: the fetch side of the front end (FrontModel), the
    hand-off of SimCpu::front_cycle (rv_simu_mmu_v2.cpp:1099-1182, CONFIG_BPU build) and the
    queue before decode (PreIduModel), joined as SimCpu::cycle joins them: the front
    end is stepped with the stall and redirection the back end showed a cycle earlier.
    The predictor bookkeeping stays opaque (C64 says which part front_cycle copies).
    Fields of the block in a cycle in which the front end delivers none are taken
    as zero: only the valid flags of such a block are looked at. *)
From Verif Require Import Base FrontModel PreIduModel.
Local Open Scope nat_scope.

(** l.1146-1174: the slots of a block up to and including the first valid one predicted taken *)
Fixpoint no_taken (b : bentry) (j : nat) : bool :=
  match j with O => true | S k => no_taken b k && negb (be_valid b k && be_dir b k) end.
Definition back_in (o : option bentry) : fetch :=
  match o with
  | Some b => Fetch (fun j => FSlot (no_taken b j && be_valid b j) (be_inst b j) (be_pc b j) (be_pf b j) (be_dir b j) (be_meta b j)) (be_next b)
  | None => Fetch (fun _ => FSlot false 0 0 false false 0) 0
  end.

(** back.in, and from back.out of the last cycle: stall; redirect_pc when mispred or flush;
    rob_bcast.flush, which comb_accept_front still reads a cycle later. *)
Record sup := Sup { u_front : fstate; u_in : fetch; u_stall : bool; u_redir : option Z; u_flush : bool; u_pre : preq }.
Record sin := SIn {
  n_ready : bool; n_resp : option igroup; n_pred : pred;                   (* instruction cache, predictor *)
  n_flush : bool; n_mispred : bool; n_idx : nat; n_pc : Z;                 (* flush, br_latch.mispred, its ftq_idx, redirect_pc *)
  n_consume : list bool; n_commit : list (option centry) }.
(** start with or without SimCpu::restore_pc (l.1001-1015) *)
Definition sup_init (o : option Z) : sup := Sup fs_init (back_in None) false o false preq_init.

Section STEP.
  Variables (s : sup) (n : sin).
  Definition redir : bool := match u_redir s with Some _ => true | None => false end.
  (** l.1118: the branch of front_cycle that reads the front end's queue *)
  Definition pulls : bool := negb (u_stall s) || redir.
  Definition fc : fcin :=
    FIn false redir (match u_redir s with Some a => a | None => 0%Z end) pulls (n_ready n) (n_resp n) (n_pred n).
  Definition offered (o : fcout) : fetch := if pulls then back_in (co_group o) else u_in s.
  Definition pin (f : fetch) : pre_in := PreIn f (u_flush s) (n_flush n) (n_mispred n) (n_idx n) (n_consume n) (n_commit n).
  (** l.1091-1096: fire[j] is valid[j] for every slot or false for every slot *)
  Definition drop_fired (fire : bool) (f : fetch) : fetch :=
    if fire then Fetch (fun j => let x := f_slot f j in FSlot false (fs_inst x) (fs_pc x) (fs_fault x) (fs_dir x) (fs_meta x)) (f_next f)
    else f.
  (** SimCpu::cycle, l.1017-1097, BackTop::comb l.336-348 *)
  Definition sup_step : option (sup * fcout) :=
    match fcycle (u_front s) fc with
    | None => None
    | Some (f', o) =>
        let f := offered o in
        let i := pin f in
        let stall := if n_flush n then u_stall s else negb (front_ready (u_pre s) i) in
        let red := n_mispred n || n_flush n in
        Some (Sup f' (if negb red && stall then drop_fired (accepts (u_pre s) i) f else f) stall
                  (if red then Some (n_pc n) else None) (n_flush n) (pre_step (u_pre s) i), o)
    end.
End STEP.
