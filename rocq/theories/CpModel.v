(** The path of the committed instructions: the reorder buffer (RobModel), the
    arbitration between the branch units (BrArbModel), the latch in front of the
    broadcast (Idu.cpp:183-201 and 215-219) and the point where fetch continues
    (BackTop.cpp:326-351).  Which instruction an entry is - address, predicted
    and architectural next address, lap flag - is a function of the field the
    reorder buffer only copies. *)
From Verif Require Import Base ExecModel RobModel RobSpec BrArbModel.
Local Open Scope nat_scope.

(** br_latch.{mispred, redirect_rob_idx, redirect_pc} *)
Definition latch := option (nat * Z).
(** Idu::comb_fire, Idu.cpp:215-219 *)
Definition latch_step (flush : bool) (brs : list (option brres)) : latch :=
  if flush then None
  else let o := arbitrate brs in if x_mispred o then Some (Z.to_nat (x_rob o), x_pc o) else None.

Section path.
  Variable pc pred act : nat -> Z.
  Variable flg br : nat -> bool.
  Definition pcE (e : qent) : Z := pc (u_rest (q_uop e)).
  Definition predE (e : qent) : Z := pred (u_rest (q_uop e)).
  Definition actE (e : qent) : Z := act (u_rest (q_uop e)).
  Definition flgE (e : qent) : bool := flg (u_rest (q_uop e)).
  Definition brE (e : qent) : bool := br (u_rest (q_uop e)).

  (** What enters the reorder buffer. *)
  Definition newq (r : rob) (i : rob_in) : list qent := if rob_ready r then arrivals (enq_ptr r) 0 (i_fire i) else [].
  (** Instructions following each other as predicted, the first at [x]. *)
  Fixpoint chain (x : Z) (l : list qent) : Prop :=
    match l with [] => True | e :: l => pcE e = x /\ chain (predE e) l end.
  Definition ends (x : Z) (l : list qent) : Z := fold_left (fun _ e => predE e) l x.
  (** Address of the next instruction to arrive; [fpc]: the address the flush selects. *)
  Definition fetch_step (r : rob) (i : rob_in) (b : latch) (x fpc : Z) : Z :=
    if b_flush (broadcast r i) then fpc
    else match b with Some (_, t) => t | None => ends x (newq r i) end.

  (** A branch unit has reported on it (completion group 1). *)
  Definition brep (e : qent) : bool := reported (fun w => group (w_port w) =? 1) e.

  (** The rules of a cycle.  Arrivals follow the prediction from where fetch continues
      (C73, C79) and carry the lap flag the reorder buffer offers (Rob.cpp:488,
      Dispatch.cpp:98); an instruction that may go elsewhere than predicted is one the branch
      unit reports on (C40); a branch unit delivers each branch in flight at most once and
      nothing squashed (C09, C10, C44), with the architectural target and flagged if the
      prediction differs (C14); what completes the branch part of an instruction is such a
      result (Exu.cpp:455-530). *)
  Record penv (r : rob) (q : list qent) (b : latch) (x : Z) (i : rob_in) (brs : list (option brres)) : Prop := {
    pe_width : length (i_fire i) = BANKS;
    pe_nofire : b <> None -> any_fire (i_fire i) = false;
    pe_mis : RobModel.i_mispred i = option_map fst b;
    pe_path : chain x (newq r i);
    pe_flag : forall e, In e (newq r i) -> flgE e = enq_flag r;
    pe_kind : forall e, In e (newq r i) -> (brE e = true -> Z.testbit (u_expect (q_uop e)) 1 = true) /\ (predE e <> actE e -> brE e = true);
    pe_br : forall s, In (Some s) brs -> exists a e z, q = a ++ e :: z /\ (forall k t, b = Some (k, t) -> ~ In k (map q_idx a)) /\
      brE e = true /\ brep e = false /\ r_idx s = Z.of_nat (q_idx e) /\ r_flag s = flgE e /\ r_target s = actE e /\ (predE e <> actE e -> r_mispred s = true);
    pe_rep : forall w e, In w (i_wb i) -> In e q -> brE e = true -> w_idx w = q_idx e -> group (w_port w) = 1 ->
      exists s, In (Some s) brs /\ r_idx s = Z.of_nat (q_idx e) }.

  (** The instructions leaving at the head; with a flush, where fetch was sent. *)
  Definition leaves (r : rob) (q : list qent) (i : rob_in) (fpc : Z) : list (qent * option Z) :=
    map (fun e => (e, if b_flush (broadcast r i) then Some fpc else None)) (firstn (length (committed r i)) q).
  (** [x]: where fetch continues; the log: everything that has left the head, oldest first. *)
  Inductive preach (start : Z) : rob -> list qent -> latch -> Z -> list (qent * option Z) -> Prop :=
  | preach0 : preach start rob_init [] None start []
  | preach_step r q b x L i brs fpc : preach start r q b x L -> penv r q b x i brs ->
      preach start (rob_step r i) (q_step q r i) (latch_step (b_flush (broadcast r i)) brs) (fetch_step r i b x fpc) (L ++ leaves r q i fpc).

  (** The architectural path: every instruction at the address the one before leads to. *)
  Fixpoint path (x : Z) (l : list (qent * option Z)) (y : Z) : Prop :=
    match l with
    | [] => x = y
    | (e, f) :: l => pcE e = x /\ path (match f with Some t => t | None => actE e end) l y
    end.
  Definition next_pc (q : list qent) (x : Z) : Z := match q with [] => x | e :: _ => pcE e end.
End path.
