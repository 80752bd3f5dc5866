(** The branch prediction unit with its type and target predictors:
    bpu_post_read_req_comb l.985-1042, bpu_submodule_bind_comb l.1048-1068 and
    bpu_core_comb_calc l.1569-1650 of front-end/BPU/BPU.h, over BpModel.v, TyModel.v
    and BtbModel.v.  The directions of the four TAGE banks stay inputs. *)
From Verif Require Import Base FrontModel BpModel BpSpec TyModel BtbModel.
Local Open Scope nat_scope.

Record cst := Cst { c_bpu : bst; c_ty : ttab; c_btb : nat -> btb }.
Definition cst0 : cst := Cst bst0 ttab0 (fun _ => btb0).

Record cinp := CIn { ci_refetch : bool; ci_addr : Z; ci_ready : bool; ci_upd : nat -> option upd; ci_tage : nat -> option (bool * Z) }.

Section BIND.
  Variables (s : cst) (y : cinp).
  (** what the unit asks does not depend on the answers *)
  Definition asked : bin := BIn (ci_refetch y) (ci_addr y) (ci_ready y) (ci_upd y) (fun _ => BR_NONCTL) (ci_tage y) (fun _ => None).
  Definition slot_type (i : nat) : Z := fst (fst (ty_predict (c_ty s) (slot_pc (p_pc (c_bpu s) asked) i))).
  (** l.1054-1067: a later slot of the same bank overwrites *)
  Definition bank_type (b : nat) : Z :=
    fold_left (fun a i => if p_on (c_bpu s) asked i && (p_bank (c_bpu s) asked i =? b) then slot_type i else a) (seq 0 NF) BR_NONCTL.
  Definition bank_target (b : nat) : option Z :=
    match pred_req (c_bpu s) asked b with Some p => Some (btb_predict (c_btb s b) p (bank_type b)) | None => None end.
  Definition bound_in : bin := BIn (ci_refetch y) (ci_addr y) (ci_ready y) (ci_upd y) slot_type (ci_tage y) bank_target.

  (** type_in.upd_*, l.1038-1042; btb_in.upd_*, l.1031-1035 *)
  Definition ty_upds : list (Z * Z) := map (fun u => (u_pc u, u_type u)) (commits bound_in).
  Definition btr_of (u : upd) : btr := Btr (bank_pc (u_pc u)) (u_target u) (u_type u) (u_dir u).
  Definition ccycle : option (cst * bout) :=
    match bcycle (c_bpu s) bound_in with
    | None => None
    | Some (b', o) =>
        Some (Cst b' (ty_cycle (c_ty s) ty_upds)
                  (fun b => match bo_btb o b with Some u => btb_train (c_btb s b) (btr_of u) | None => c_btb s b end), o)
    end.
End BIND.
