(** The type predictor, front-end/BPU/type_predictor/TypePredictor.h.

    Build options: BPU_BANK_NUM 4, 64 entries in 2 ways and 32 sets per bank,
    12-bit tags, 2-bit confidence and age.  The updates of a cycle are the list of
    the valid commit slots, in slot order.  Tables are functions, read and written
    below their sizes. *)
From Verif Require Import Base BpModel.
Local Open Scope Z_scope.

Definition TYW : nat := 2.     (* TYPE_PRED_WAY_NUM *)
Definition TYMAX : Z := 3.     (* TYPE_PRED_CONF_MAX, TYPE_PRED_AGE_MAX *)

Record tent := TEnt { te_valid : bool; te_tag : Z; te_type : Z; te_conf : Z; te_age : Z }.
Definition tent0 : tent := TEnt false 0 0 0 0.
Definition ttab : Type := nat -> Z -> nat -> tent.
Definition ttab0 : ttab := fun _ _ _ => tent0.          (* reset, l.401 *)

(** type_pred_bank_sel_comb, type_pred_bank_pc_comb, type_pred_req_comb, l.158-191 *)
Definition ty_bank (pc : Z) : nat := Z.to_nat (Z.modulo (Z.shiftr pc 2) 4).
Definition ty_word (pc : Z) : Z := Z.shiftr (Z.shiftr pc 2) 2.
Definition ty_set (pc : Z) : Z := Z.land (ty_word pc) 31.
Definition ty_tag (pc : Z) : Z := Z.land (Z.shiftr (ty_word pc) 5) 4095.

(** hit_comb, l.231-240 *)
Definition ty_matches (e : tent) (tag : Z) : bool := te_valid e && (te_tag e =? tag).
Definition ty_hit (e : nat -> tent) (tag : Z) : option nat := find (fun w => ty_matches (e w) tag) (seq 0 TYW).
(** select_comb, l.242-251: type, hit, confident *)
Definition ty_select (e : nat -> tent) (tag : Z) : Z * bool * bool :=
  match ty_hit e tag with
  | None => (BR_NONCTL, false, false)
  | Some w => (te_type (e w), true, TYMAX <=? te_conf (e w))
  end.
(** victim_comb, l.253-270 *)
Definition ty_victim (e : nat -> tent) : nat :=
  match find (fun w => negb (te_valid (e w))) (seq 0 TYW) with
  | Some w => w
  | None => fst (fold_left (fun a w => if te_age (e w) <? snd a then (w, te_age (e w)) else a)
                           (seq 1 (TYW - 1)) (0%nat, te_age (e 0%nat)))
  end.
(** conf_inc, age_inc, l.144-156 *)
Definition ty_inc (v : Z) : Z := if TYMAX <=? v then TYMAX else v + 1.
(** type_pred_update_comb, l.272-318 *)
Definition ty_update (e : nat -> tent) (tag ty : Z) : option (nat * tent) :=
  if ty =? BR_NONCTL then
    match ty_hit e tag with None => None | Some w => Some (w, tent0) end
  else
    match ty_hit e tag with
    | Some w =>
        Some (w, if te_type (e w) =? ty
                 then TEnt true tag (te_type (e w)) (ty_inc (te_conf (e w))) (ty_inc (te_age (e w)))
                 else TEnt true tag ty 1 1)
    | None =>
        (* a fresh Entry{}: the comparison of types is reached only on a hit *)
        Some (ty_victim e, TEnt true tag ty 1 1)
    end.

Definition tset (t : ttab) (b : nat) (x : Z) (w : nat) (v : tent) : ttab :=
  fun b' x' w' => if (b' =? b)%nat && (x' =? x) && (w' =? w)%nat then v else t b' x' w'.
(** type_pred_comb, l.346-396: every update sees the table of the cycle's start;
    type_pred_seq_write, l.419-431 writes in slot order. *)
Definition ty_write (old : ttab) (t : ttab) (u : Z * Z) : ttab :=
  let (pc, ty) := u in
  match ty_update (old (ty_bank pc) (ty_set pc)) (ty_tag pc) ty with
  | None => t
  | Some (w, v) => tset t (ty_bank pc) (ty_set pc) w v
  end.
Definition ty_cycle (t : ttab) (us : list (Z * Z)) : ttab := fold_left (ty_write t) us t.
Definition ty_predict (t : ttab) (pc : Z) : Z * bool * bool := ty_select (t (ty_bank pc) (ty_set pc)) (ty_tag pc).
