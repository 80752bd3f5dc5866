(** Specification vocabulary for C66. *)
From Verif Require Import Base BpModel BtbModel.
Local Open Scope Z_scope.

(** The trainings so far, newest first, and the state after them *)
Definition after (h : list btr) : btb := fold_right (fun u s => btb_train s u) btb0 h.

(** Control transfers that were taken *)
Definition jumped (u : btr) : bool := br_dir u && negb (br_type u =? BR_NONCTL).
Definition jumped_ind (u : btr) : bool := br_dir u && (br_type u =? BR_IDIRECT).
(** Branches that share an entry of the target buffer; see c66_told_apart. *)
Definition same_place (p q : Z) : bool := (btb_idx p =? btb_idx q) && (btb_tag p =? btb_tag q).

(** The target of the latest taken transfer at the place of [p] *)
Definition last_target (h : list btr) (p : Z) : option Z :=
  match find (fun u => jumped u && same_place (br_pc u) p) h with Some u => Some (br_tgt u) | None => None end.

(** A memory that holds for each (index, tag) the value last written, newest first *)
Definition latest (ws : list (Z * Z * Z)) (i k : Z) : option Z :=
  match find (fun x => (fst (fst x) =? i) && (snd (fst x) =? k)) ws with Some x => Some (snd x) | None => None end.

(** The known branch types *)
Definition known (h : list btr) : Prop := forall u, In u h -> 0 <= br_type u <= 5.
