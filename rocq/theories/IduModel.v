(** Branch tags in the decoder: back-end/Idu.cpp (CONFIG_BPU branch of the
    code), back-end/include/Idu.h.  The decode table itself is in ExecModel.v;
    here a decode slot is only "valid" and "is a tagged branch" (is_branch,
    util.h:113: BR or JALR).  The redirect index and FTQ index carried by the
    latch are passed through untouched and left out. *)
From Verif Require Import Base.
Local Open Scope nat_scope.

Definition NTAG : nat := 16.          (* MAX_BR_NUM, include/config.h:328 *)
Definition MAXBR : nat := 2.          (* MAX_BR_PER_CYCLE = DECODE_WIDTH *)

(** ExuIdIO: br_latch. *)
Record latch := Latch { l_mispred : bool; l_id : nat; l_clear : Z }.
Record idu := Idu { tag_vec : nat -> bool; br_mask_cp : nat -> Z; now_br_mask : Z; br_latch : latch }.

(** Idu::init, Idu.cpp:15-28. *)
Definition no_branch : latch := Latch false 0 0.
Definition idu_init : idu := Idu (fun i => negb (i =? 0)) (fun _ => 0%Z) 0 no_branch.

Record slot := Slot { sl_valid : bool; sl_branch : bool }.
Record idu_in := IduIn {
  i_slots : list slot;            (* in.issue->entries *)
  i_ready : bool;                 (* in.ren2dec->ready *)
  i_flush : bool;                 (* in.rob_bcast->flush *)
  i_exu : latch                   (* *in.exu2id *)
}.

(** *** Idu::comb_decode, Idu.cpp:88-173 *)
(** l.88-99: the first free tags. *)
Definition alloc_tags (st : idu) : list nat := firstn MAXBR (filter (tag_vec st) (seq 0 NTAG)).
(** l.135-173: [None] is a slot reported invalid, else its tag and br_mask. *)
Fixpoint decode_slots (ss : list slot) (tags : list nat) (running : Z) : list (option (option nat * Z)) :=
  match ss with
  | [] => []
  | s :: ss' =>
      if sl_valid s then
        if sl_branch s then
          match tags with
          | [] => map (fun _ => None) ss                   (* stall: l.166-172 *)
          | t :: tags' => Some (Some t, running) :: decode_slots ss' tags' (Z.lor running (Z.shiftl 1 (Z.of_nat t)))
          end
        else Some (None, running) :: decode_slots ss' tags running
      else None :: decode_slots ss' tags running
  end.
Definition dec_out (st : idu) (i : idu_in) : list (option (option nat * Z)) :=
  decode_slots (i_slots i) (alloc_tags st) (Z.ldiff (now_br_mask st) (l_clear (br_latch st))).

(** *** Idu::comb_fire, Idu.cpp:210-278 *)
(** l.232-239 *)
Definition clear_now (clear now : Z) : Z :=
  fold_left (fun n i => if bit clear i then Z.ldiff n (Z.shiftl 1 (Z.of_nat i)) else n) (seq 1 (NTAG - 1)) now.
Definition clear_tags (clear : Z) (tv : nat -> bool) : nat -> bool :=
  fold_left (fun tv i => if bit clear i then fupd tv i true else tv) (seq 1 (NTAG - 1)) tv.
(** l.242-246 *)
Definition clear_cp (clear : Z) (cp : nat -> Z) : nat -> Z :=
  if Z.eqb clear 0 then cp
  else fold_left (fun cp i => fupd cp i (Z.ldiff (cp i) clear)) (seq 1 (NTAG - 1)) cp.
(** l.265-277: one pass over the output slots, alloc_tag[br_num] in order. *)
Fixpoint fire_slots (out : list (option (option nat * Z))) (tags : list nat)
                    (tv : nat -> bool) (now : Z) (cp : nat -> Z) : (nat -> bool) * Z * (nat -> Z) :=
  match out with
  | [] => (tv, now, cp)
  | Some (Some _, _) :: out' =>
      match tags with
      | t :: tags' =>
          let now' := Z.lor now (Z.shiftl 1 (Z.of_nat t)) in
          fire_slots out' tags' (fupd tv t false) now' (fupd cp t now')
      | [] => (tv, now, cp)
      end
  | _ :: out' => fire_slots out' tags tv now cp
  end.

Definition idu_step (st : idu) (i : idu_in) : idu :=
  if i_flush i then
    Idu (fun t => if t =? 0 then false else if t <? NTAG then true else tag_vec st t)
        (br_mask_cp st) 0 no_branch
  else
    let clear := l_clear (br_latch st) in
    let tv1 := clear_tags clear (tag_vec st) in
    let now1 := clear_now clear (now_br_mask st) in
    let cp1 := clear_cp clear (br_mask_cp st) in
    if l_mispred (br_latch st) then
      let free := Z.ldiff (now_br_mask st) (br_mask_cp st (l_id (br_latch st))) in
      Idu (clear_tags free tv1) cp1 (Z.ldiff now1 free) (i_exu i)
    else if i_ready i then
      let '(tv, now, cp) := fire_slots (dec_out st i) (alloc_tags st) tv1 now1 cp1 in
      Idu tv cp now (i_exu i)
    else Idu tv1 cp1 now1 (i_exu i).

(** idu_consume->fire / the slots handed to Ren. *)
Definition fired (st : idu) (i : idu_in) : list (option nat * Z) :=
  if i_flush i || l_mispred (br_latch st) || negb (i_ready i) then []
  else flat_map (fun o => match o with Some x => [x] | None => [] end) (dec_out st i).
