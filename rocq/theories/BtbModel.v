(** One target predictor bank, front-end/BPU/target_predictor/BTB_top.h: the branch
    target buffer, the two target caches for indirect jumps with the history and the
    choice between them.

    Build options: 64 x 4 BTB with 8-bit tags, 64-entry history table, 64 x 2 target
    caches with 10-bit tags, ENABLE_BTB_ALIAS_HASH, ENABLE_INDIRECT_BTB_FALLBACK,
    ENABLE_INDIRECT_BTB_TRAIN, ENABLE_TC_TARGET_SIGNATURE, no SRAM_DELAY_ENABLE.

    Left out: the pipeline latches, state and delayed read (written with zeros, never
    read), the type read port (never filled), btb_update_done and busy.  pc arguments
    are bank pcs as BPU.h passes them (the pc divided by 4).  Tables are functions,
    read and written below their sizes. *)
From Verif Require Import Base BpModel.
Local Open Scope Z_scope.

Record bent := BEnt { be_valid : bool; be_tag : Z; be_tgt : Z; be_use : Z }.
Definition bent0 : bent := BEnt false 0 0 0.

(** btb_hit_check_comb, tc_hit_check_comb, l.1253-1278 *)
Definition as_hit (n : nat) (e : nat -> bent) (tag : Z) : option nat :=
  find (fun w => be_valid (e w) && (be_tag (e w) =? tag)) (seq 0 n).
(** btb_victim_select_comb, tc_victim_select_comb, l.1339-1382 *)
Definition as_victim (n : nat) (e : nat -> bent) : nat :=
  match find (fun w => negb (be_valid (e w))) (seq 0 n) with
  | Some w => w
  | None => fst (fold_left (fun a w => if be_use (e w) <? snd a then (w, be_use (e w)) else a) (seq 0 n) (0%nat, 255))
  end.
Definition as_way (n : nat) (e : nat -> bent) (tag : Z) : nat :=
  match as_hit n e tag with Some w => w | None => as_victim n e end.
(** useful_next_state_comb, l.1238-1251 *)
Definition use_next (v : Z) (correct : bool) : Z :=
  if correct then (if v <? 7 then v + 1 else v) else (if 0 <? v then v - 1 else v).
(** the usefulness written, l.803-811, 829-838, 854-863: 1 for a new entry *)
Definition as_use (n : nat) (e : nat -> bent) (tag tgt : Z) : Z :=
  match as_hit n e tag with
  | Some w => use_next (be_use (e w)) (be_tgt (e w) =? tgt)
  | None => 1
  end.
Definition as_write (n : nat) (t : Z -> nat -> bent) (i tag tgt use : Z) : Z -> nat -> bent :=
  let w := as_way n (t i) tag in fun i' w' => if (i' =? i) && (w' =? w)%nat then BEnt true tag tgt use else t i' w'.

Definition BTBW : nat := 4.   (* BTB_WAY_NUM *)
Definition TCW : nat := 2.    (* TC_WAY_NUM *)

Record btb := Btb { bt_btb : Z -> nat -> bent; bt_bht : Z -> Z; bt_tc : Z -> nat -> bent; bt_pre : Z -> nat -> bent; bt_mode : Z -> Z }.
(** reset, l.533-593 *)
Definition btb0 : btb := Btb (fun _ _ => bent0) (fun _ => 0) (fun _ _ => bent0) (fun _ _ => bent0) (fun _ => 2).

(** hash_index_value, l.1133-1150: every width used is below 11, so all three
    shifts apply *)
Definition hash (w mask width salt : Z) : Z :=
  Z.land (Z.lxor (Z.lxor (Z.lxor (Z.lxor w (Z.shiftr w width)) (Z.shiftr w (2 * width))) (Z.shiftr w (3 * width))) salt) mask.
(** btb_get_tag_comb ... tc_get_tag_comb, l.1153-1219 *)
Definition btb_tag (p : Z) : Z := Z.land (Z.shiftr (Z.shiftr p 2) 6) 255.
Definition btb_idx (p : Z) : Z := hash (Z.shiftr p 2) 63 6 2654435769.
Definition bht_idx (p : Z) : Z := hash (Z.shiftr p 2) 63 6 1784494561.
Definition tc_idx (p b : Z) : Z :=
  let mix := Z.lxor (Z.lxor (Z.lxor b (Z.shiftr b 7)) (Z.shiftr b 13)) (Z.shiftl b 9) in
  hash (Z.lxor (Z.lxor (Z.shiftr p 2) mix) (Z.shiftr b 19)) 63 6 1374496523.
Definition tc_tag (p : Z) : Z := hash (Z.shiftr p 2) 1023 10 1013904242.
(** bht_next_state_comb, l.1222-1236; bht_hist_t is uint8_t *)
Definition bht_next (b ty : Z) (dir : bool) (tgt : Z) : Z :=
  if ty =? BR_IDIRECT then
    let tw := Z.shiftr tgt 2 in
    let tf := Z.lxor (Z.lxor tw (Z.shiftr tw 11)) (Z.shiftr tw 19) in
    let hf := Z.lxor (Z.lxor b (Z.shiftl b 5)) (Z.shiftr b 2) in
    Z.land (Z.lxor (Z.lxor hf tf) 2654435769) 255
  else Z.land (Z.lor (Z.shiftl b 1) (b2z dir)) 255.

(** btb_pred_output_comb, l.1291-1337, on what btb_data_seq_read and
    btb_tc_data_seq_read fetch *)
Definition look (n : nat) (e : nat -> bent) (tag : Z) : option Z :=
  match as_hit n e tag with Some w => Some (be_tgt (e w)) | None => None end.
Definition is_direct (ty : Z) : bool := (ty =? BR_DIRECT) || (ty =? BR_CALL) || (ty =? BR_JAL) || (ty =? BR_RET).
Definition btb_predict (s : btb) (p ty : Z) : Z :=
  let ti := tc_idx p (bt_bht s (bht_idx p)) in
  let bt := look BTBW (bt_btb s (btb_idx p)) (btb_tag p) in
  if ty =? BR_IDIRECT then
    match look TCW (bt_pre s ti) (tc_tag p), look TCW (bt_tc s ti) (tc_tag p) with
    | Some a, None => a
    | Some a, Some b => if 3 <=? bt_mode s (bht_idx p) then a else b
    | None, Some b => b
    | None, None => match bt with Some c => c | None => w32 (p + 4) end
    end
  else if is_direct ty then match bt with Some c => c | None => w32 (p + 4) end
  else w32 (p + 4).

(** One training: upd_pc, upd_actual_addr, upd_br_type_in, upd_actual_dir *)
Record btr := Btr { br_pc : Z; br_tgt : Z; br_type : Z; br_dir : bool }.

Section TRAIN.
  Variables (s : btb) (u : btr).
  Definition r_bi : Z := bht_idx (br_pc u).
  Definition r_bht : Z := bt_bht s r_bi.
  (** btb_post_read_req_comb, l.730-745 *)
  Definition r_nbht : Z := if negb (br_type u =? BR_NONCTL) then bht_next r_bht (br_type u) (br_dir u) (br_tgt u) else r_bht.
  Definition r_tc : bool := br_dir u && (br_type u =? BR_IDIRECT).
  Definition r_pi : Z := tc_idx (br_pc u) r_bht.
  Definition r_wi : Z := tc_idx (br_pc u) r_nbht.
  Definition r_tt : Z := tc_tag (br_pc u).
  (** btb_comb, l.776-884 *)
  Definition writes_btb : bool := is_direct (br_type u) || (br_type u =? BR_IDIRECT).
  Definition btb_use : Z :=
    if br_type u =? BR_IDIRECT then 0 else as_use BTBW (bt_btb s (btb_idx (br_pc u))) (btb_tag (br_pc u)) (br_tgt u).
  Definition says (e : nat -> bent) : bool := match look TCW e r_tt with Some a => a =? br_tgt u | None => false end.
  Definition mode_next (m : Z) (pre_correct : bool) : Z :=
    if pre_correct then (if m <? 6 then m + 1 else 6) else (if 0 <? m then m - 1 else 0).
  (** with btb_seq_write, l.1052-1114 *)
  Definition btb_train : btb :=
    Btb (if br_dir u && writes_btb then as_write BTBW (bt_btb s) (btb_idx (br_pc u)) (btb_tag (br_pc u)) (br_tgt u) btb_use else bt_btb s)
        (let b := r_nbht in fun i => if negb (br_type u =? BR_NONCTL) && (i =? r_bi) then b else bt_bht s i)
        (if r_tc then as_write TCW (bt_tc s) r_wi r_tt (br_tgt u) (as_use TCW (bt_tc s r_wi) r_tt (br_tgt u)) else bt_tc s)
        (if r_tc then as_write TCW (bt_pre s) r_pi r_tt (br_tgt u) (as_use TCW (bt_pre s r_pi) r_tt (br_tgt u)) else bt_pre s)
        (let c := r_tc && xorb (says (bt_tc s r_pi)) (says (bt_pre s r_pi)) in
         let m := mode_next (bt_mode s r_bi) (says (bt_pre s r_pi)) in fun i => if c && (i =? r_bi) then m else bt_mode s i).
End TRAIN.
