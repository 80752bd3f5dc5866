(** Pure data-path functions of the load/store unit and of the data cache. *)
From Verif Require Import Base.

(** config.h: STQ_SIZE = LDQ_SIZE = 16, LDQ_IDX_WIDTH = 4. *)
Definition STQ_SIZE : nat := 16.
Definition LDQ_SIZE : nat := 16.
Definition LDQ_IDX_WIDTH : Z := 4.

(** MemUtils.h:16-18 mem_mask_for_width *)
Definition mem_mask_for_width (width : Z) : Z :=
  if 4 <=? width then 4294967295 else 2 ^ (width * 8) - 1.
(** MemUtils.h:20-30 get_mem_width *)
Definition get_mem_width (func3 : Z) : Z :=
  let k := Z.land func3 3 in if k =? 0 then 1 else if k =? 1 then 2 else 4.
(** MemUtils.h:32-46 extract_data *)
Definition extract_data (raw addr func3 : Z) : Z :=
  let bit_offset := Z.land addr 3 * 8 in
  let width := get_mem_width func3 in
  let mask := mem_mask_for_width width in
  let result := Z.land (Z.shiftr raw bit_offset) mask in
  if (Z.land func3 4 =? 0) && (width <? 4) && nz (Z.land result (2 ^ (width * 8 - 1)))
  then Z.lor result (w32 (Z.lnot mask)) else result.
(** MemUtils.h:48-60 get_store_strb (uint8_t result) *)
Definition get_store_strb (addr func3 : Z) : Z :=
  let off := Z.land addr 3 in
  let k := Z.land func3 3 in
  if k =? 0 then wrap 8 (Z.shiftl 1 off) else if k =? 1 then wrap 8 (Z.shiftl 3 off) else if k =? 2 then 15 else 0.
(** MemUtils.h:62-75 align_store_data *)
Definition align_store_data (data addr func3 : Z) : Z :=
  let off := Z.land addr 3 in
  let k := Z.land func3 3 in
  if k =? 0 then w32 (Z.shiftl (Z.land data 255) (off * 8))
  else if k =? 1 then w32 (Z.shiftl (Z.land data 65535) (off * 8))
  else if k =? 2 then data else 0.

(** DcacheConfig.cpp:85-95 apply_strobe *)
Definition apply_strobe (dst src strb : Z) : Z :=
  fold_left (fun d b => if nz (Z.land strb (2 ^ b))
                        then let mask := Z.shiftl 255 (b * 8) in Z.lor (Z.land d (w32 (Z.lnot mask))) (Z.land src mask)
                        else d) [0; 1; 2; 3] dst.
(** DcacheConfig.cpp:177-189 CheckAddr (strobes are uint8_t, masks uint64_t) *)
Definition CheckAddr (addr1 strb1 addr2 strb2 : Z) : bool :=
  let base1 := Z.land addr1 4294967292 in
  let base2 := Z.land addr2 4294967292 in
  let min_base := if base1 <? base2 then base1 else base2 in
  let diff1 := base1 - min_base in
  let diff2 := base2 - min_base in
  if (8 <=? diff1) || (8 <=? diff2) then false
  else nz (Z.land (Z.shiftl strb1 diff1) (Z.shiftl strb2 diff2)).

(** RealLsu.h:251-255 STLFResult; RealLsu.cpp:83-101 check_stlf *)
Inductive stlf_result := Disjoint | Overlap | Retry.
Definition check_stlf (load_addr load_func3 store_addr store_func3 : Z) : stlf_result :=
  let store_width := get_mem_width store_func3 in
  let load_width := get_mem_width load_func3 in
  let s_start := store_addr in
  let s_end := w32 (s_start + store_width) in
  let l_start := load_addr in
  let l_end := w32 (l_start + load_width) in
  if (s_start <=? l_start) && (l_end <=? s_end) then Overlap
  else if (l_end <=? s_start) || (s_end <=? l_start) then Disjoint
  else Retry.

(** MemUtils.h:77-83, 153-166: request identifiers (31 - LDQ_IDX_WIDTH
    generation bits above LDQ_IDX_WIDTH slot bits). *)
Definition kLsuReqIdGenBits : Z := 31 - LDQ_IDX_WIDTH.
Definition normalize_lsu_req_gen (gen : Z) : Z := Z.land gen (2 ^ kLsuReqIdGenBits - 1).
Definition make_lsu_load_req_id (wait_idx gen : Z) : Z :=
  Z.lor (w32 (Z.shiftl (normalize_lsu_req_gen gen) LDQ_IDX_WIDTH)) (Z.land wait_idx (2 ^ LDQ_IDX_WIDTH - 1)).
Definition lsu_req_id_gen (req_id : Z) : Z := Z.land (Z.shiftr req_id LDQ_IDX_WIDTH) (2 ^ kLsuReqIdGenBits - 1).
Definition lsu_req_id_wait_idx (req_id : Z) : Z := Z.land req_id (2 ^ LDQ_IDX_WIDTH - 1).

(** MemUtils.h:85-102 advance_ring_ptr; 105-118; 141-157. *)
Definition advance_ring_ptr_f (ptr : nat) (flag : bool) (size : nat) : nat * bool :=
  if (size <=? S ptr)%nat then (0%nat, negb flag) else (S ptr, flag).
Definition advance_ring_ptr (ptr size : nat) : nat := if (size <=? S ptr)%nat then 0%nat else S ptr.
Definition stq_idx_alive_after_flush (idx head new_count : nat) : bool :=
  ((idx + STQ_SIZE - head) mod STQ_SIZE <? new_count)%nat.
Definition stq_tail_flag (head count : nat) (head_flag : bool) : bool :=
  if (STQ_SIZE <=? head + count)%nat then negb head_flag else head_flag.
Definition stq_idx_after (head count : nat) : nat := ((head + count) mod STQ_SIZE)%nat.
Definition stq_tag_value (idx : nat) (flag : bool) : nat := ((if flag then STQ_SIZE else 0) + idx)%nat.
(** [None] is the [false] return value. *)
Definition stq_distance (head : nat) (head_flag : bool) (count bidx : nat) (bflag : bool) : option nat :=
  let kRing := (STQ_SIZE * 2)%nat in
  let h := stq_tag_value head head_flag in
  let b := stq_tag_value bidx bflag in
  let distance := ((b + kRing - h) mod kRing)%nat in
  if (distance <=? count)%nat then Some distance else None.

(** MemUtils.h:120-130 lsu_is_mmio_addr, config.h:647-670 constants. *)
Definition lsu_is_mmio_addr (paddr : Z) : bool :=
  (Z.land paddr 4294967280 =? 268435456) ||
  (Z.land paddr 4227858432 =? 201326592) ||
  ((531628032 <=? paddr) && (paddr <? 531628032 + 4096)) ||
  ((533786624 <=? paddr) && (paddr <? 533786624 + 256)) ||
  (paddr =? 533782528) || (paddr =? 533782532) || (paddr =? 533782536) || (paddr =? 533782540).

(** The part of a store-queue entry read by the forwarding scan. *)
Record fstore := mkfstore { fs_alloc : bool (* store_state == Allocated *); fs_paddr_valid : bool; fs_paddr : Z; fs_func3 : Z;
                            fs_data_valid : bool; fs_data : Z }.
Inductive stlf_out := Forward (v : Z) | Again | ToDcache.
(** RealLsu.cpp:540-582, the loop over the older stores of one load; the list is
    given youngest first, the order in which the loop visits it. *)
Fixpoint stlf_scan (laddr lf3 : Z) (l : list fstore) : stlf_out :=
  match l with
  | [] => ToDcache
  | s :: t =>
    if fs_alloc s then Again
    else if negb (fs_paddr_valid s) then Again
    else match check_stlf laddr lf3 (fs_paddr s) (fs_func3 s) with
         | Overlap => if negb (fs_data_valid s) then Again
                      else Forward (extract_data (fs_data s) (w32 (laddr - fs_paddr s)) lf3)
         | Retry => Again
         | Disjoint => stlf_scan laddr lf3 t
         end
  end.

(** A word-addressed memory as seen by the cache: one pending write
    (DcacheConfig.cpp:141-150, word_off selects the word) and one read. *)
Definition wmem := Z -> Z.
Definition word_store (W : wmem) (addr func3 data : Z) : wmem :=
  fun i => if i =? addr / 4 then apply_strobe (W i) (align_store_data data addr func3) (get_store_strb addr func3) else W i.
Definition word_load (W : wmem) (addr func3 : Z) : Z := extract_data (W (addr / 4)) addr func3.
