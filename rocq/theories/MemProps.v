(** C21, C23, C24, C25: the pure part. *)
From Verif Require Import Base BaseLemmas MemModel MemSpec MemProofs.
Ltac Zify.zify_post_hook ::= Z.div_mod_to_equations.

(** C23. A naturally aligned store through strobe, lane alignment and
    apply_strobe changes exactly the addressed bytes. *)
Theorem c23_store_exact : forall W a f3 v x, store_f3 f3 -> aligned a f3 ->
  bytes_of (word_store W a f3 v) x = store_bytes (bytes_of W) a (size f3) v x.
Proof. intros. now apply word_store_spec. Qed.
Example c23_store_ex : map (bytes_of (word_store (fun _ => 0x44332211) 0x80000002 1 0xABCD)) [0x7FFFFFFF; 0x80000000; 0x80000001; 0x80000002; 0x80000003; 0x80000004]
  = [0x44; 0x11; 0x22; 0xCD; 0xAB; 0x11].
Proof. reflexivity. Qed.

(** C23. A naturally aligned load returns the addressed bytes, extended. *)
Theorem c23_load_exact : forall W a f3, load_f3 f3 -> aligned a f3 -> word_load W a f3 = isa_load (bytes_of W) a f3.
Proof. intros. now apply word_load_spec. Qed.
Example c23_load_ex : map (word_load (fun _ => 0x80FF7F01) 0x80000002) [1; 5] = [0xFFFF80FF; 0x80FF] /\ word_load (fun _ => 0x80FF7F01) 0x80000001 0 = 0x7F.
Proof. split; reflexivity. Qed.

(** C23. Store then load of the same address and size returns the stored low
    bytes, sign- or zero-extended as the load says. *)
Theorem c23_store_then_load : forall W a f3 lf v, store_f3 f3 -> load_f3 lf -> size lf = size f3 -> aligned a f3 ->
  word_load (word_store W a f3 v) a lf = extend lf (v mod 256 ^ size f3).
Proof.
  intros W a f3 lf v S L E A. assert (AL : aligned a lf) by (unfold aligned in *; now rewrite E).
  rewrite word_load_spec by assumption. unfold isa_load. f_equal. rewrite E. pose proof (size_cases f3) as Z.
  rewrite (load_bytes_word _ v _ 0).
  - rewrite Z2Nat.id by lia. change (256 ^ 0) with 1. now rewrite Z.div_1_r.
  - lia.
  - intros k K. rewrite Z2Nat.id in K by lia. rewrite word_store_spec by assumption. rewrite store_in by lia. do 2 f_equal. f_equal. lia.
Qed.
(** C23. A load sharing no byte with a store is unaffected by it. *)
Theorem c23_load_elsewhere : forall W a f3 v b lf, store_f3 f3 -> aligned a f3 -> load_f3 lf -> aligned b lf ->
  ~ shares b (size lf) a (size f3) -> word_load (word_store W a f3 v) b lf = word_load W b lf.
Proof.
  intros W a f3 v b lf S A L AL N. rewrite !word_load_spec by assumption. apply isa_load_ext. intros x X.
  rewrite word_store_spec by assumption. apply store_out. intros Y. apply N. exists x. tauto.
Qed.
(** Alignment is needed: a word store to a misaligned address writes the
    enclosing aligned word instead (no alignment trap exists in the modelled
    core; Rob.cpp:340-356 and 385-399 only assert on it in debug builds). *)
Example c23_misaligned_word_ex : exists W a v x,
  bytes_of (word_store W a 2 v) x <> store_bytes (bytes_of W) a (size 2) v x.
Proof. exists (fun _ => 0), 0x80000001, 1, 0x80000001. vm_compute. discriminate. Qed.

(** C21. check_stlf classifies exactly: covered / disjoint / partial, for
    accesses that do not touch the last byte of the address space. *)
Theorem c21_check_exact : forall la lf sa sf, load_f3 lf -> store_f3 sf -> no_wrap la lf -> no_wrap sa sf ->
  match check_stlf la lf sa sf with
  | Overlap => sa <= la /\ la + size lf <= sa + size sf
  | Disjoint => ~ shares la (size lf) sa (size sf)
  | Retry => shares la (size lf) sa (size sf) /\ ~ (sa <= la /\ la + size lf <= sa + size sf)
  end.
Proof. exact check_stlf_spec. Qed.
(** C21. The scan over the older stores, youngest first: a forwarded value is
    the value a byte memory would return after all older stores (whatever the
    memory below them); a load sent to the cache shares no byte with any older
    store, so the cache's own contents are the right ones. *)
Theorem c21_scan_exact : forall m la lf l, load_f3 lf -> no_wrap la lf -> Forall fs_wf l ->
  match stlf_scan la lf l with
  | Forward v => v = isa_load (after (map pst l) m) la lf
  | ToDcache => isa_load (after (map pst l) m) la lf = isa_load m la lf /\
                Forall (fun s => fs_paddr_valid s = true /\ ~ shares la (size lf) (fs_paddr s) (size (fs_func3 s))) l
  | Again => True
  end.
Proof. exact scan_spec. Qed.
(** C21. And it waits only for a reason: some older store has an unknown
    address, or shares a byte without covering the load, or covers it but its
    data is not there yet. *)
Theorem c21_wait_has_reason : forall la lf l, load_f3 lf -> no_wrap la lf -> Forall fs_wf l -> stlf_scan la lf l = Again ->
  exists s, In s l /\ (fs_alloc s = true \/ fs_paddr_valid s = false \/
    (shares la (size lf) (fs_paddr s) (size (fs_func3 s)) /\
     (fs_data_valid s = false \/ ~ (fs_paddr s <= la /\ la + size lf <= fs_paddr s + size (fs_func3 s))))).
Proof.
  intros la lf l HL NW. induction l as [|s t IH]; intros F E; cbn [stlf_scan] in E; [discriminate|].
  inversion F as [|? ? FS FT]; subst. destruct (fs_alloc s) eqn:A; [exists s; split; [now left|tauto]|].
  destruct (fs_paddr_valid s) eqn:PV; cbn [negb] in E; [|exists s; split; [now left|tauto]]. destruct (FS PV) as [SF SW].
  pose proof (check_stlf_spec la lf (fs_paddr s) (fs_func3 s) HL SF NW SW) as CK.
  destruct (check_stlf la lf (fs_paddr s) (fs_func3 s)).
  - destruct (IH FT E) as (s' & I & R). exists s'. split; [now right|exact R].
  - destruct (fs_data_valid s) eqn:DV; cbn [negb] in E; [discriminate|]. exists s. split; [now left|]. right. right.
    split; [|now left]. pose proof (size_cases lf). exists la. lia.
  - exists s. split; [now left|]. right. right. tauto.
Qed.
Example c21_scan_ex :
  let st a f d := mkfstore false true a f true d in
  (* oldest: SW 0x80000010 = 0x11223344; then SB 0x80000012 = 0xAA *)
  let l := [st 0x80000012 0 0xAA; st 0x80000010 2 0x11223344] in
  stlf_scan 0x80000012 0 l = Forward 0xFFFFFFAA /\ stlf_scan 0x80000010 5 l = Forward 0x3344 /\
  stlf_scan 0x80000010 2 l = Again /\ stlf_scan 0x80000014 2 l = ToDcache.
Proof. repeat split; reflexivity. Qed.
(** C21. At the top of the address space the end addresses wrap to 0 and the
    check reports two overlapping accesses as disjoint: the load bypasses the
    store. *)
Theorem c21_top_of_memory_refuted :
  ~ (forall la lf sa sf, load_f3 lf -> store_f3 sf -> is_w 32 la -> is_w 32 sa -> aligned la lf -> aligned sa sf ->
     check_stlf la lf sa sf = Disjoint -> ~ shares la (size lf) sa (size sf)).
Proof.
  intros H. apply (H 0xFFFFFFFD 0 0xFFFFFFFC 2); try (cbn; tauto); try (split; [discriminate|reflexivity]); try reflexivity.
  exists 0xFFFFFFFD. cbn. lia.
Qed.

(** C24. CheckAddr, which orders committed stores, is exactly byte sharing for
    naturally aligned stores. *)
Theorem c24_overlap_check_exact : forall a fa b fb, store_f3 fa -> store_f3 fb -> is_w 32 a -> is_w 32 b -> aligned a fa -> aligned b fb ->
  CheckAddr a (get_store_strb a fa) b (get_store_strb b fb) = true <-> shares a (size fa) b (size fb).
Proof. exact check_addr_spec. Qed.
Example c24_overlap_ex : CheckAddr 0x80000000 (get_store_strb 0x80000000 2) 0x80000003 (get_store_strb 0x80000003 0) = true /\
  CheckAddr 0x80000000 (get_store_strb 0x80000000 2) 0x80000004 (get_store_strb 0x80000004 0) = false.
Proof. split; reflexivity. Qed.
(** C24. The store-queue boundary a load carries from dispatch (index and wrap
    flag of the tail) is decoded to the number of older stores still queued, at
    every wrap position and whatever the head has done meanwhile. *)
Theorem c24_boundary_exact : forall head hf count k, (head < STQ_SIZE -> count <= STQ_SIZE -> k <= STQ_SIZE ->
  stq_distance head hf count (stq_idx_after head k) (stq_tail_flag head k hf) = if k <=? count then Some k else None)%nat.
Proof. exact distance_spec. Qed.
Example c24_boundary_ex : stq_distance 14 true 5 (stq_idx_after 14 3) (stq_tail_flag 14 3 true) = Some 3%nat /\
  stq_distance 14 true 16 (stq_idx_after 14 16) (stq_tail_flag 14 16 true) = Some 16%nat.
Proof. split; reflexivity. Qed.

(** C25. Request identifiers carry slot and generation exactly, never set bit
    31, and differ as soon as slot or (27-bit) generation differ. *)
Theorem c25_req_id_roundtrip : forall i g, 0 <= i < 16 ->
  lsu_req_id_wait_idx (make_lsu_load_req_id i g) = i /\ lsu_req_id_gen (make_lsu_load_req_id i g) = g mod 2 ^ 27 /\
  0 <= make_lsu_load_req_id i g < 2 ^ 31.
Proof.
  intros i g I. rewrite req_id_mod by lia. unfold lsu_req_id_wait_idx, lsu_req_id_gen, kLsuReqIdGenBits, LDQ_IDX_WIDTH.
  change (31 - 4) with 27. rewrite !land_lo by lia. rewrite Z.shiftr_div_pow2 by lia.
  change (2 ^ 4) with 16. change (2 ^ 27) with 134217728. change (2 ^ 31) with 2147483648.
  assert (M : 0 <= g mod 134217728 < 134217728) by (apply Z.mod_pos_bound; lia). set (q := g mod 134217728) in *. clearbody q.
  split; [lia|]. split; [|lia]. replace ((q * 16 + i mod 16) / 16) with q by lia. apply Z.mod_small. lia.
Qed.
Theorem c25_req_id_injective : forall i g j h, 0 <= i < 16 -> 0 <= j < 16 ->
  make_lsu_load_req_id i g = make_lsu_load_req_id j h -> i = j /\ g mod 2 ^ 27 = h mod 2 ^ 27.
Proof.
  intros i g j h I J E. destruct (c25_req_id_roundtrip i g I) as (A & B & _). destruct (c25_req_id_roundtrip j h J) as (C & D & _).
  rewrite E in A, B. split; congruence.
Qed.
Example c25_req_id_ex : make_lsu_load_req_id 5 3 = 53 /\ lsu_req_id_wait_idx 53 = 5 /\ lsu_req_id_gen 53 = 3.
Proof. repeat split; reflexivity. Qed.

Print Assumptions c23_store_exact.
Print Assumptions c23_load_exact.
Print Assumptions c23_store_then_load.
Print Assumptions c23_load_elsewhere.
Print Assumptions c21_check_exact.
Print Assumptions c21_scan_exact.
Print Assumptions c21_wait_has_reason.
Print Assumptions c21_top_of_memory_refuted.
Print Assumptions c24_overlap_check_exact.
Print Assumptions c24_boundary_exact.
Print Assumptions c25_req_id_roundtrip.
Print Assumptions c25_req_id_injective.
