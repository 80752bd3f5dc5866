(** Physical memory, timer, DMA engine, interrupt controller: theorems. *)
From Verif Require Import Base BaseLemmas MemModel MemSpec MemProofs PeriphModel PeriphSpec PeriphProofs.
Ltac Zify.zify_post_hook ::= Z.div_mod_to_equations.

(** C32: the RAM array and the sparse I/O map together behave as one map from
    word addresses: a read returns the last value written to that word, and
    zero if there was none. *)
Theorem c32_word_map l a :
  Forall (fun w => is_w 32 (fst w) /\ is_w 32 (snd w)) l -> is_w 32 a ->
  pmem_read (fold_left (fun m w => pmem_write m (fst w) (snd w)) l pmem_init) a = last_write l a.
Proof.
  intros F A. rewrite writes_read by assumption. destruct (existsb _ l) eqn:E; [reflexivity|].
  now rewrite last_none, init_read.
Qed.
Example c32_word_map_ex :
  pmem_read (fold_left (fun m w => pmem_write m (fst w) (snd w)) [(2147483652, 7); (16, 9); (2147483655, 8); (16, 0)] pmem_init) 2147483653 = 8 /\
  last_write [(2147483652, 7); (16, 9); (2147483655, 8); (16, 0)] 18 = 0.
Proof. vm_compute. split; reflexivity. Qed.

(** C32: an access is sent to the RAM array exactly for the RAM addresses, and
    then its index is inside the array (2^28 words). *)
Theorem c32_index_in_bounds a : is_w 32 a ->
  (pmem_is_ram_addr (word_addr a) 4 = true <-> 2147483648 <= a < 2147483648 + 1073741824) /\
  (pmem_is_ram_addr (word_addr a) 4 = true -> 0 <= ram_idx (word_addr a) < 2 ^ 28).
Proof.
  intros A. rewrite is_ram_spec by (auto using word_addr_w, w4). rewrite in_ram_bP, word_addr_spec by exact A. unfold is_w, in_ram in *. split; [lia|].
  intros H. rewrite ram_idx_spec by (unfold in_ram; lia). change (2 ^ 28) with 268435456. lia.
Qed.
(** C32: the I/O map never stores a zero, a RAM address or an unaligned key. *)
Theorem c32_io_map_canonical l k v :
  Forall (fun w => is_w 32 (fst w) /\ is_w 32 (snd w)) l ->
  io (fold_left (fun m w => pmem_write m (fst w) (snd w)) l pmem_init) k = Some v ->
  v <> 0 /\ is_w 32 k /\ k mod 4 = 0 /\ ~ in_ram k 4.
Proof. intros F H. destruct (writes_wfm l _ wfm_init F) as [_ W]. apply W in H. tauto. Qed.
(** C32: the two memcpy helpers move exactly the requested bytes, never abort
    on a range inside RAM, and abort on every other non-empty range. *)
Theorem c32_memcpy_exact l src dst n x m :
  m = fold_left (fun m w => pmem_write m (fst w) (snd w)) l pmem_init ->
  Forall (fun w => is_w 32 (fst w) /\ is_w 32 (snd w)) l -> is_w 32 src -> is_w 32 dst -> is_w 32 n -> in_ram src n -> in_ram dst n -> 0 <= x < 2 ^ 32 ->
  exists tmp m', pmem_memcpy_from_ram m src n = Some tmp /\ pmem_memcpy_to_ram m dst tmp = Some m' /\
    length tmp = Z.to_nat n /\
    (pmem_read m' x / 256 ^ (x mod 4)) mod 256 =
    if (dst <=? x) && (x <? dst + n) then (pmem_read m (x - dst + src) / 256 ^ ((x - dst + src) mod 4)) mod 256
    else (pmem_read m x / 256 ^ (x mod 4)) mod 256.
Proof.
  intros -> F SW DW NW SR DR X. set (m := fold_left _ _ _). assert (W : wfm m) by (apply writes_wfm; [apply wfm_init|exact F]).
  destruct (copy_spec m src dst n W SW DW NW SR DR) as (tmp & m' & E1 & E2 & W' & _ & B). exists tmp, m'.
  split; [exact E1|]. split; [exact E2|]. split; [|exact (B x X)].
  unfold pmem_memcpy_from_ram in E1. destruct (n =? 0) eqn:N0; [injection E1 as <-; cbn; lia|].
  destruct (RAM_SIZE <? n); [discriminate|]. destruct (negb _); [discriminate|]. injection E1 as <-. apply cpy_from_len.
Qed.
Theorem c32_memcpy_aborts m a n : is_w 32 a -> is_w 32 n -> 0 < n -> ~ in_ram a n -> pmem_memcpy_from_ram m a n = None.
Proof.
  intros A N P NR. unfold pmem_memcpy_from_ram. replace (n =? 0) with false by lia. destruct (RAM_SIZE <? n); [reflexivity|].
  rewrite w32_id, is_ram_spec by assumption. destruct (in_ram_b a n) eqn:E; [apply in_ram_bP in E; contradiction|reflexivity].
Qed.

(** The device block from reset, at simulated time [t0], with any sequence of
    committed stores, ticks and passing time. *)
Definition run (t0 : Z) (l : list devent) : periph * Z := dev_run (periph_init pmem_init, t0) l.
Definition spec (t0 : Z) (l : list devent) : dev := spec_run (mkd (fun _ => 0) t0 0 0 0 0 false 0 false false [] []) l.

(** C46: the device block implements the abstract one, byte for byte over the
    whole physical address space, for every event sequence; the abort of
    pmem_memcpy is never reached. *)
Theorem c46_device_refines t0 l : 0 <= t0 -> t0 + elapsed l < 2 ^ 63 -> Forall event_ok l ->
  agrees (fst (run t0 l)) (snd (run t0 l)) (spec t0 l) /\ snd (run t0 l) = t0 + elapsed l.
Proof.
  intros T B F. assert (EL : 0 <= elapsed l).
  { clear - F. induction F as [|e l E F IH]; [cbn; lia|]. cbn [elapsed fold_right]. fold (elapsed l). destruct e; cbn [event_ok] in E; lia. }
  destruct (run_R l _ _ _ (R_init t0 ltac:(lia)) F B) as [R1 R2]. split; [|exact R2]. apply R1.
Qed.
(** C46: at the end of every cycle (the tick) the two interrupt lines offered
    to the CSR unit are valid and exact, and the claim register shows the
    highest-priority pending source. *)
Theorem c46_lines_exact t0 l : 0 <= t0 -> t0 + elapsed l < 2 ^ 63 -> Forall event_ok l ->
  let p := fst (run t0 (l ++ [Tick])) in let d := spec t0 l in
  p_tv p = true /\ p_ev p = true /\
  p_tirq p = (d_cmp d <=? d_now d) /\ p_eirq p = (d_uart d || d_dma d) /\
  pmem_read (p_mem p) 203427844 = claim d.
Proof.
  intros T B F. cbv zeta. destruct (c46_device_refines t0 l T B F) as [A _]. unfold run, dev_run in *. rewrite fold_left_app. cbn [fold_left].
  destruct (fold_left dev_step l (periph_init pmem_init, t0)) as [p t]. cbn [fst snd] in A. cbn [dev_step fst].
  destruct A as (_ & AN & AC & _ & _ & _ & _ & _ & AU & AX & _). unfold tick, update_external_irq. cbv zeta.
  cbn [update_timer_irq set_inj set_mem p_dma p_uart p_mem p_tv p_tirq p_ev p_eirq]. rewrite AN, AC.
  assert (CL : (if p_dma p then DMA_PLIC_IRQ_ID else if p_uart p then UART_PLIC_IRQ_ID else 0) = claim (spec t0 l)) by (unfold claim; rewrite AU, AX; reflexivity).
  rewrite CL. split; [reflexivity|]. split; [reflexivity|]. split; [reflexivity|]. split.
  - unfold claim. destruct (d_dma (spec t0 l)), (d_uart (spec t0 l)); reflexivity.
  - change 203427844 with PLIC_CLAIM_ADDR. rewrite read_write; [|apply plic_w|apply plic_w|apply claim_w]. now rewrite Z.eqb_refl.
Qed.
(** C46: a load from a device address outside the timer and DMA registers
    returns the addressed bytes, extended as the instruction says. *)
Theorem c46_device_load_exact t0 l a f : 0 <= t0 -> t0 + elapsed l < 2 ^ 63 -> Forall event_ok l ->
  is_w 32 a -> load_f3 f -> aligned a f -> in_dev a = true ->
  ~ In a [533782528; 533782532; 533782536; 533782540; 533786624; 533786628; 533786632; 533786636; 533786640] ->
  read_load (fst (run t0 l)) (snd (run t0 l)) a f = isa_load (d_mem (spec t0 l)) a f.
Proof.
  intros T B F A LF AL ID NI.
  assert (EL : 0 <= elapsed l).
  { clear - F. induction F as [|e l E F IH]; [cbn; lia|]. cbn [elapsed fold_right]. fold (elapsed l). destruct e; cbn [event_ok] in E; lia. }
  destruct (run_R l _ _ _ (R_init t0 ltac:(lia)) F B) as [R1 _]. fold (run t0 l) in R1. fold (spec t0 l) in R1.
  destruct (run t0 l) as [p t]. cbn [fst snd] in *. destruct R1 as (W & _ & _ & _ & _ & _ & _ & AM & _).
  unfold read_load. rewrite dev_range, ID by exact A. cbn [negb].
  unfold TIMER_LOW_ADDR, TIMER_HIGH_ADDR, TIMERCMP_LOW_ADDR, TIMERCMP_HIGH_ADDR, DMA_SRC_ADDR, DMA_DST_ADDR, DMA_LEN_ADDR, DMA_CTRL_ADDR, DMA_STATUS_ADDR.
  cbn [In] in NI.
  repeat match goal with |- (if ?x =? ?y then _ else _) = _ => destruct (Z.eqb_spec x y) as [E0|_]; [exfalso; apply NI; symmetry in E0; tauto|] end.
  etransitivity; [exact (read_load_generic (p_mem p) a f W A LF)|]. rewrite generic_load by assumption.
  apply isa_load_ext. intros x X. apply AM. unfold aligned in AL. unfold is_w in A. change (2 ^ 32) with 4294967296 in *.
  destruct (size_cases f) as [E|[E|E]]; rewrite E in *; lia.
Qed.
Example c46_example :
  let l := [Store 268435456 65 0; Store 268435457 7 0; Pass 5; Store 533782536 3 2; Tick] in
  let '(p, t) := run 0 l in
  Forall (fun e => match e with Store a v f => (a mod size f =? 0) = true | _ => True end) l /\
  p_out p = [65] /\ p_tirq p = true /\ p_eirq p = true /\ pmem_read (p_mem p) 203427844 = 10 /\ d_uart (spec 0 l) = true.
Proof. vm_compute. repeat split; repeat constructor. Qed.

(** C33: the timer is a 64-bit counter. The four registers read as the halves
    of the counter and of the comparator of the abstract timer, which advances
    by the time that passed and whose halves are replaced by stores; the level
    is exactly counter >= comparator. *)
Theorem c33_timer_exact t0 l f : 0 <= t0 -> t0 + elapsed l < 2 ^ 63 -> Forall event_ok l ->
  let p := fst (run t0 l) in let t := snd (run t0 l) in let d := spec t0 l in
  read_load p t 533782528 f = d_now d mod 2 ^ 32 /\ read_load p t 533782532 f = d_now d / 2 ^ 32 /\
  read_load p t 533782536 f = d_cmp d mod 2 ^ 32 /\ read_load p t 533782540 f = d_cmp d / 2 ^ 32 /\
  timer_irq_level p t = (d_cmp d <=? d_now d) /\ is_w 64 (d_now d) /\ is_w 64 (d_cmp d).
Proof.
  intros T B F. cbv zeta.
  assert (EL : 0 <= elapsed l).
  { clear - F. induction F as [|e l E F IH]; [cbn; lia|]. cbn [elapsed fold_right]. fold (elapsed l). destruct e; cbn [event_ok] in E; lia. }
  destruct (run_R l _ _ _ (R_init t0 ltac:(lia)) F B) as [R1 _]. fold (run t0 l) in R1. fold (spec t0 l) in R1.
  destruct (run t0 l) as [p t]. cbn [fst snd] in *. destruct R1 as (_ & _ & WC & _ & _ & _ & _ & _ & AN & AC & _).
  assert (EW := eff_w p t). rewrite AN in EW. rewrite AC in WC.
  assert (H : forall x, is_w 64 x -> wrap 32 (Z.shiftr x 32) = x / 2 ^ 32).
  { intros x X. rewrite Z.shiftr_div_pow2 by lia. apply wrap_id. unfold is_w in *. change (2 ^ 64) with 18446744073709551616 in X. change (2 ^ 32) with 4294967296. lia. }
  unfold timer_irq_level. rewrite AN, AC. rewrite <- !H by assumption.
  unfold read_load. rewrite AN, AC.
  change (is_modeled_mmio 533782528) with true. change (is_modeled_mmio 533782532) with true. change (is_modeled_mmio 533782536) with true. change (is_modeled_mmio 533782540) with true.
  cbn [negb]. repeat split; try reflexivity; apply EW || apply WC.
Qed.
Example c33_example :
  let '(p, t) := run 0 [Pass 100; Store 533782532 2 2; Pass 7; Store 533782536 200 2] in
  read_load p t 533782528 2 = 107 /\ read_load p t 533782532 2 = 2 /\ timer_irq_level p t = true.
Proof. vm_compute. repeat split. Qed.

(** C34: starting a transfer whose source and destination lie in RAM moves
    exactly the [len] bytes (as if through a temporary, so overlap is fine),
    changes no other byte of physical memory except the claim register when the
    interrupt is enabled, and reports done; otherwise it reports an error and
    changes nothing. *)
Theorem c34_dma_exact t0 l v x : 0 <= t0 -> t0 + elapsed l < 2 ^ 63 -> Forall event_ok l -> is_w 32 v -> 0 <= x < 2 ^ 32 ->
  ~ (203427844 <= x < 203427848) ->
  let '(p, t) := run t0 l in
  let q := fst (run t0 (l ++ [Store 533786636 v 2])) in
  let byte m y := (pmem_read m y / 256 ^ (y mod 4)) mod 256 in
  let ok := Z.odd v && in_ram_b (p_src p) (p_len p) && in_ram_b (p_dst p) (p_len p) in
  byte (p_mem q) x = (if ok && (p_dst p <=? x) && (x <? p_dst p + p_len p) then byte (p_mem p) (x - p_dst p + p_src p) else byte (p_mem p) x) /\
  p_stat q = (if ok then 2 else if Z.odd v then 4 else p_stat p) /\
  p_dma q = (p_dma p || (ok && Z.testbit v 1)) /\
  p_sync q = (if ok then [(p_dst p, p_len p)] else []) ++ p_sync p /\ p_dead q = false.
Proof.
  intros T B F V X NX.
  assert (F2 : Forall event_ok (l ++ [Store 533786636 v 2])).
  { apply Forall_app. split; [exact F|]. constructor; [|constructor]. cbn [event_ok]. split; [unfold is_w; change (2 ^ 32) with 4294967296; lia|].
    split; [exact V|]. split; [cbn; tauto|reflexivity]. }
  assert (EL : 0 <= elapsed l).
  { clear - F. induction F as [|e l E F IH]; [cbn; lia|]. cbn [elapsed fold_right]. fold (elapsed l). destruct e; cbn [event_ok] in E; lia. }
  assert (E2 : elapsed (l ++ [Store 533786636 v 2]) = elapsed l).
  { clear. induction l as [|e l IH]; [reflexivity|]. cbn [app elapsed fold_right]. fold (elapsed l). fold (elapsed (l ++ [Store 533786636 v 2])). rewrite IH. reflexivity. }
  destruct (c46_device_refines t0 _ T ltac:(rewrite E2; exact B) F2) as [AQ _].
  destruct (run_R l _ _ _ (R_init t0 ltac:(lia)) F B) as [R1 _]. fold (run t0 l) in R1. fold (spec t0 l) in R1.
  assert (SQ : spec t0 (l ++ [Store 533786636 v 2]) = spec_store (spec t0 l) 533786636 v 2) by (unfold spec, spec_run; now rewrite fold_left_app).
  rewrite SQ in AQ. destruct (run t0 l) as [p t]. cbn [fst snd] in R1.
  destruct R1 as (WM & TT & WC & WS & WD & WL & WT & AM & AN & AC & AS & AD & AL & AI & AT & AU & AX & AO & AY & AZ).
  destruct AQ as (QM & _ & _ & _ & _ & _ & _ & QT & _ & QX & _ & QY & QZ). cbv beta zeta.
  set (q := fst (run t0 (l ++ [Store 533786636 v 2]))) in *. set (d := spec t0 l) in *.
  change (spec_store d 533786636 v 2) with (let d := with_regs d (d_src d) (d_dst d) (d_len d) (Z.testbit v 1) (d_stat d) in if Z.testbit v 0 then spec_dma d else d) in *.
  cbv zeta in QM, QT, QX, QY. rewrite Z.bit0_odd in *.
  rewrite QM by exact X. rewrite QT, QX, QY, QZ, AS, AD, AL. unfold spec_dma in *.
  assert (PC : forall e y, ~ (203427844 <= y < 203427848) -> d_mem (post_claim e) y = d_mem e y).
  { intros e y NY. unfold post_claim. cbn [with_mem d_mem]. unfold store_bytes. replace ((203427844 <=? y) && (y <? 203427844 + 4)) with false by lia. reflexivity. }
  cbn [with_regs d_src d_dst d_len d_ien] in *. destruct (Z.odd v); cbn [andb]; cbn [with_regs d_mem d_stat d_dma d_sync];
    [|rewrite orb_false_r, AT, AX, AY; split; [symmetry; apply AM, X|]; split; [reflexivity|]; split; [reflexivity|]; split; reflexivity].
  destruct (in_ram_b (d_src d) (d_len d) && in_ram_b (d_dst d) (d_len d)) eqn:OK; cbn [andb].
  - assert (MV : d_mem (with_mem (with_regs d (d_src d) (d_dst d) (d_len d) (Z.testbit v 1) (d_stat d)) (moved (d_mem d) (d_src d) (d_dst d) (d_len d))) x =
       (if (d_dst d <=? x) && (x <? d_dst d + d_len d) then (pmem_read (p_mem p) (x - d_dst d + d_src d) / 256 ^ ((x - d_dst d + d_src d) mod 4)) mod 256
        else (pmem_read (p_mem p) x / 256 ^ (x mod 4)) mod 256)).
    { cbn [with_mem d_mem]. unfold moved. destruct ((d_dst d <=? x) && (x <? d_dst d + d_len d)) eqn:C; symmetry; apply AM; [|exact X].
      unfold in_ram_b in OK. change (2 ^ 32) with 4294967296. lia. }
    destruct (Z.testbit v 1); cbn [d_ien with_regs with_mem with_out].
    + rewrite PC by exact NX. cbn [d_mem d_stat d_dma d_sync post_claim with_mem with_pend with_out with_regs] in *. rewrite orb_true_r, AY.
      split; [exact MV|]. split; [reflexivity|]. split; [reflexivity|]. split; reflexivity.
    + cbn [d_mem d_stat d_dma d_sync post_claim with_mem with_pend with_out with_regs] in *. rewrite orb_false_r, AX, AY.
      split; [exact MV|]. split; [reflexivity|]. split; [reflexivity|]. split; reflexivity.
  - cbn [d_mem d_stat d_dma d_sync with_regs]. rewrite orb_false_r, AX, AY.
    split; [symmetry; apply AM, X|]. split; [reflexivity|]. split; [reflexivity|]. split; reflexivity.
Qed.
Example c34_example :
  let l := [Store 533786624 2147483648 2; Store 533786628 2147483650 2; Store 533786632 4 2; Store 533786636 3 2] in
  let m := pmem_write (pmem_write pmem_init 2147483648 67305985) 2147483652 134678021 in
  let q := fst (dev_run (periph_init m, 0) l) in
  pmem_read (p_mem q) 2147483648 = 33620481 /\ pmem_read (p_mem q) 2147483652 = 134677507 /\ p_stat q = 2 /\ p_dma q = true /\ p_sync q = [(2147483650, 4)].
Proof. vm_compute. repeat split. Qed.

(** C47, refuted: a byte store to a device register replaces the whole 32-bit
    register, and a byte load returns all 32 bits, because the register paths
    ignore the access width. Here SB writes the low byte of a register value to
    the DMA source register, and LB reads the comparator. *)
Theorem c47_narrow_access_refuted :
  exists l, Forall event_ok l /\
    let p := fst (run 0 l) in
    p_src (fst (run 0 (l ++ [Store 533786624 305419896 0]))) <> p_src p / 256 * 256 + 305419896 mod 256 /\
    read_load p (snd (run 0 l)) 533782536 0 <> extend 0 (read_load p (snd (run 0 l)) 533782536 2 mod 256) /\
    lsu_is_mmio_addr 533786624 = true /\ lsu_is_mmio_addr 533782536 = true.
Proof.
  exists [Store 533782536 4660 2; Store 533786624 0 2]. split.
  - constructor; [|constructor; [|constructor]]; cbn [event_ok]; (split; [unfold is_w; change (2 ^ 32) with 4294967296; lia|]; split; [unfold is_w; change (2 ^ 32) with 4294967296; lia|]; split; [cbn; tauto|reflexivity]).
  - vm_compute. repeat split; discriminate.
Qed.

(** C48: the load/store unit's address test and the device map, compared on
    every address: the exact set of device addresses that are not diverted to
    the uncached path (and so go through the data cache), and the exact set of
    diverted addresses with no modelled device. *)
Theorem c48_undiverted_devices a : is_w 32 a ->
  (is_modeled_mmio a = true /\ lsu_is_mmio_addr a = false) <->
  (268435472 <= a < 268435712 \/ (533782528 <= a < 533782784 /\ ~ In a [533782528; 533782532; 533782536; 533782540])).
Proof.
  intros A. rewrite dev_range by exact A. unfold in_dev, lsu_is_mmio_addr.
  assert (M : forall k c, 0 <= k < 32 -> 0 <= c < 2 ^ 32 -> (Z.land a ((2 ^ (32 - k) - 1) * 2 ^ k) =? c * 2 ^ k) = (a / 2 ^ k =? c)).
  { intros k c K C. assert (E : Z.land a ((2 ^ (32 - k) - 1) * 2 ^ k) = a / 2 ^ k * 2 ^ k).
    { apply Z.bits_inj'. intros i I. rewrite Z.land_spec. destruct (Z.ltb_spec i k).
      - rewrite !Z.mul_pow2_bits_low by lia. apply andb_false_r.
      - rewrite !Z.mul_pow2_bits by lia. rewrite Z.div_pow2_bits by lia. replace (i - k + k) with i by lia.
        rewrite testbit_ones_pred by lia. destruct (Z.ltb_spec i 32).
        + replace (i - k <? 32 - k) with true by lia. apply andb_true_r.
        + rewrite (is_w_testbit 32 a i) by (try assumption; lia). reflexivity. }
    rewrite E. assert (P := Z.pow_pos_nonneg 2 k ltac:(lia) ltac:(lia)).
    destruct (Z.eqb_spec (a / 2 ^ k * 2 ^ k) (c * 2 ^ k)) as [H|H], (Z.eqb_spec (a / 2 ^ k) c) as [G|G]; try reflexivity; exfalso.
    - apply G. apply Z.mul_cancel_r in H; lia.
    - apply H. now rewrite G. }
  assert (M1 := M 4 16777216 ltac:(lia) ltac:(change (2 ^ 32) with 4294967296; lia)).
  change ((2 ^ (32 - 4) - 1) * 2 ^ 4) with 4294967280 in M1. change (16777216 * 2 ^ 4) with 268435456 in M1. change (2 ^ 4) with 16 in M1.
  assert (M2 := M 26 3 ltac:(lia) ltac:(change (2 ^ 32) with 4294967296; lia)).
  change ((2 ^ (32 - 26) - 1) * 2 ^ 26) with 4227858432 in M2. change (3 * 2 ^ 26) with 201326592 in M2. change (2 ^ 26) with 67108864 in M2.
  rewrite M1, M2. cbn [In]. unfold is_w in A. change (2 ^ 32) with 4294967296 in A. clear M M1 M2. lia.
Qed.
Example c48_example : is_modeled_mmio 533782529 = true /\ lsu_is_mmio_addr 533782529 = false.
Proof. vm_compute. split; reflexivity. Qed.

Print Assumptions c32_word_map.
Print Assumptions c32_index_in_bounds.
Print Assumptions c32_io_map_canonical.
Print Assumptions c32_memcpy_exact.
Print Assumptions c32_memcpy_aborts.
Print Assumptions c46_device_refines.
Print Assumptions c46_lines_exact.
Print Assumptions c46_device_load_exact.
Print Assumptions c33_timer_exact.
Print Assumptions c34_dma_exact.
Print Assumptions c47_narrow_access_refuted.
Print Assumptions c48_undiverted_devices.
