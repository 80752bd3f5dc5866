(** Physical memory and memory-mapped devices. *)
From Verif Require Import Base.

(** PhysMemory.h:17, config.h:47-49 (RAM_SIZE = 2^30 bytes). *)
Definition PMEM_RAM_BASE : Z := 2147483648.
Definition RAM_SIZE : Z := 1073741824.
(** config.h:630-655 *)
Definition UART_ADDR_BASE : Z := 268435456.
Definition UART_MMIO_SIZE : Z := 256.
Definition PLIC_ADDR_BASE : Z := 201326592.
Definition PLIC_MMIO_SIZE : Z := 2162688.
Definition PLIC_CLAIM_ADDR : Z := 203427844.
Definition UART_PLIC_IRQ_ID : Z := 10.
Definition DMA_PLIC_IRQ_ID : Z := 11.
Definition TIMER_BASE : Z := 533782528.
Definition TIMER_MMIO_SIZE : Z := 256.
Definition TIMER_LOW_ADDR : Z := 533782528.
Definition TIMER_HIGH_ADDR : Z := 533782532.
Definition TIMERCMP_LOW_ADDR : Z := 533782536.
Definition TIMERCMP_HIGH_ADDR : Z := 533782540.
Definition DMA_ADDR_BASE : Z := 533786624.
Definition DMA_MMIO_SIZE : Z := 256.
Definition DMA_SRC_ADDR : Z := 533786624.
Definition DMA_DST_ADDR : Z := 533786628.
Definition DMA_LEN_ADDR : Z := 533786632.
Definition DMA_CTRL_ADDR : Z := 533786636.
Definition DMA_STATUS_ADDR : Z := 533786640.

(** PhysMemory.cpp:9-12: p_memory (word array, here a function of the word
    index) and g_io_words (hash map). *)
Record pmem := mkpm { ram : Z -> Z; io : Z -> option Z }.
(** PhysMemory.cpp:31-43 / 53-58: calloc/memset and clear. *)
Definition pmem_init : pmem := mkpm (fun _ => 0) (fun _ => None).
(** PhysMemory.cpp:60-67 (64-bit sum) *)
Definition pmem_is_ram_addr (paddr size : Z) : bool :=
  if (size =? 0) || (paddr <? PMEM_RAM_BASE) then false
  else wrap 64 (wrap 64 (paddr + size) - 1) <? PMEM_RAM_BASE + RAM_SIZE.
(** paddr & ~0x3u *)
Definition word_addr (paddr : Z) : Z := Z.land paddr 4294967292.
(** (word_addr - PMEM_RAM_BASE) >> 2 *)
Definition ram_idx (wa : Z) : Z := Z.shiftr (w32 (wa - PMEM_RAM_BASE)) 2.
(** PhysMemory.cpp:69-77 *)
Definition pmem_read (m : pmem) (paddr : Z) : Z :=
  let wa := word_addr paddr in
  if pmem_is_ram_addr wa 4 then ram m (ram_idx wa)
  else match io m wa with None => 0 | Some v => v end.
(** PhysMemory.cpp:79-91 *)
Definition pmem_write (m : pmem) (paddr data : Z) : pmem :=
  let wa := word_addr paddr in
  if pmem_is_ram_addr wa 4
  then mkpm (fun i => if i =? ram_idx wa then data else ram m i) (io m)
  else if data =? 0 then mkpm (ram m) (fun a => if a =? wa then None else io m a)
  else mkpm (ram m) (fun a => if a =? wa then Some data else io m a).

(** Byte [o] of the word array seen as uint8_t (little-endian host). *)
Definition ram_byte (r : Z -> Z) (o : Z) : Z := Z.land (Z.shiftr (r (o / 4)) (8 * (o mod 4))) 255.
Definition ram_set_byte (r : Z -> Z) (o b : Z) : Z -> Z :=
  fun i => if i =? o / 4
           then Z.lor (Z.land (r i) (Z.lnot (Z.shiftl 255 (8 * (o mod 4))))) (Z.shiftl (Z.land b 255) (8 * (o mod 4)))
           else r i.
(** memcpy, byte by byte, to / from the byte offset [off]. *)
Fixpoint cpy_to (r : Z -> Z) (off : Z) (src : list Z) : Z -> Z :=
  match src with [] => r | b :: t => cpy_to (ram_set_byte r off b) (off + 1) t end.
Fixpoint cpy_from (r : Z -> Z) (off : Z) (n : nat) : list Z :=
  match n with O => [] | S k => ram_byte r off :: cpy_from r (off + 1) k end.
(** PhysMemory.cpp:93-106, 108-121; [None] is abort. *)
Definition pmem_memcpy_to_ram (m : pmem) (paddr : Z) (src : list Z) : option pmem :=
  let len := Z.of_nat (length src) in
  if len =? 0 then Some m
  else if RAM_SIZE <? len then None
  else if negb (pmem_is_ram_addr paddr (w32 len)) then None
  else Some (mkpm (cpy_to (ram m) (w32 (paddr - PMEM_RAM_BASE)) src) (io m)).
Definition pmem_memcpy_from_ram (m : pmem) (paddr len : Z) : option (list Z) :=
  if len =? 0 then Some []
  else if RAM_SIZE <? len then None
  else if negb (pmem_is_ram_addr paddr (w32 len)) then None
  else Some (cpy_from (ram m) (w32 (paddr - PMEM_RAM_BASE)) (Z.to_nat len)).

(** PeripheralModel.h:20-31. [csr_interrupt_inject] and [memory] are bound
    (MemSubsystem init), so the null tests are dropped. [p_out]: characters
    written to stdout, newest first; [p_sync]: calls of ram_sync_hook_, newest
    first; [p_dead]: abort reached in pmem_memcpy. *)
Record periph := mkp {
  p_mem : pmem; p_off : Z; p_cmp : Z;
  p_src : Z; p_dst : Z; p_len : Z; p_ctrl : Z; p_stat : Z;
  p_uart : bool; p_dma : bool;
  p_tv : bool; p_tirq : bool; p_ev : bool; p_eirq : bool;
  p_out : list Z; p_sync : list (Z * Z); p_dead : bool }.
Definition periph_init (m : pmem) : periph :=
  mkp m 0 0 0 0 0 0 0 false false false false false false [] [] false.

Definition set_mem (p : periph) (m : pmem) : periph :=
  mkp m (p_off p) (p_cmp p) (p_src p) (p_dst p) (p_len p) (p_ctrl p) (p_stat p) (p_uart p) (p_dma p)
      (p_tv p) (p_tirq p) (p_ev p) (p_eirq p) (p_out p) (p_sync p) (p_dead p).
Definition set_timer (p : periph) (off cmp : Z) : periph :=
  mkp (p_mem p) off cmp (p_src p) (p_dst p) (p_len p) (p_ctrl p) (p_stat p) (p_uart p) (p_dma p)
      (p_tv p) (p_tirq p) (p_ev p) (p_eirq p) (p_out p) (p_sync p) (p_dead p).
Definition set_dma (p : periph) (src dst len ctrl stat : Z) : periph :=
  mkp (p_mem p) (p_off p) (p_cmp p) src dst len ctrl stat (p_uart p) (p_dma p)
      (p_tv p) (p_tirq p) (p_ev p) (p_eirq p) (p_out p) (p_sync p) (p_dead p).
Definition set_pend (p : periph) (u d : bool) : periph :=
  mkp (p_mem p) (p_off p) (p_cmp p) (p_src p) (p_dst p) (p_len p) (p_ctrl p) (p_stat p) u d
      (p_tv p) (p_tirq p) (p_ev p) (p_eirq p) (p_out p) (p_sync p) (p_dead p).
Definition set_inj (p : periph) (tv t ev e : bool) : periph :=
  mkp (p_mem p) (p_off p) (p_cmp p) (p_src p) (p_dst p) (p_len p) (p_ctrl p) (p_stat p) (p_uart p) (p_dma p)
      tv t ev e (p_out p) (p_sync p) (p_dead p).
Definition set_log (p : periph) (o : list Z) (s : list (Z * Z)) (d : bool) : periph :=
  mkp (p_mem p) (p_off p) (p_cmp p) (p_src p) (p_dst p) (p_len p) (p_ctrl p) (p_stat p) (p_uart p) (p_dma p)
      (p_tv p) (p_tirq p) (p_ev p) (p_eirq p) o s d.

(** PeripheralModel.h:43-54 *)
Definition in_range (addr base size : Z) : bool := if addr <? base then false else w32 (addr - base) <? size.
Definition is_modeled_mmio (paddr : Z) : bool :=
  in_range paddr UART_ADDR_BASE UART_MMIO_SIZE || in_range paddr PLIC_ADDR_BASE PLIC_MMIO_SIZE ||
  in_range paddr DMA_ADDR_BASE DMA_MMIO_SIZE || in_range paddr TIMER_BASE TIMER_MMIO_SIZE.

(** PeripheralModel.h:219-225; [t] is sim_time (a signed 64-bit count). *)
Definition current_sim_time_u64 (t : Z) : Z := if 0 <=? t then t else 0.
Definition effective_timer_value (p : periph) (t : Z) : Z := wrap 64 (current_sim_time_u64 t + p_off p).
(** PeripheralModel.h:216 *)
Definition timer_irq_level (p : periph) (t : Z) : bool := p_cmp p <=? effective_timer_value p t.

(** PeripheralModel.h:56-112 *)
Definition read_load (p : periph) (t paddr func3 : Z) : Z :=
  if negb (is_modeled_mmio paddr) then 0
  else if paddr =? TIMER_LOW_ADDR then wrap 32 (effective_timer_value p t)
  else if paddr =? TIMER_HIGH_ADDR then wrap 32 (Z.shiftr (effective_timer_value p t) 32)
  else if paddr =? TIMERCMP_LOW_ADDR then wrap 32 (p_cmp p)
  else if paddr =? TIMERCMP_HIGH_ADDR then wrap 32 (Z.shiftr (p_cmp p) 32)
  else if paddr =? DMA_SRC_ADDR then p_src p
  else if paddr =? DMA_DST_ADDR then p_dst p
  else if paddr =? DMA_LEN_ADDR then p_len p
  else if paddr =? DMA_CTRL_ADDR then p_ctrl p
  else if paddr =? DMA_STATUS_ADDR then p_stat p
  else
    let shift := Z.land paddr 3 * 8 in
    let data := Z.shiftr (pmem_read (p_mem p) paddr) shift in
    let size := Z.land func3 3 in
    let sign := if size =? 0 then (if nz (Z.land data 128) then 4294967040 else 0)
                else if size =? 1 then (if nz (Z.land data 32768) then 4294901760 else 0) else 0 in
    let mask := if size =? 0 then 255 else if size =? 1 then 65535 else 4294967295 in
    let data := Z.land data mask in
    if Z.land func3 4 =? 0 then Z.lor data sign else data.

(** PeripheralModel.h:251-258 *)
Definition update_timer_irq (p : periph) (t : Z) : periph :=
  set_inj p true (p_cmp p <=? effective_timer_value p t) (p_ev p) (p_eirq p).
(** PeripheralModel.h:260-273 *)
Definition update_external_irq (p : periph) : periph :=
  let claim_id := if p_dma p then DMA_PLIC_IRQ_ID else if p_uart p then UART_PLIC_IRQ_ID else 0 in
  let p := set_mem p (pmem_write (p_mem p) PLIC_CLAIM_ADDR claim_id) in
  set_inj p (p_tv p) (p_tirq p) true (nz claim_id).
(** PeripheralModel.h:212-215 *)
Definition tick (p : periph) (t : Z) : periph := update_external_irq (update_timer_irq p t).

(** PeripheralModel.h:227-249 *)
Definition set_stat (p : periph) (s : Z) : periph := set_dma p (p_src p) (p_dst p) (p_len p) (p_ctrl p) s.
Definition start_dma_transfer (p : periph) : periph :=
  let p := set_stat p 1 in
  let valid_range := (0 <? p_len p) && pmem_is_ram_addr (p_src p) (p_len p) && pmem_is_ram_addr (p_dst p) (p_len p) in
  if negb valid_range then set_stat p 4
  else
    match pmem_memcpy_from_ram (p_mem p) (p_src p) (p_len p) with
    | None => set_log p (p_out p) (p_sync p) true
    | Some temp =>
      match pmem_memcpy_to_ram (p_mem p) (p_dst p) temp with
      | None => set_log p (p_out p) (p_sync p) true
      | Some m =>
        let p := set_mem p m in
        let p := set_log p (p_out p) ((p_dst p, p_len p) :: p_sync p) (p_dead p) in
        let p := set_stat p 2 in
        if nz (Z.land (p_ctrl p) 2) then update_external_irq (set_pend p (p_uart p) true) else p
      end
    end.

(** PeripheralModel.h:275-293 *)
Definition mask_store_data (data func3 : Z) : Z :=
  if Z.land func3 3 =? 0 then Z.land data 255 else if Z.land func3 3 =? 1 then Z.land data 65535 else data.
Definition mask_store_mask (func3 : Z) : Z :=
  if Z.land func3 3 =? 0 then 255 else if Z.land func3 3 =? 1 then 65535 else 4294967295.

(** PeripheralModel.h:114-210 *)
Definition on_commit_store (p : periph) (t paddr data func3 : Z) : periph :=
  if negb (is_modeled_mmio paddr) then p
  else if (paddr =? TIMER_LOW_ADDR) || (paddr =? TIMER_HIGH_ADDR) then
    let current_timer := effective_timer_value p t in
    let new_timer := if paddr =? TIMER_LOW_ADDR
                     then Z.lor (Z.land current_timer 18446744069414584320) data
                     else Z.lor (wrap 64 (Z.shiftl data 32)) (Z.land current_timer 4294967295) in
    update_timer_irq (set_timer p (wrap 64 (new_timer - current_sim_time_u64 t)) (p_cmp p)) t
  else if paddr =? TIMERCMP_LOW_ADDR then
    update_timer_irq (set_timer p (p_off p) (Z.lor (Z.land (p_cmp p) 18446744069414584320) data)) t
  else if paddr =? TIMERCMP_HIGH_ADDR then
    update_timer_irq (set_timer p (p_off p) (Z.lor (wrap 64 (Z.shiftl data 32)) (Z.land (p_cmp p) 4294967295))) t
  else if paddr =? DMA_SRC_ADDR then set_dma p data (p_dst p) (p_len p) (p_ctrl p) (p_stat p)
  else if paddr =? DMA_DST_ADDR then set_dma p (p_src p) data (p_len p) (p_ctrl p) (p_stat p)
  else if paddr =? DMA_LEN_ADDR then set_dma p (p_src p) (p_dst p) data (p_ctrl p) (p_stat p)
  else if paddr =? DMA_CTRL_ADDR then
    let p := set_dma p (p_src p) (p_dst p) (p_len p) (Z.land data 2) (p_stat p) in
    if nz (Z.land data 1) then start_dma_transfer p else p
  else if paddr =? DMA_STATUS_ADDR then set_stat p (Z.land (p_stat p) (w32 (Z.lnot data)))
  else
    let shift := Z.land paddr 3 * 8 in
    let store_data := mask_store_data data func3 in
    let mask := w32 (Z.shiftl (mask_store_mask func3) shift) in
    let wdata := w32 (Z.shiftl store_data shift) in
    let old_data := pmem_read (p_mem p) paddr in
    let m := pmem_write (p_mem p) paddr (Z.lor (Z.land old_data (w32 (Z.lnot mask))) (Z.land wdata mask)) in
    if paddr =? UART_ADDR_BASE then
      let m := pmem_write m UART_ADDR_BASE (Z.land (pmem_read m UART_ADDR_BASE) 4294967040) in
      set_log (set_mem p m) (Z.land data 255 :: p_out p) (p_sync p) (p_dead p)
    else if paddr =? UART_ADDR_BASE + 1 then
      let cmd := Z.land store_data 255 in
      if cmd =? 7 then
        let m := pmem_write m UART_ADDR_BASE (Z.land (pmem_read m UART_ADDR_BASE) 4293984255) in
        update_external_irq (set_pend (set_mem p m) true (p_dma p))
      else if cmd =? 5 then
        set_mem p (pmem_write m UART_ADDR_BASE (Z.lor (Z.land (pmem_read m UART_ADDR_BASE) 4293984255) 196608))
      else set_mem p m
    else if paddr =? PLIC_CLAIM_ADDR then
      let claim := Z.land store_data 255 in
      let p := set_mem p m in
      let p := if claim =? UART_PLIC_IRQ_ID then set_pend p false (p_dma p)
               else if claim =? DMA_PLIC_IRQ_ID then set_pend p (p_uart p) false else p in
      update_external_irq p
    else set_mem p m.

(** One step of the device block: MemSubsystem.cpp:772-774 (commit), :1189
    (tick once per cycle), and the passing of simulated time. *)
Inductive devent :=
| Store (paddr data func3 : Z)
| Tick
| Pass (d : Z).
Definition dev_step (st : periph * Z) (e : devent) : periph * Z :=
  let '(p, t) := st in
  match e with
  | Store a d f => (on_commit_store p t a d f, t)
  | Tick => (tick p t, t)
  | Pass d => (p, t + d)
  end.
Definition dev_run (st : periph * Z) (l : list devent) : periph * Z := fold_left dev_step l st.
