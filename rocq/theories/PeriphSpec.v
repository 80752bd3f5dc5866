(** What the physical memory and the device block are required to do, in terms
    of bytes and of 64-bit counters. *)
From Verif Require Import Base MemSpec PeriphModel.

(** Physical memory as a map from word addresses: the most recent write to the
    word, or zero. Writes are listed oldest first. *)
Fixpoint last_write (l : list (Z * Z)) (a : Z) : Z :=
  match l with
  | [] => 0
  | (b, v) :: t => if existsb (fun w => fst w / 4 =? a / 4) t then last_write t a
                   else if b / 4 =? a / 4 then v else 0
  end.

(** [n] bytes from [a] are inside RAM. *)
Definition in_ram (a n : Z) : Prop := 2147483648 <= a /\ 0 < n /\ a + n <= 2147483648 + 1073741824.
Definition in_ram_b (a n : Z) : bool := (2147483648 <=? a) && (0 <? n) && (a + n <=? 2147483648 + 1073741824).
(** memmove *)
Definition moved (m : bmem) (src dst n : Z) : bmem := fun x => if (dst <=? x) && (x <? dst + n) then m (x - dst + src) else m x.

Record dev := mkd {
  d_mem : bmem; d_now : Z; d_cmp : Z; d_src : Z; d_dst : Z; d_len : Z; d_ien : bool; d_stat : Z;
  d_uart : bool; d_dma : bool; d_out : list Z; d_sync : list (Z * Z) }.
Definition set_lo (x v : Z) : Z := x / 2 ^ 32 * 2 ^ 32 + v.
Definition set_hi (x v : Z) : Z := v * 2 ^ 32 + x mod 2 ^ 32.
Definition with_mem (d : dev) (m : bmem) : dev :=
  mkd m (d_now d) (d_cmp d) (d_src d) (d_dst d) (d_len d) (d_ien d) (d_stat d) (d_uart d) (d_dma d) (d_out d) (d_sync d).
Definition with_timer (d : dev) (n c : Z) : dev :=
  mkd (d_mem d) n c (d_src d) (d_dst d) (d_len d) (d_ien d) (d_stat d) (d_uart d) (d_dma d) (d_out d) (d_sync d).
Definition with_regs (d : dev) (s t l : Z) (ien : bool) (st : Z) : dev :=
  mkd (d_mem d) (d_now d) (d_cmp d) s t l ien st (d_uart d) (d_dma d) (d_out d) (d_sync d).
Definition with_pend (d : dev) (u m : bool) : dev :=
  mkd (d_mem d) (d_now d) (d_cmp d) (d_src d) (d_dst d) (d_len d) (d_ien d) (d_stat d) u m (d_out d) (d_sync d).
Definition with_out (d : dev) (o : list Z) (s : list (Z * Z)) : dev :=
  mkd (d_mem d) (d_now d) (d_cmp d) (d_src d) (d_dst d) (d_len d) (d_ien d) (d_stat d) (d_uart d) (d_dma d) o s.
(** The interrupt controller's claim register shows the highest pending source. *)
Definition claim (d : dev) : Z := if d_dma d then 11 else if d_uart d then 10 else 0.
Definition post_claim (d : dev) : dev := with_mem d (store_bytes (d_mem d) 203427844 4 (claim d)).
Definition spec_dma (d : dev) : dev :=
  if in_ram_b (d_src d) (d_len d) && in_ram_b (d_dst d) (d_len d)
  then let d := with_mem d (moved (d_mem d) (d_src d) (d_dst d) (d_len d)) in
       let d := with_out d (d_out d) ((d_dst d, d_len d) :: d_sync d) in
       let d := with_regs d (d_src d) (d_dst d) (d_len d) (d_ien d) 2 in
       if d_ien d then post_claim (with_pend d (d_uart d) true) else d
  else with_regs d (d_src d) (d_dst d) (d_len d) (d_ien d) 4.
Definition in_dev (a : Z) : bool :=
  (268435456 <=? a) && (a <? 268435456 + 256) || (201326592 <=? a) && (a <? 201326592 + 2162688) ||
  (533786624 <=? a) && (a <? 533786624 + 256) || (533782528 <=? a) && (a <? 533782528 + 256).
(** Replace the low half of a byte. *)
Definition set_nibble (m : bmem) (a v : Z) : bmem := store_bytes m a 1 (m a / 16 * 16 + v).
Definition spec_store (d : dev) (a v f3 : Z) : dev :=
  if negb (in_dev a) then d
  else if a =? 533782528 then with_timer d (set_lo (d_now d) v) (d_cmp d)
  else if a =? 533782532 then with_timer d (set_hi (d_now d) v) (d_cmp d)
  else if a =? 533782536 then with_timer d (d_now d) (set_lo (d_cmp d) v)
  else if a =? 533782540 then with_timer d (d_now d) (set_hi (d_cmp d) v)
  else if a =? 533786624 then with_regs d v (d_dst d) (d_len d) (d_ien d) (d_stat d)
  else if a =? 533786628 then with_regs d (d_src d) v (d_len d) (d_ien d) (d_stat d)
  else if a =? 533786632 then with_regs d (d_src d) (d_dst d) v (d_ien d) (d_stat d)
  else if a =? 533786636 then
    let d := with_regs d (d_src d) (d_dst d) (d_len d) (Z.testbit v 1) (d_stat d) in
    if Z.testbit v 0 then spec_dma d else d
  else if a =? 533786640 then with_regs d (d_src d) (d_dst d) (d_len d) (d_ien d) (Z.ldiff (d_stat d) v)
  else
    let d := with_mem d (store_bytes (d_mem d) a (size f3) v) in
    if a =? 268435456 then with_out (with_mem d (store_bytes (d_mem d) a 1 0)) (v mod 256 :: d_out d) (d_sync d)
    else if a =? 268435457 then
      if v mod 256 =? 7 then post_claim (with_pend (with_mem d (set_nibble (d_mem d) 268435458 0)) true (d_dma d))
      else if v mod 256 =? 5 then with_mem d (set_nibble (d_mem d) 268435458 3)
      else d
    else if a =? 203427844 then
      post_claim (with_pend d (if v mod 256 =? 10 then false else d_uart d) (if v mod 256 =? 11 then false else d_dma d))
    else d.
Definition spec_step (d : dev) (e : devent) : dev :=
  match e with
  | Store a v f => spec_store d a v f
  | Tick => post_claim d
  | Pass k => with_timer d ((d_now d + k) mod 2 ^ 64) (d_cmp d)
  end.
Definition spec_run (d : dev) (l : list devent) : dev := fold_left spec_step l d.
Definition dev_init : dev := mkd (fun _ => 0) 0 0 0 0 0 false 0 false false [] [].

(** Events the core can produce: aligned stores of 32-bit words; time moves
    forward. *)
Definition event_ok (e : devent) : Prop :=
  match e with
  | Store a v f => is_w 32 a /\ is_w 32 v /\ store_f3 f /\ aligned a f
  | Tick => True
  | Pass k => 0 <= k
  end.
(** Simulated time passed. *)
Definition elapsed (l : list devent) : Z := fold_right (fun e s => match e with Pass k => k + s | _ => s end) 0 l.

(** Agreement of the device block with the abstract one. Memory is compared on
    every byte of the 32-bit physical address space. *)
Definition agrees (p : periph) (t : Z) (d : dev) : Prop :=
  (forall x, 0 <= x < 2 ^ 32 -> (pmem_read (p_mem p) x / 256 ^ (x mod 4)) mod 256 = d_mem d x) /\
  effective_timer_value p t = d_now d /\ p_cmp p = d_cmp d /\
  p_src p = d_src d /\ p_dst p = d_dst d /\ p_len p = d_len d /\ Z.testbit (p_ctrl p) 1 = d_ien d /\
  p_stat p = d_stat d /\ p_uart p = d_uart d /\ p_dma p = d_dma d /\
  p_out p = d_out d /\ p_sync p = d_sync d /\ p_dead p = false.
