(** The instruction cache: front-end/icache/icache_module.cpp (comb_core,
    eval_state_machine, lookup), its tables (icache.cpp) and the glue around it
    (ICacheTop.cpp), for the shipped configuration: ICACHE_LOOKUP_LATENCY = 0,
    64 sets of 8 ways of 64 bytes, CONFIG_ICACHE_USE_AXI_MEM_PORT = 1.

    Simplifications.  The packing of registers and ports into bit arrays and back
    (compact_io_generator) is the identity on values that fit their widths, and is
    left out.  With lookup latency 0 [lookup_pending_r], [lookup_index_r] and
    [lookup_pc_r] stay at reset value, and are left out.  Performance counters,
    traces and the reset input are left out: the model starts in the reset state.
    Address translation is an input: a function from virtual page to answer. *)
From Verif Require Import Base.

Definition line := Z -> Z.            (* 16 words *)
Definition WORDS : Z := 16.           (* ICACHE_WORD_NUM, config.h:293 *)
Definition WAYS : nat := 8.           (* ICACHE_WAY_NUM, config.h:289 *)

(** icache_module.h:96-102; AXI_IDLE / AXI_BUSY is the flag [r_busy]. *)
Inductive icst := IDLE | SWAP_IN | WAIT_DC | DRAIN | CANCEL_WAIT.

(** ICache_regs_t, icache_module.h:126-159; [req_index_r] is a function of
    [req_pc_r] (decode_packed_regs, icache_module.cpp:200-202). *)
Record regs := mkregs {
  r_rv : bool;            (* req_valid_r *)
  r_pc : Z;               (* req_pc_r *)
  r_rdy : bool;           (* ifu_req_ready_r *)
  r_st : icst;
  r_busy : bool;          (* mem_axi_state == AXI_BUSY *)
  r_md : line;            (* mem_resp_data_r *)
  r_repl : nat;           (* replace_idx *)
  r_ppn : Z;
  r_txv : bool;           (* miss_txid_valid_r *)
  r_tx : nat;             (* miss_txid_r *)
  r_seen : bool;          (* miss_ready_seen_r *)
  r_inf : nat -> bool;    (* txid_inflight_r *)
  r_can : nat -> bool;    (* txid_canceled_r *)
  r_pi : bool;            (* dcache_probe_inflight_r *)
  r_pd : bool;            (* dcache_probe_done_r *)
  r_ph : bool;            (* dcache_probe_hit_r *)
  r_pw : Z;               (* dcache_probe_word_r *)
  r_pl : line }.          (* dcache_probe_data_r *)

Definition zline : line := fun _ => 0.
(** reset(), icache_module.cpp:669-708 *)
Definition regs0 : regs :=
  mkregs false 0 true IDLE false zline 0 0 false 0 false (fun _ => false) (fun _ => false)
         false false false 0 zline.

(** Field writes. *)
Definition s_req v pc (r : regs) := mkregs v pc (r_rdy r) (r_st r) (r_busy r) (r_md r) (r_repl r) (r_ppn r) (r_txv r) (r_tx r) (r_seen r) (r_inf r) (r_can r) (r_pi r) (r_pd r) (r_ph r) (r_pw r) (r_pl r).
Definition s_rdy v (r : regs) := mkregs (r_rv r) (r_pc r) v (r_st r) (r_busy r) (r_md r) (r_repl r) (r_ppn r) (r_txv r) (r_tx r) (r_seen r) (r_inf r) (r_can r) (r_pi r) (r_pd r) (r_ph r) (r_pw r) (r_pl r).
Definition s_st s b (r : regs) := mkregs (r_rv r) (r_pc r) (r_rdy r) s b (r_md r) (r_repl r) (r_ppn r) (r_txv r) (r_tx r) (r_seen r) (r_inf r) (r_can r) (r_pi r) (r_pd r) (r_ph r) (r_pw r) (r_pl r).
Definition s_md d w (r : regs) := mkregs (r_rv r) (r_pc r) (r_rdy r) (r_st r) (r_busy r) d w (r_ppn r) (r_txv r) (r_tx r) (r_seen r) (r_inf r) (r_can r) (r_pi r) (r_pd r) (r_ph r) (r_pw r) (r_pl r).
Definition s_ppn v (r : regs) := mkregs (r_rv r) (r_pc r) (r_rdy r) (r_st r) (r_busy r) (r_md r) (r_repl r) v (r_txv r) (r_tx r) (r_seen r) (r_inf r) (r_can r) (r_pi r) (r_pd r) (r_ph r) (r_pw r) (r_pl r).
Definition s_tx v x sn (r : regs) := mkregs (r_rv r) (r_pc r) (r_rdy r) (r_st r) (r_busy r) (r_md r) (r_repl r) (r_ppn r) v x sn (r_inf r) (r_can r) (r_pi r) (r_pd r) (r_ph r) (r_pw r) (r_pl r).
Definition s_id k i c (r : regs) := mkregs (r_rv r) (r_pc r) (r_rdy r) (r_st r) (r_busy r) (r_md r) (r_repl r) (r_ppn r) (r_txv r) (r_tx r) (r_seen r) (fupd (r_inf r) k i) (fupd (r_can r) k c) (r_pi r) (r_pd r) (r_ph r) (r_pw r) (r_pl r).
Definition s_inf k i (r : regs) := mkregs (r_rv r) (r_pc r) (r_rdy r) (r_st r) (r_busy r) (r_md r) (r_repl r) (r_ppn r) (r_txv r) (r_tx r) (r_seen r) (fupd (r_inf r) k i) (r_can r) (r_pi r) (r_pd r) (r_ph r) (r_pw r) (r_pl r).
Definition s_pr i d h w l (r : regs) := mkregs (r_rv r) (r_pc r) (r_rdy r) (r_st r) (r_busy r) (r_md r) (r_repl r) (r_ppn r) (r_txv r) (r_tx r) (r_seen r) (r_inf r) (r_can r) i d h w l.

(** The set read from the tag and valid tables. *)
Definition setmeta := nat -> (bool * Z).
(** ICache_in_t, icache_module.h:178-203, with the two lookup inputs. *)
Record minp := mkminp {
  i_pc : Z; i_v : bool; i_kill : bool; i_flush : bool;
  i_ppn : Z; i_pv : bool; i_pf : bool;
  i_ready : bool; i_acc : option nat;             (* mem_req_ready; mem_req_accepted + id *)
  i_rsp : option (nat * line);                    (* mem_resp_valid + id + data *)
  i_dc : option (option Z);                       (* dcache_resp: Some None = miss *)
  i_meta : option setmeta;                        (* meta_resp_valid *)
  i_data : option (nat * line) }.                 (* data_resp_valid + way + line *)
(** ICache_out_t and the table write port. *)
Record mout := mkmout {
  o_rsp : option (Z * bool * line);               (* ifu_resp_valid: pc, page fault, line *)
  o_rdy : bool;                                   (* ifu_req_ready *)
  o_mmu : option Z;                               (* mmu_req: virtual page *)
  o_mem : option (nat * Z);                       (* mem_req_valid: id, address *)
  o_rrdy : bool;                                  (* mem_resp_ready *)
  o_probe : option Z;                             (* dcache_req *)
  o_lreq : option (Z * nat);                      (* lookup_data_req: index, way *)
  o_tw : option (Z * nat * line * Z) }.           (* table_write: index, way, data, tag *)

Definition idx_of (pc : Z) : Z := (pc / 64) mod 64.
(** icache_line_base_addr, icache_module.cpp:135-137 *)
Definition line_addr (ppn pc : Z) : Z := Z.lor (Z.shiftl ppn 12) (Z.shiftl (idx_of pc) 6).

(** pack_lookup_meta_input, icache_module.cpp:362-385: first valid way with the
    tag, first invalid way. *)
Fixpoint find_way (p : nat -> bool) (w n : nat) : option nat :=
  match n with O => None | S n' => if p w then Some w else find_way p (S w) n' end.
Definition hit_way (m : option setmeta) (tag : Z) : option nat :=
  match m with Some s => find_way (fun w => fst (s w) && (snd (s w) =? tag)) 0 WAYS | None => None end.
Definition free_way (m : option setmeta) : option nat :=
  match m with Some s => find_way (fun w => negb (fst (s w))) 0 WAYS | None => None end.
(** capture_lookup_data_result, icache_module.cpp:839-853 *)
Definition hit_data (i : minp) (way : nat) : option line :=
  match i_data i with Some (w, l) => if Nat.eqb w way then Some l else None | None => None end.

(** icache_req_slot_idle, icache_module.cpp:119-124 *)
Definition slot_idle (r : regs) : bool :=
  negb (r_rv r) && match r_st r with IDLE => true | _ => false end && negb (r_busy r) && negb (r_txv r).
(** alloc_free_txid, icache_module.cpp:126-133 *)
Definition alloc_txid (r : regs) : option nat := find_way (fun k => negb (r_inf r k)) 0 16.

Definition clr_probe (r : regs) : regs := s_pr false false false 0 zline r.

(** step_dcache_probe, icache_module.cpp:1046-1089: (done, hit, line, request, registers). *)
Definition probe_step (i : minp) (r w : regs) : bool * bool * line * option Z * regs :=
  let req := negb (r_pd r) && negb (r_pi r) && (r_pw r <? WORDS) && r_rv r in
  let w := if req then s_pr true (r_pd w) (r_ph w) (r_pw w) (r_pl w) w else w in
  let ra := if req then Some (line_addr (r_ppn r) (r_pc r) + r_pw r * 4) else None in
  match r_pi r, i_dc i with
  | true, Some None =>
      (true, false, r_pl r, ra, s_pr false true false (r_pw w) (r_pl w) w)
  | true, Some (Some d) =>
      let l := fun k => if k =? r_pw r then d else r_pl r k in
      if WORDS <=? r_pw r + 1
      then (true, true, l, ra, s_pr false true true (r_pw w) l w)
      else (r_pd r, true, l, ra, s_pr false (r_pd w) true (r_pw r + 1) l w)
  | _, _ => (r_pd r, r_ph r, r_pl r, ra, w)
  end.

(** What eval_state_machine leaves behind. *)
Record ev := mkev {
  e_w : regs;                 (* reg_write *)
  e_rdy : bool;               (* req_ready_w *)
  e_fast : bool;              (* fast_bypass_fire *)
  e_rsp : option (Z * bool * line);
  e_mem : option (nat * Z); e_rrdy : bool; e_probe : option Z;
  e_lreq : option (Z * nat); e_tw : option (Z * nat * line * Z);
  e_gnt : option nat }.       (* mem_gnt, with replace_idx_next *)

(** finish_refill, icache_module.cpp:1127-1165 *)
Definition finish_refill (i : minp) (r w : regs) (l : line) (way : nat) :
  regs * option (Z * bool * line) * option (Z * nat * line * Z) :=
  let w := s_st IDLE false w in
  let w := if r_txv r then s_inf (r_tx r) false w else w in
  let w := clr_probe (s_tx false (r_tx w) false w) in
  (w,
   (if negb (i_kill i) && negb (i_flush i) then Some (r_pc r, false, l) else None),
   (if negb (i_flush i) then Some (idx_of (r_pc r), way, l, r_ppn r) else None)).

Definition drop_miss (w : regs) : regs := clr_probe (s_tx false (r_tx w) false w).

(** replace_idx_next, icache_module.cpp:1114-1120 *)
Definition victim (i : minp) (r : regs) : nat :=
  match free_way (i_meta i) with Some k => k | None => Nat.modulo (r_repl r + 1) WAYS end.

Definition resp_id_is (i : minp) (k : nat) : bool :=
  match i_rsp i with Some (id, _) => Nat.eqb id k | None => false end.
Definition accepts (i : minp) (k : nat) : bool :=
  match i_acc i with Some id => Nat.eqb id k | None => false end.
Definition resp_line (i : minp) : line := match i_rsp i with Some (_, l) => l | None => zline end.

(** Whose answer is it?  icache_module.cpp:999-1017 *)
Definition canceled (i : minp) (r : regs) : bool := match i_rsp i with Some (id, _) => r_can r id | None => false end.
Definition inflight (i : minp) (r : regs) : bool := match i_rsp i with Some (id, _) => r_inf r id | None => false end.
Definition same_cycle (i : minp) (r : regs) : bool :=
  match r_st r with SWAP_IN => true | _ => false end && negb (r_busy r) && r_txv r
  && resp_id_is i (r_tx r) && accepts i (r_tx r).
Definition active (i : minp) (r : regs) : bool :=
  r_txv r && resp_id_is i (r_tx r) && (inflight i r || same_cycle i r) && negb (canceled i r).
Definition orphan (i : minp) (r : regs) : bool :=
  match i_rsp i with Some _ => true | None => false end && negb (active i r) && negb (canceled i r)
  && negb (inflight i r).
(** icache_module.cpp:1019-1028 *)
Definition pre_rdy (i : minp) (r : regs) : bool := canceled i r || orphan i r.
Definition pre_clean (i : minp) (r : regs) : regs :=
  match i_rsp i with Some (id, _) => if pre_rdy i r then s_id id false false r else r | None => r end.

(** eval_state_machine, icache_module.cpp:963-1580 (up to the final register
    write-back), one definition per state; [w] and [rr] are the registers to be
    written and mem_resp_ready after the preamble. *)
(** icache_module.cpp:1168-1319 *)
Definition ev_idle (i : minp) (r w : regs) (rr : bool) : ev :=
  if i_kill i then mkev (s_st IDLE (r_busy r) w) true false None None rr None None None None else
  let reg_path :=
    let keep w := if i_pv i && r_rv r then s_ppn (i_ppn i) w else w in
    if r_rv r && i_pv i then
      if i_pf i then mkev (s_st IDLE (r_busy r) w) true false (Some (r_pc r, true, zline)) None rr None None None None
      else match hit_way (i_meta i) (i_ppn i) with
           | Some way =>
             match hit_data i way with
             | Some l => mkev (keep (s_st IDLE (r_busy r) w)) true false (Some (r_pc r, false, l)) None rr None None None None
             | None => mkev (keep (s_st IDLE (r_busy r) w)) false false None None rr None (Some (idx_of (r_pc r), way)) None None
             end
           | None =>
             match (if r_txv r then Some (r_tx r) else alloc_txid r) with
             | None => mkev (keep (s_st IDLE (r_busy r) w)) false false None None rr None None None None
             | Some tx =>
               let w := clr_probe (s_ppn (i_ppn i) w) in
               let w := s_tx true tx false w in
               mkev (keep (s_st SWAP_IN (r_busy r) w)) false false None None rr None None None None
             end
           end
    else if r_rv r then mkev (s_st IDLE (r_busy r) w) false false None None rr None None None None
    else mkev (s_st IDLE (r_busy r) w) true false None None rr None None None None in
  if negb (r_rv r) && i_v i && i_pv i then
    if i_pf i then mkev (s_st IDLE (r_busy r) w) true true (Some (i_pc i, true, zline)) None rr None None None None
    else match hit_way (i_meta i) (i_ppn i) with
         | Some way =>
           match hit_data i way with
           | Some l => mkev (s_st IDLE (r_busy r) w) true true (Some (i_pc i, false, l)) None rr None None None None
           | None => mkev (s_st IDLE (r_busy r) w) false false None None rr None (Some (idx_of (i_pc i), way)) None None
           end
         | None => reg_path
         end
  else reg_path.
(** A memory answer taken: latch_mem_refill (1091-1125), then finish_refill or wait
    for the probes; icache_module.cpp:1404-1422 and 1440-1455 *)
Definition ev_taken (i : minp) (r w : regs) (pdone phit : bool) (pl : line) (preq : option Z) : ev :=
  if pdone then
    match finish_refill i r w (if phit then pl else resp_line i) (victim i r) with (w, rs, tw) =>
    mkev w true false rs None true preq None tw (Some (victim i r)) end
  else
    let w := s_inf (r_tx r) false w in
    mkev (s_st WAIT_DC false (s_tx false (r_tx w) false w)) false false None None true preq None None (Some (victim i r)).
(** icache_module.cpp:1321-1458 *)
Definition ev_swap (i : minp) (r w : regs) (rr : bool) : ev :=
  match probe_step i r w with (pdone, phit, pl, preq, w) =>
  let ready_now := negb (r_busy r) && i_ready i && r_txv r in
  let w := if ready_now then s_tx (r_txv w) (r_tx w) true w else w in
  let acc_now := negb (r_busy r) && accepts i (r_tx r) && r_txv r in
  if i_kill i then
    let inflight := r_txv r && (r_busy r || acc_now) in
    let waiting := r_txv r && negb inflight && (r_seen r || ready_now) in
    if inflight then
      mkev (s_st IDLE false (drop_miss (s_id (r_tx r) true true w))) true false None None rr preq None None None
    else if waiting then
      mkev (s_st CANCEL_WAIT false (clr_probe w)) false false None None rr preq None None None
    else
      mkev (s_st IDLE false (drop_miss w)) true false None None rr preq None None None
  else
  if negb (r_busy r) then
    if accepts i (r_tx r) then
      if active i r then ev_taken i r w pdone phit pl preq
      else mkev (s_st SWAP_IN true (s_inf (r_tx r) true w)) false false None None rr preq None None None
    else
      mkev (s_st SWAP_IN false w) false false None (Some (r_tx r, line_addr (r_ppn r) (r_pc r))) rr preq None None None
  else
    if active i r then ev_taken i r w pdone phit pl preq
    else mkev (s_st SWAP_IN true w) false false None None rr preq None None None
  end.
(** icache_module.cpp:1460-1493 *)
Definition ev_wait (i : minp) (r w : regs) (rr : bool) : ev :=
  if i_kill i then mkev (s_st IDLE false (drop_miss w)) true false None None rr None None None None
  else
  match probe_step i r w with (pdone, phit, pl, preq, w) =>
  if pdone then
    match finish_refill i r w (if phit then pl else r_md r) (r_repl r) with (w, rs, tw) =>
    mkev w true false rs None rr preq None tw None end
  else mkev (s_st WAIT_DC (r_busy r) w) false false None None rr preq None None None
  end.
(** icache_module.cpp:1495-1514 *)
Definition ev_cancel (i : minp) (r w : regs) : ev :=
  let w := if r_txv r && accepts i (r_tx r) then s_id (r_tx r) true true w else w in
  mkev (s_st IDLE false (drop_miss w)) true false None None true None None None None.
(** icache_module.cpp:1516-1553 (mem_wait_must_drain_on_refetch() is true) *)
Definition ev_drain (i : minp) (r w : regs) : ev :=
  match i_rsp i with
  | Some _ =>
    let w := if r_txv r then s_id (r_tx r) false false w else w in
    let w := if r_txv r then s_tx false (r_tx w) (r_seen w) w else w in
    mkev (s_st IDLE false (clr_probe (s_tx (r_txv w) (r_tx w) false w))) true false None None true None None None None
  | None => mkev (s_st DRAIN (r_busy r) w) false false None None true None None None None
  end.
Definition eval0 (i : minp) (r : regs) : ev :=
  let w := pre_clean i r in
  let rr := pre_rdy i r in
  match r_st r with
  | IDLE => ev_idle i r w rr
  | SWAP_IN => ev_swap i r w rr
  | WAIT_DC => ev_wait i r w rr
  | CANCEL_WAIT => ev_cancel i r w
  | DRAIN => ev_drain i r w
  end.

(** icache_module.cpp:1562-1578: final write-back *)
Definition eval_fsm (i : minp) (r : regs) : ev :=
  let e := eval0 i r in
  let w := s_rdy (e_rdy e) (e_w e) in
  let w := match r_st r, e_gnt e with SWAP_IN, Some k => s_md (resp_line i) k w | _, _ => w end in
  mkev w (e_rdy e) (e_fast e) (e_rsp e) (e_mem e) (e_rrdy e) (e_probe e) (e_lreq e) (e_tw e) (e_gnt e).

(** lookup, icache_module.cpp:860-961 (latency 0), closing comb_core (752-786). *)
Definition comb_core (i : minp) (r : regs) : regs * mout :=
  let e := eval_fsm i r in
  let w := e_w e in
  let out w rdy mmu := (w, mkmout (e_rsp e) rdy mmu (e_mem e) (e_rrdy e) (e_probe e) (e_lreq e) (e_tw e)) in
  if i_kill i then out (s_rdy false (s_req false (r_pc w) w)) false None
  else if e_fast e then out (s_rdy true (s_req false (r_pc w) w)) (e_rdy e) None
  else
    let can_accept := i_v i && e_rdy e && slot_idle r in
    let rv' := if can_accept then true else if e_rdy e then false else r_rv r in
    let w := s_req rv' (if can_accept then i_pc i else r_pc w) w in
    let w := s_rdy (e_rdy e && negb rv') w in
    out w (e_rdy e)
        (if can_accept then Some (i_pc i / 4096)
         else if r_rv r && negb (i_pv i) then Some (r_pc r / 4096) else None).

(** ** The tables and the glue *)
Record tabs := mktabs { t_meta : Z -> setmeta; t_data : Z -> nat -> line }.
Definition tabs0 : tabs := mktabs (fun _ _ => (false, 0)) (fun _ _ => zline).

(** Answer of the address translation for a page (TlbMmu::translate). *)
Inductive trans := TRetry | TFault | TOk (ppn : Z).

(** Inputs of one icache_comb_calc. *)
Record cinp := mkcinp {
  c_v : bool; c_pc : Z;                          (* icache_read_valid, fetch_address *)
  c_refetch : bool; c_fencei : bool; c_inval : bool; c_itlbf : bool;
  c_ready : bool; c_acc : option nat; c_rsp : option (nat * line);
  c_dc : option (option Z);
  c_tr : Z -> trans }.

(** TrueICacheTopT::comb, ICacheTop.cpp:866-1001: meta pass, translation, meta
    pass, data read, data pass. *)
Definition base_inp (c : cinp) (m : option setmeta) : minp :=
  mkminp (c_pc c) (c_v c) (c_refetch c || c_inval c || c_fencei c) (c_fencei c) 0 false false
         (c_ready c) (c_acc c) (c_rsp c) (c_dc c) m None.
Definition with_tr (i : minp) (t : option trans) : minp :=
  match t with
  | Some (TOk ppn) => mkminp (i_pc i) (i_v i) (i_kill i) (i_flush i) ppn true false (i_ready i) (i_acc i) (i_rsp i) (i_dc i) (i_meta i) (i_data i)
  | Some TFault => mkminp (i_pc i) (i_v i) (i_kill i) (i_flush i) 0 true true (i_ready i) (i_acc i) (i_rsp i) (i_dc i) (i_meta i) (i_data i)
  | _ => i
  end.
Definition with_data (i : minp) (d : option (nat * line)) : minp :=
  mkminp (i_pc i) (i_v i) (i_kill i) (i_flush i) (i_ppn i) (i_pv i) (i_pf i) (i_ready i) (i_acc i) (i_rsp i) (i_dc i) (i_meta i) d.

(** The set index looked up, icache.cpp:280-299. *)
Definition look_pc (c : cinp) (r : regs) : Z := if r_rv r then r_pc r else c_pc c.
Definition read_en (c : cinp) (r : regs) : bool := negb (c_refetch c) && (c_v c || r_rv r).

Definition ic_comb (c : cinp) (t : tabs) (r : regs) : regs * mout * option trans :=
  let idx := idx_of (look_pc c r) in
  let meta := if read_en c r then Some (t_meta t idx) else None in
  let i1 := base_inp c meta in
  let '(_, o1) := comb_core i1 r in
  let tr := if c_refetch c then None else match o_mmu o1 with Some v => Some (c_tr c v) | None => None end in
  let i2 := with_tr i1 tr in
  let '(_, o2) := comb_core i2 r in
  (* icache_fill_lookup_data_input, icache.cpp:216-236 *)
  let data := match o_lreq o2 with
              | Some (ix, way) => if read_en c r && (ix =? idx) then Some (way, t_data t idx way) else None
              | None => None end in
  let '(w, o) := comb_core (with_data i2 data) r in
  (w, o, tr).

(** Table update, icache.cpp:324-353. *)
Definition tab_write (flush : bool) (tw : option (Z * nat * line * Z)) (t : tabs) : tabs :=
  let m := fun ix way => if flush then (false, snd (t_meta t ix way)) else t_meta t ix way in
  match tw with
  | Some (ix, way, l, tag) =>
      mktabs (fun a b => if (a =? ix) && Nat.eqb b way then (true, tag) else m a b)
             (fun a b => if (a =? ix) && Nat.eqb b way then l else t_data t a b)
  | None => mktabs m (t_data t)
  end.

(** One icache_comb_calc: registers, tables and the ready output of the module. *)
Record ic := mkic { ic_r : regs; ic_t : tabs; ic_lr : bool }.
Definition ic0 : ic := mkic regs0 tabs0 true.
Definition ic_call (c : cinp) (s : ic) : ic * mout * option trans :=
  let '(w, o, tr) := ic_comb c (ic_t s) (ic_r s) in
  (mkic w (tab_write (c_fencei c) (o_tw o) (ic_t s)) (o_rdy o), o, tr).

(** One front_cycle: the call at front_top.cpp:1475 and, when the predecoder corrects
    a prediction, the second call at 1803-1808, which has every input cleared except
    [invalidate_req], and sees the same memory answers.  The response used is the
    one of the first call; the port values left are those of the last. *)
Definition inval_inp (c : cinp) : cinp :=
  mkcinp false 0 false false true false (c_ready c) (c_acc c) (c_rsp c) (c_dc c) (fun _ => TRetry).
Definition ic_cycle (c : cinp) (second : bool) (s : ic) : ic * mout * mout :=
  let '(s1, o1, _) := ic_call c s in
  if second then let '(s2, o2, _) := ic_call (inval_inp c) s1 in (s2, o1, o2) else (s1, o1, o1).

(** eval_true_glue, ICacheTop.cpp:226-268.  Ready as seen by peek_ready (before the
    call) and the fetch group of a response. *)
Definition glue_ready (hold : bool) (s : ic) : bool :=
  let r := ic_r s in
  negb hold && r_rdy r &&
  negb (r_rv r || r_txv r || negb match r_st r with IDLE => true | _ => false end || r_busy r) && ic_lr s.
Definition INST_NOP : Z := 19.
(** instruction [k] of the group: (word, page fault, valid) *)
Definition glue_word (rs : Z * bool * line) (k : Z) : Z * bool * bool :=
  let '(pc, pf, l) := rs in
  let b := (pc mod 64) / 4 in
  if WORDS <=? b + k then (INST_NOP, false, false)
  else ((if pf then INST_NOP else l (b + k)), pf, true).
