(** The data-cache domain of MemSubSystem: cache arrays (DcacheConfig.cpp), the
    write buffer (WriteBuffer.cpp), the miss registers (MSHR.cpp), the two-stage
    cache pipeline (RealDcache.cpp) and the tick that drives them together with
    the response latch (MemSubsystem.cpp:798-976, 1184-1191).
    Configuration (include/config.h:298-321): 256 sets, 4 ways, 64-byte lines of
    16 words, 16 banks, 8 miss registers, 8 write-buffer entries, 2 load and 2
    store ports.  Sets and word offsets are [Z]; ways, entry numbers and ports
    are [nat].  Performance counters, debug dumps and [lsu_origin] are left out. *)
From Verif Require Import Base MemModel.

Definition zupd {A} (f : Z -> A) (i : Z) (v : A) : Z -> A := fun j => if j =? i then v else f j.

Definition WAYS : nat := 4.
Definition MSHRS : nat := 8.
Definition WBS : nat := 8.

(** ** DcacheConfig.cpp *)

(** DcacheConfig.h:222-227 AddrFields; DcacheConfig.cpp:45-53 decode *)
Record afields := mkaf { f_tag : Z; f_set : Z; f_bank : Z; f_word : Z }.
Definition decode (addr : Z) : afields :=
  let set_idx := Z.land (Z.shiftr addr 6) 255 in
  mkaf (Z.shiftr addr 14) set_idx (Z.land set_idx 15) (Z.land (Z.shiftr addr 2) 15).
(** DcacheConfig.cpp:55-58 get_addr (uint32_t arithmetic) *)
Definition get_addr (set_idx tag word_off : Z) : Z :=
  Z.lor (Z.lor (w32 (Z.shiftl tag 14)) (w32 (Z.shiftl set_idx 6))) (w32 (Z.shiftl word_off 2)).
(** DcacheConfig.cpp:118-120 cache_line_match; RealDcache.cpp:127-129 line_id *)
Definition line_id (addr : Z) : Z := Z.shiftr addr 6.
Definition cache_line_match (a b : Z) : bool := line_id a =? line_id b.

(** DcacheConfig.cpp:5-9 the arrays *)
Record cache := mkcache {
  c_tag : Z -> nat -> Z;
  c_data : Z -> nat -> Z -> Z;
  c_valid : Z -> nat -> bool;
  c_dirty : Z -> nat -> bool;
  c_plru : Z -> nat -> bool }.
(** DcacheConfig.cpp:36-43 init_dcache *)
Definition cache0 : cache :=
  mkcache (fun _ _ => 0) (fun _ _ _ => 0) (fun _ _ => false) (fun _ _ => false) (fun _ _ => false).

(** DcacheConfig.cpp:16-33 plru_touch_way: the [while (span > 1)] loop on one
    set's tree bits *)
Fixpoint plru_touch_loop (fuel span node left_way way : nat) (t : nat -> bool) : nat -> bool :=
  match fuel with
  | O => t
  | S k =>
      if Nat.leb span 1 then t
      else
        let half := Nat.div span 2 in
        let went_right := Nat.leb (left_way + half) way in
        plru_touch_loop k half (node * 2 + (if went_right then 2 else 1))
          (if went_right then left_way + half else left_way)%nat way
          (fupd t node (if went_right then false else true))
  end.
Definition plru_touch_tree (way : nat) (t : nat -> bool) : nat -> bool :=
  if Nat.leb WAYS way then t else plru_touch_loop WAYS WAYS 0 0 way t.
Definition plru_touch_way (c : cache) (set_idx : Z) (way : nat) : cache :=
  if 256 <=? set_idx then c
  else mkcache (c_tag c) (c_data c) (c_valid c) (c_dirty c)
         (zupd (c_plru c) set_idx (plru_touch_tree way (c_plru c set_idx))).

(** first way of [ws] satisfying [p] (the search loops with break) *)
Definition first_way (p : nat -> bool) : option nat := find p (seq 0 WAYS).

(** DcacheConfig.cpp:60-82 choose_plru_tree_victim *)
Fixpoint plru_victim_loop (fuel span node victim_way : nat) (t : nat -> bool) : nat :=
  match fuel with
  | O => victim_way
  | S k =>
      if Nat.leb span 1 then victim_way
      else
        let half := Nat.div span 2 in
        let go_right := t node in
        plru_victim_loop k half (node * 2 + (if go_right then 2 else 1))
          (if go_right then victim_way + half else victim_way)%nat t
  end.
Definition choose_plru_tree_victim (t : nat -> bool) (valid : nat -> bool) : nat :=
  match first_way (fun w => negb (valid w)) with
  | Some w => w
  | None => plru_victim_loop WAYS WAYS 0 0 t
  end.

(** DcacheConfig.cpp:97-116 write_dcache_line *)
Definition write_dcache_line (c : cache) (set_idx : Z) (way : nat) (tag : Z) (data : Z -> Z) : cache :=
  let target_way := match first_way (fun w => c_valid c set_idx w && (c_tag c set_idx w =? tag)) with
                    | Some w => w | None => way end in
  let c1 := mkcache (zupd (c_tag c) set_idx (fupd (c_tag c set_idx) target_way tag))
                    (zupd (c_data c) set_idx (fupd (c_data c set_idx) target_way data))
                    (zupd (c_valid c) set_idx (fupd (c_valid c set_idx) target_way true))
                    (zupd (c_dirty c) set_idx (fupd (c_dirty c set_idx) target_way false))
                    (c_plru c) in
  plru_touch_way c1 set_idx target_way.

(** DcacheConfig.h:129-155 PendingWrite, LruUpdate, FILLWrite.  [None] is the
    cleared structure ([valid] = 0). *)
Record pwrite := mkpw { pw_set : Z; pw_way : nat; pw_word : Z; pw_data : Z; pw_strb : Z }.
Record fillw := mkfw { fw_valid : bool; fw_id : nat; fw_dirty : bool; fw_set : Z; fw_tag : Z; fw_way : nat; fw_data : Z -> Z }.
Definition fillw0 : fillw := mkfw false 0 false 0 0 0 (fun _ => 0).

(** DcacheConfig.cpp:143-152 one iteration of the loop of Dcache_Write *)
Definition dcache_write_slot (pw : option pwrite) (lru : option (Z * nat)) (c : cache) : cache :=
  let c1 := match pw with
            | None => c
            | Some p => mkcache (c_tag c)
                (zupd (c_data c) (pw_set p)
                   (fupd (c_data c (pw_set p)) (pw_way p)
                      (zupd (c_data c (pw_set p) (pw_way p)) (pw_word p)
                         (apply_strobe (c_data c (pw_set p) (pw_way p) (pw_word p)) (pw_data p) (pw_strb p)))))
                (c_valid c)
                (zupd (c_dirty c) (pw_set p) (fupd (c_dirty c (pw_set p)) (pw_way p) true))
                (c_plru c)
            end in
  match lru with None => c1 | Some (s, w) => plru_touch_way c1 s w end.
(** DcacheConfig.cpp:153-169 the fill part of Dcache_Write *)
Definition dcache_write_fill (f : fillw) (c : cache) : cache :=
  if negb (fw_valid f) then c
  else
    let target_way := match first_way (fun w => c_valid c (fw_set f) w && (c_tag c (fw_set f) w =? fw_tag f)) with
                      | Some w => w | None => fw_way f end in
    let c1 := write_dcache_line c (fw_set f) (fw_way f) (fw_tag f) (fw_data f) in
    if fw_dirty f
    then mkcache (c_tag c1) (c_data c1) (c_valid c1)
           (zupd (c_dirty c1) (fw_set f) (fupd (c_dirty c1 (fw_set f)) target_way true)) (c_plru c1)
    else c1.

(** ** WriteBuffer.cpp *)
Record wbe := mkwbe { we_addr : Z; we_data : Z -> Z }.
Record wbst := mkwb { wb_buf : nat -> wbe; wb_head : nat; wb_count : nat; wb_send : bool }.
Definition wb0 : wbst := mkwb (fun _ => mkwbe 0 (fun _ => 0)) 0 0 false.
(** WriteBuffer.cpp:19-34 find_wb_entry: the youngest entry whose address is the line *)
Definition find_wb_entry (s : wbst) (addr : Z) : option nat :=
  let line_addr := Z.land addr (2 ^ 32 - 64) in
  fold_left (fun best k => let i := Nat.modulo (wb_head s + k) WBS in
                           if we_addr (wb_buf s i) =? line_addr then Some i else best)
            (seq 0 (wb_count s)) None.
(** WriteBuffer.cpp:117-173 comb_inputs_axi *)
Definition wb_inputs_axi (req_accepted resp_valid : bool) (s : wbst) : wbst :=
  let s1 := if req_accepted then mkwb (wb_buf s) (wb_head s) (wb_count s) true else s in
  if resp_valid
  then if Nat.ltb 0 (wb_count s1)
       then mkwb (wb_buf s1) (Nat.modulo (wb_head s1 + 1) WBS) (wb_count s1 - 1) false
       else mkwb (wb_buf s1) (wb_head s1) (wb_count s1) false
  else s1.
(** WriteBuffer.cpp:53-69 bypass response of one load port *)
Definition wb_bypass (s : wbst) (req : option Z) : option Z :=
  match req with
  | None => None
  | Some addr => match find_wb_entry s addr with
                 | Some i => Some (we_data (wb_buf s i) (f_word (decode addr)))
                 | None => None
                 end
  end.
(** DcacheConfig.h MergeReq *)
Record mreqw := mkmq { mq_addr : Z; mq_data : Z; mq_strb : Z }.
(** WriteBuffer.cpp:71-94 merge of one store port: (valid, busy) and the state *)
Definition wb_merge (s : wbst) (req : option mreqw) : (bool * bool) * wbst :=
  match req with
  | None => ((false, false), s)
  | Some q =>
      match find_wb_entry s (mq_addr q) with
      | None => ((false, false), s)
      | Some i =>
          if Nat.eqb i (wb_head s) && Nat.ltb 0 (wb_count s) && wb_send s
          then ((false, true), s)
          else
            let e := wb_buf s i in
            let word_off := f_word (decode (mq_addr q)) in
            ((true, false),
             mkwb (fupd (wb_buf s) i
                     (mkwbe (we_addr e) (zupd (we_data e) word_off (apply_strobe (we_data e word_off) (mq_data q) (mq_strb q)))))
                  (wb_head s) (wb_count s) (wb_send s))
      end
  end.
(** WriteBuffer.cpp:96-115 comb_outputs_axi: the write request presented *)
Definition wb_axi_req (s : wbst) : option wbe :=
  if wb_send s then None
  else if Nat.eqb (wb_count s) 0 then None
  else Some (wb_buf s (wb_head s)).
(** WriteBuffer.cpp:175-196 comb_inputs_dcache: push an evicted line *)
Definition wb_push (d : option wbe) (s : wbst) : wbst :=
  match d with
  | None => s
  | Some e => if Nat.ltb (wb_count s) WBS
              then mkwb (fupd (wb_buf s) (Nat.modulo (wb_head s + wb_count s) WBS) e) (wb_head s) (wb_count s + 1) (wb_send s)
              else s
  end.

(** ** MSHR.cpp *)
Record mse := mkmse { me_valid : bool; me_issued : bool; me_addr : Z; me_dirty : bool; me_data : Z -> Z; me_strb : Z -> Z }.
Definition mse0 : mse := mkmse false false 0 false (fun _ => 0) (fun _ => 0).
Record mshr := mkms { ms_ent : nat -> mse; ms_count : nat; ms_hold : bool; ms_hid : nat; ms_hdata : Z -> Z }.
Definition mshr0 : mshr := mkms (fun _ => mse0) 0 false 0 (fun _ => 0).
(** MSHR.cpp:12-20 find_entry_idx *)
Definition find_entry_idx (s : mshr) (line_addr : Z) : option nat :=
  find (fun i => me_valid (ms_ent s i) && (me_addr (ms_ent s i) =? line_addr)) (seq 0 MSHRS).
(** MSHR.cpp:224-298 comb_inputs_axi: (accepted a response this tick, state) *)
Definition ms_inputs_axi (acc : option nat) (resp : option (nat * (Z -> Z))) (s : mshr) : bool * mshr :=
  let s1 := match acc with
            | None => s
            | Some id =>
                if Nat.ltb id MSHRS
                then let e := ms_ent s id in
                     if me_valid e && negb (me_issued e)
                     then mkms (fupd (ms_ent s) id (mkmse (me_valid e) true (me_addr e) (me_dirty e) (me_data e) (me_strb e)))
                               (ms_count s) (ms_hold s) (ms_hid s) (ms_hdata s)
                     else s
                else s
            end in
  if ms_hold s1 then (false, s1)
  else match resp with
       | None => (false, s1)
       | Some (id, d) =>
           if Nat.ltb id MSHRS && (me_valid (ms_ent s1 id) && me_issued (ms_ent s1 id))
           then (true, mkms (ms_ent s1) (ms_count s1) true id d)
           else (false, s1)
       end.
(** MSHR.cpp:54-71 find response of one slot *)
Definition ms_find (s : mshr) (req : option (Z * Z)) : bool :=
  match req with
  | None => false
  | Some (set_idx, tag) => match find_entry_idx s (get_addr set_idx tag 0) with Some _ => true | None => false end
  end.
(** DcacheConfig.h:44-54 MSHR_FILLReq; MSHR.cpp:73-101 *)
Record fillreq := mkfr { fr_valid : bool; fr_id : nat; fr_dirty : bool; fr_addr : Z; fr_data : Z -> Z }.
Definition ms_fill_req (s : mshr) : fillreq :=
  if ms_hold s
  then let e := ms_ent s (ms_hid s) in
       mkfr true (ms_hid s) (me_dirty e) (me_addr e)
         (fun w => if nz (me_strb e w) then apply_strobe (ms_hdata s w) (me_data e w) (me_strb e w) else ms_hdata s w)
  else mkfr false 0 false 0 (fun _ => 0).
(** DcacheConfig.h:33-42 MSHRReq *)
Record msreq := mkmr { mr_addr : Z; mr_store : bool; mr_data : Z; mr_strb : Z }.
(** MSHR.cpp:125-168 the fill_resp part of comb_inputs_dcache *)
Definition ms_done (done : option nat) (s : mshr) : mshr :=
  match done with
  | None => s
  | Some id =>
      if Nat.ltb id MSHRS && ms_hold s && Nat.eqb (ms_hid s) id && (me_valid (ms_ent s id) && me_issued (ms_ent s id))
      then mkms (fupd (ms_ent s) id (mkmse false false (me_addr (ms_ent s id)) false (fun _ => 0) (fun _ => 0)))
                (ms_count s - 1) false 0 (fun _ => 0)
      else s
  end.
(** MSHR.cpp:28-36 merge_store_into_entry *)
Definition merge_store_into_entry (e : mse) (r : msreq) : mse :=
  if negb (mr_store r) then e
  else
    let w := f_word (decode (mr_addr r)) in
    mkmse (me_valid e) (me_issued e) (me_addr e) true
          (zupd (me_data e) w (apply_strobe (me_data e w) (mr_data r) (mr_strb r)))
          (zupd (me_strb e) w (Z.lor (me_strb e w) (mr_strb r))).
(** MSHR.cpp:183-221 one iteration of the allocation loop *)
Definition ms_alloc (req : option msreq) (s : mshr) : mshr :=
  match req with
  | None => s
  | Some r =>
      let f := decode (mr_addr r) in
      let line_addr := get_addr (f_set f) (f_tag f) 0 in
      let '(idx, s1) :=
        match find_entry_idx s line_addr with
        | Some i => (Some i, s)
        | None =>
            match find (fun j => negb (me_valid (ms_ent s j))) (seq 0 MSHRS) with
            | Some j => (Some j, mkms (fupd (ms_ent s) j (mkmse true false line_addr false (fun _ => 0) (fun _ => 0)))
                                      (ms_count s + 1) (ms_hold s) (ms_hid s) (ms_hdata s))
            | None => (None, s)
            end
        end in
      match idx with
      | Some i => mkms (fupd (ms_ent s1) i (merge_store_into_entry (ms_ent s1 i) r)) (ms_count s1) (ms_hold s1) (ms_hid s1) (ms_hdata s1)
      | None => s1
      end
  end.
(** MSHR.cpp:103-117 comb_outputs_axi: the read request presented: (id, address) *)
Definition ms_axi_req (s : mshr) : option (nat * Z) :=
  match find (fun i => me_valid (ms_ent s i) && negb (me_issued (ms_ent s i))) (seq 0 MSHRS) with
  | Some i => Some (i, me_addr (ms_ent s i))
  | None => None
  end.

(** ** RealDcache.cpp *)
Inductive replay := HIT | CONFLICT | MSHR_HIT | MSHR_FULL.
(** IO.h LoadReq, StoreReq, LoadResp, StoreResp; [None] is an idle port *)
Record loadreq := mklr { lq_addr : Z; lq_id : Z }.
Record storereq := mksr { sq_addr : Z; sq_data : Z; sq_strb : Z; sq_id : Z }.
Record loadresp := mklp { lp_data : Z; lp_replay : replay; lp_id : Z }.
Record storeresp := mksp { sp_replay : replay; sp_id : Z }.
(** IO.h:1380-1385 LsuDcacheIO *)
Record request := mkrq { rq_ld0 : option loadreq; rq_ld1 : option loadreq; rq_st0 : option storereq; rq_st1 : option storereq; rq_icache : nat }.
Definition no_request : request := mkrq None None None None 2.
(** RealDcache.h:18-47 S1S2Reg slots: request and [replayed] *)
Record s1s2 := mks12 {
  s_icache : nat;
  s_fill : fillw;
  s_ld0 : option (loadreq * bool); s_ld1 : option (loadreq * bool);
  s_st0 : option (storereq * bool); s_st1 : option (storereq * bool) }.
Definition s1s2_0 : s1s2 := mks12 0 fillw0 None None None None.

(** The stage-1 request wires consumed at the next tick: line reads, write-buffer
    bypass and merge requests, miss-register finds, and the fill's set read *)
Record s1wires := mks1w {
  w_rd0 : Z; w_rd1 : Z; w_rd2 : Z; w_rd3 : Z;
  w_by0 : option Z; w_by1 : option Z;
  w_mg0 : option mreqw; w_mg1 : option mreqw;
  w_fd0 : option (Z * Z); w_fd1 : option (Z * Z); w_fd2 : option (Z * Z); w_fd3 : option (Z * Z);
  w_fo : option Z }.
Definition s1wires0 : s1wires := mks1w 0 0 0 0 None None None None None None None None None.

(** DcacheConfig.h FillIn, and the zeroed snapshot *)
Record fillin := mkfi { fi_valid : nat -> bool; fi_dirty : nat -> bool; fi_tag : nat -> Z; fi_data : nat -> Z -> Z; fi_plru : nat -> bool }.
(** DcacheConfig.cpp:131-140 the fill half of Dcache_Read *)
Definition read_fill (c : cache) (fo : option Z) : fillin :=
  match fo with
  | Some s => mkfi (c_valid c s) (c_dirty c s) (c_tag c s) (c_data c s) (c_plru c s)
  | None => mkfi (fun _ => false) (fun _ => false) (fun _ => 0) (fun _ _ => 0) (fun _ => false)
  end.

(** RealDcache.cpp:347-389 the fill part of stage2_comb: fill_write, the evicted
    line for the write buffer, the id reported done *)
Definition s2_fill (f : fillw) (fi : fillin) (wb_free : nat) : fillw * option wbe * option nat :=
  if fw_valid f
  then
    let select_way := choose_plru_tree_victim (fi_plru fi) (fi_valid fi) in
    let wr := mkfw true 0 (fw_dirty f) (fw_set f) (fw_tag f) select_way (fw_data f) in
    if fi_valid fi select_way && fi_dirty fi select_way
    then if Nat.ltb 0 wb_free
         then (wr, Some (mkwbe (get_addr (fw_set f) (fi_tag fi select_way) 0) (fi_data fi select_way)), Some (fw_id f))
         else (fillw0, None, None)
    else (wr, None, Some (fw_id f))
  else (fillw0, None, None).

(** RealDcache.cpp:394-478 one load port of stage2_comb.  [set] is the set read
    for this port, [by] the bypass response, [fd] the find response, [free] the
    remaining miss registers. Result: response, miss request, LRU update, free. *)
Record s2ld := mks2l { l_resp : option loadresp; l_req : option msreq; l_lru : option (Z * nat); l_free : nat }.
Definition s2_load (c : cache) (slot : option (loadreq * bool)) (set : Z) (by_ : option Z) (fd : bool) (icache : bool) (free : nat) : s2ld :=
  match slot with
  | None => mks2l None None None free
  | Some (q, replayed) =>
      let f := decode (lq_addr q) in
      if replayed then mks2l (Some (mklp 0 CONFLICT (lq_id q))) None None free
      else
        let hit_way := first_way (fun w => c_valid c set w && (c_tag c set w =? f_tag f)) in
        match by_ with
        | Some d => mks2l (Some (mklp d HIT (lq_id q))) None None free
        | None =>
            match hit_way with
            | Some w => mks2l (Some (mklp (c_data c set w (f_word f)) HIT (lq_id q))) None (Some (f_set f, w)) free
            | None =>
                if icache then mks2l (Some (mklp 0 CONFLICT (lq_id q))) None None free
                else if fd then mks2l (Some (mklp 0 MSHR_HIT (lq_id q))) None None free
                else if Nat.eqb free 0 then mks2l (Some (mklp 0 MSHR_FULL (lq_id q))) None None free
                else mks2l (Some (mklp 0 MSHR_HIT (lq_id q))) (Some (mkmr (lq_addr q) false 0 0)) None (free - 1)
            end
        end
  end.

(** RealDcache.cpp:481-608 one store port of stage2_comb.  Result: response, miss
    request, pending write, LRU update, fill merge wire, fill_write, free. *)
Record s2st := mks2s { t_resp : option storeresp; t_req : option msreq; t_pw : option pwrite; t_lru : option (Z * nat);
                       t_wire : option (Z * Z * Z); t_fw : fillw; t_free : nat }.
Definition s2_store (c : cache) (slot : option (storereq * bool)) (set : Z) (mg : bool * bool) (fd : bool)
                    (fr : fillreq) (sf : fillw) (fw : fillw) (free : nat) : s2st :=
  match slot with
  | None => mks2s None None None None None fw free
  | Some (q, replayed) =>
      let f := decode (sq_addr q) in
      let rsp r := Some (mksp r (sq_id q)) in
      if replayed then mks2s (rsp CONFLICT) None None None None fw free
      else if cache_line_match (sq_addr q) (fr_addr fr) && fr_valid fr
      then
        let ff := decode (fr_addr fr) in
        let already := fw_valid sf && (fw_set sf =? f_set ff) && (fw_tag sf =? f_tag ff) in
        if already && fw_valid fw
        then mks2s (rsp HIT) None None None None
               (mkfw (fw_valid fw) (fw_id fw) true (fw_set fw) (fw_tag fw) (fw_way fw)
                  (zupd (fw_data fw) (f_word f) (apply_strobe (fw_data fw (f_word f)) (sq_data q) (sq_strb q)))) free
        else mks2s (rsp HIT) None None None (Some (f_word f, sq_data q, sq_strb q)) fw free
      else
        match first_way (fun w => c_valid c set w && (c_tag c set w =? f_tag f)) with
        | Some w =>
            if (fw_set sf =? f_set f) && fw_valid sf && Nat.eqb (fw_way fw) w
            then mks2s (rsp CONFLICT) None None None None fw free
            else mks2s (rsp HIT) None (Some (mkpw (f_set f) w (f_word f) (sq_data q) (sq_strb q))) (Some (f_set f, w)) None fw free
        | None =>
            let rq := Some (mkmr (sq_addr q) true (sq_data q) (sq_strb q)) in
            if fst mg then mks2s (rsp HIT) None None None None fw free
            else if snd mg then mks2s (rsp CONFLICT) None None None None fw free
            else if fd then mks2s (rsp HIT) rq None None None fw free
            else if Nat.eqb free 0 then mks2s (rsp MSHR_FULL) None None None None fw free
            else mks2s (rsp HIT) rq None None None fw (free - 1)
        end
  end.

(** RealDcache.cpp:137-210 the fill half of stage1_comb: the next fill_write and
    the set read for it ([out.fillout]) *)
Definition apply_wire (w : option (Z * Z * Z)) (f : fillw) : fillw :=
  match w with
  | None => f
  | Some (off, d, m) =>
      if fw_valid f
      then mkfw (fw_valid f) (fw_id f) true (fw_set f) (fw_tag f) (fw_way f) (zupd (fw_data f) off (apply_strobe (fw_data f off) d m))
      else f
  end.
Definition s1_same (fr : fillreq) (sf : fillw) : bool :=
  fw_valid sf && fr_valid fr && (fw_set sf =? f_set (decode (fr_addr fr))) && (fw_tag sf =? f_tag (decode (fr_addr fr))).
Definition s1_fill (fr : fillreq) (sf fw : fillw) (wr0 wr1 : option (Z * Z * Z)) : fillw * option Z :=
  let ff := decode (fr_addr fr) in
  let same := s1_same fr sf in
  let hold := same && negb (fw_valid fw) in
  let granted := fr_valid fr && negb (same && fw_valid fw) in
  let base := if hold then sf
              else if granted && negb same
                   then mkfw true (fr_id fr) (fr_dirty fr) (f_set ff) (f_tag ff) 0 (fr_data fr)
                   else fillw0 in
  (apply_wire wr1 (apply_wire wr0 base), if granted then Some (f_set ff) else None).

(** RealDcache.cpp:149-181 the bank arbiter: [bk b] is the line granted bank [b] *)
Definition try_grant (bk : Z -> option Z) (addr : Z) : bool * (Z -> option Z) :=
  let b := f_bank (decode addr) in
  match bk b with
  | None => (true, zupd bk b (Some (line_id addr)))
  | Some l => (l =? line_id addr, bk)
  end.
Definition s1_load (q : option loadreq) (bk : Z -> option Z) : option (loadreq * bool) * (Z -> option Z) :=
  match q with
  | None => (None, bk)
  | Some r => let '(g, bk') := try_grant bk (lq_addr r) in (Some (r, negb g), bk')
  end.
Definition s1_store (q : option storereq) (bk : Z -> option Z) : option (storereq * bool) * (Z -> option Z) :=
  match q with
  | None => (None, bk)
  | Some r => let '(g, bk') := try_grant bk (sq_addr r) in (Some (r, negb g), bk')
  end.
(** The wires of one slot: set read, bypass/merge request, find request *)
Definition ld_set (s : option (loadreq * bool)) : Z :=
  match s with Some (q, false) => f_set (decode (lq_addr q)) | _ => 0 end.
Definition ld_by (s : option (loadreq * bool)) : option Z :=
  match s with Some (q, false) => Some (lq_addr q) | _ => None end.
Definition ld_fd (s : option (loadreq * bool)) : option (Z * Z) :=
  match s with Some (q, false) => Some (f_set (decode (lq_addr q)), f_tag (decode (lq_addr q))) | _ => None end.
Definition st_set (s : option (storereq * bool)) : Z :=
  match s with Some (q, false) => f_set (decode (sq_addr q)) | _ => 0 end.
Definition st_mg (s : option (storereq * bool)) : option mreqw :=
  match s with Some (q, false) => Some (mkmq (sq_addr q) (sq_data q) (sq_strb q)) | _ => None end.
Definition st_fd (s : option (storereq * bool)) : option (Z * Z) :=
  match s with Some (q, false) => Some (f_set (decode (sq_addr q)), f_tag (decode (sq_addr q))) | _ => None end.

(** RealDcache.cpp:125-328 stage1_comb *)
Definition stage1 (rq : request) (fr : fillreq) (sf fw : fillw) (wr0 wr1 : option (Z * Z * Z)) : s1s2 * s1wires :=
  let '(nf, fo) := s1_fill fr sf fw wr0 wr1 in
  let bk0 : Z -> option Z := match fo with
             | Some _ => zupd (fun _ => None) (f_bank (decode (fr_addr fr))) (Some (line_id (fr_addr fr)))
             | None => fun _ => None end in
  let '(l0, bk1) := s1_load (rq_ld0 rq) bk0 in
  let '(l1, bk2) := s1_load (rq_ld1 rq) bk1 in
  let '(t0, bk3) := s1_store (rq_st0 rq) bk2 in
  let '(t1, _) := s1_store (rq_st1 rq) bk3 in
  (mks12 (rq_icache rq) nf l0 l1 t0 t1,
   mks1w (ld_set l0) (ld_set l1) (st_set t0) (st_set t1) (ld_by l0) (ld_by l1) (st_mg t0) (st_mg t1)
         (ld_fd l0) (ld_fd l1) (st_fd t0) (st_fd t1) fo).

(** ** MemSubsystem.cpp: response latch and tick *)
(** MemSubsystem.h:116-125 DcacheRespMeta: the request behind each response *)
Record latch := mkla {
  la_ld0 : option loadresp; la_ld1 : option loadresp; la_st0 : option storeresp; la_st1 : option storeresp;
  la_ml0 : option Z; la_ml1 : option Z; la_ms0 : option (Z * Z * Z); la_ms1 : option (Z * Z * Z);
  la_fill : option Z }.
Definition latch0 : latch := mkla None None None None None None None None None.
Record meta := mkmeta { mt_l0 : option Z; mt_l1 : option Z; mt_s0 : option (Z * Z * Z); mt_s1 : option (Z * Z * Z) }.
Definition meta0 : meta := mkmeta None None None None.
(** MemSubsystem.cpp:819-844 record_dcache_stage1_metadata *)
Definition meta_of (rq : request) : meta :=
  let ml q := match q with Some r => Some (lq_addr r) | None => None end in
  let msr q := match q with Some r => Some (sq_addr r, sq_data r, sq_strb r) | None => None end in
  mkmeta (ml (rq_ld0 rq)) (ml (rq_ld1 rq)) (msr (rq_st0 rq)) (msr (rq_st1 rq)).
(** MemSubsystem.cpp:846-881 capture_dcache_raw_response *)
Definition capture (l0 l1 : option loadresp) (t0 t1 : option storeresp) (fill : option Z) (m : meta) (p : latch) : latch :=
  let or {A} (a b : option A) := match a with Some _ => a | None => b end in
  let pick {A B} (a : option A) (x y : option B) := match a with Some _ => x | None => y end in
  mkla (or l0 (la_ld0 p)) (or l1 (la_ld1 p)) (or t0 (la_st0 p)) (or t1 (la_st1 p))
       (pick l0 (mt_l0 m) (la_ml0 p)) (pick l1 (mt_l1 m) (la_ml1 p)) (pick t0 (mt_s0 m) (la_ms0 p)) (pick t1 (mt_s1 m) (la_ms1 p))
       (or fill (la_fill p)).
(** MemSubsystem.cpp:783-785 replay_waits_for_mshr_fill *)
Definition waits (r : replay) : bool := match r with MSHR_HIT | MSHR_FULL => true | _ => false end.
(** MemSubsystem.cpp:889-907 forward to one load *)
Definition forward_load (fr : fillreq) (r : option loadresp) (m : option Z) : option loadresp :=
  match r, m with
  | Some p, Some a =>
      if waits (lp_replay p) && cache_line_match a (fr_addr fr)
      then Some (mklp (fr_data fr (f_word (decode a))) HIT (lp_id p)) else r
  | _, _ => r
  end.
(** MemSubsystem.cpp:909-930 forward to one store *)
Definition forward_store (r : option storeresp) (m : option (Z * Z * Z)) (fr : fillreq) : option storeresp * fillreq :=
  match r, m with
  | Some p, Some (a, d, st) =>
      if waits (sp_replay p) && cache_line_match a (fr_addr fr)
      then (Some (mksp HIT (sp_id p)),
            let w := f_word (decode a) in
            mkfr (fr_valid fr) (fr_id fr) true (fr_addr fr) (zupd (fr_data fr) w (apply_strobe (fr_data fr w) d st)))
      else (r, fr)
  | _, _ => (r, fr)
  end.
(** MemSubsystem.cpp:883-931 forward_pending_response_from_fill *)
Definition forward (fr : fillreq) (p : latch) : latch * fillreq :=
  if negb (fr_valid fr) then (p, fr)
  else
    let l0 := forward_load fr (la_ld0 p) (la_ml0 p) in
    let l1 := forward_load fr (la_ld1 p) (la_ml1 p) in
    let '(t0, fr1) := forward_store (la_st0 p) (la_ms0 p) fr in
    let '(t1, fr2) := forward_store (la_st1 p) (la_ms1 p) fr1 in
    (mkla l0 l1 t0 t1 (la_ml0 p) (la_ml1 p) (la_ms0 p) (la_ms1 p) (la_fill p), fr2).

(** The registered state of the domain *)
Record dst := mkdst { d_cache : cache; d_wb : wbst; d_ms : mshr; d_s : s1s2; d_w : s1wires; d_meta : meta; d_pend : latch }.
Definition dst0 : dst := mkdst cache0 wb0 mshr0 s1s2_0 s1wires0 meta0 latch0.

(** What a tick receives: the AXI feedback, the requests, and whether the
    response latch is cleared afterwards (MemSubsystem.cpp:1191, main cycle) *)
Record tick_in := mkti { ti_wacc : bool; ti_wresp : bool; ti_racc : option nat; ti_rresp : option (nat * (Z -> Z));
                         ti_rq : request; ti_clear : bool }.
(** What a tick shows: raw stage-2 responses, the latch after forwarding (what
    the main cycle publishes), and the read channel's resp_ready (MSHR.cpp:118-120) *)
Record tick_out := mkto { to_l0 : option loadresp; to_l1 : option loadresp; to_t0 : option storeresp; to_t1 : option storeresp;
                          to_pend : latch; to_rready : bool }.

(** dcache_domain_comb_outputs up to Dcache_Write, MemSubsystem.cpp:798-817 *)
Record mid := mkmid { x_wb : wbst; x_ms : mshr; x_acc : bool; x_fr : fillreq; x_cache : cache; x_fw : fillw; x_dirty : option wbe; x_done : option nat;
                      x_l0 : s2ld; x_l1 : s2ld; x_t0 : s2st; x_t1 : s2st }.
Definition comb_outputs (i : tick_in) (s : dst) : mid :=
  let wb1 := wb_inputs_axi (ti_wacc i) (ti_wresp i) (d_wb s) in
  let '(acc, ms1) := ms_inputs_axi (ti_racc i) (ti_rresp i) (d_ms s) in
  let w := d_w s in
  let by0 := wb_bypass wb1 (w_by0 w) in
  let by1 := wb_bypass wb1 (w_by1 w) in
  let '(mg0, wb2) := wb_merge wb1 (w_mg0 w) in
  let '(mg1, wb3) := wb_merge wb2 (w_mg1 w) in
  let fr := ms_fill_req ms1 in
  let c := d_cache s in
  let fi := read_fill c (w_fo w) in
  let sr := d_s s in
  let '(fw0, dirty, done) := s2_fill (s_fill sr) fi (WBS - wb_count wb1) in
  let l0 := s2_load c (s_ld0 sr) (w_rd0 w) by0 (ms_find ms1 (w_fd0 w)) (Nat.eqb (s_icache sr) 0) (MSHRS - ms_count ms1) in
  let l1 := s2_load c (s_ld1 sr) (w_rd1 w) by1 (ms_find ms1 (w_fd1 w)) (Nat.eqb (s_icache sr) 1) (l_free l0) in
  let t0 := s2_store c (s_st0 sr) (w_rd2 w) mg0 (ms_find ms1 (w_fd2 w)) fr (s_fill sr) fw0 (l_free l1) in
  let t1 := s2_store c (s_st1 sr) (w_rd3 w) mg1 (ms_find ms1 (w_fd3 w)) fr (s_fill sr) (t_fw t0) (t_free t0) in
  (* pendingwrite[i] is indexed by store port, lru_updates by slot *)
  let c1 := dcache_write_slot (t_pw t0) (l_lru l0) c in
  let c2 := dcache_write_slot (t_pw t1) (l_lru l1) c1 in
  let c3 := dcache_write_slot None (t_lru t0) c2 in
  let c4 := dcache_write_slot None (t_lru t1) c3 in
  let c5 := dcache_write_fill (t_fw t1) c4 in
  mkmid wb3 ms1 acc fr c5 (t_fw t1) dirty done l0 l1 t0 t1.

(** dcache_fast_comb, MemSubsystem.cpp:959-972, followed by dcache_domain_seq *)
Definition tick (i : tick_in) (s : dst) : dst * tick_out :=
  let m := comb_outputs i s in
  let fw := x_fw m in
  let fill_addr := if fw_valid fw then Some (get_addr (fw_set fw) (fw_tag fw) 0) else None in
  let p1 := capture (l_resp (x_l0 m)) (l_resp (x_l1 m)) (t_resp (x_t0 m)) (t_resp (x_t1 m)) fill_addr (d_meta s) (d_pend s) in
  let '(p2, fr) := forward (x_fr m) p1 in
  let '(s12, w) := stage1 (ti_rq i) fr (s_fill (d_s s)) fw (t_wire (x_t0 m)) (t_wire (x_t1 m)) in
  let ms2 := ms_alloc (t_req (x_t1 m)) (ms_alloc (t_req (x_t0 m)) (ms_alloc (l_req (x_l1 m)) (ms_alloc (l_req (x_l0 m)) (ms_done (x_done m) (x_ms m))))) in
  let wb2 := wb_push (x_dirty m) (x_wb m) in
  (mkdst (x_cache m) wb2 ms2 s12 w (meta_of (ti_rq i)) (if ti_clear i then latch0 else p2),
   mkto (l_resp (x_l0 m)) (l_resp (x_l1 m)) (t_resp (x_t0 m)) (t_resp (x_t1 m)) p2
        (match ti_rresp i with Some _ => x_acc m | None => negb (ms_hold ms2) end)).
