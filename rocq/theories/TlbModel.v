(** back-end/Lsu/include/TlbMmuKernel.h (the TLB logic) and back-end/Lsu/TlbMmu.cpp
    (the class around it: table, registers, ports).  Left out: trace records and
    debug output; the paths taken without a port to the shared walker
    (walk_and_refill :1205-1267, walk_and_refill_shared :1269-1347, not reached by the
    simulator, which always binds the port).  The packing into bits through which the
    class calls the logic is in TlbBits. *)
From Verif Require Import Base PtwModel.

(** TlbMmuKernel.h:60-116.  Flags are booleans; the other fields are unsigned words. *)
Record entry := mke { e_valid : bool; e_glob : bool; e_asid : Z; e_level : Z; e_vpn1 : Z; e_vpn0 : Z; e_ppn : Z; e_perm : Z }.
Definition entry0 : entry := mke false false 0 0 0 0 0 0.
Record look := mklk { l_hit : bool; l_entry : entry }.
Record wregs := mkw { w_act : bool; w_sent : bool; w_va : Z; w_type : Z; w_satp : Z; w_priv : Z; w_mxr : bool; w_sum : bool }.
Definition wregs0 : wregs := mkw false false 0 0 0 0 false false.
Record refill := mkrf { f_valid : bool; f_entry : entry; f_slot : Z; f_next : Z }.
Definition refill0 : refill := mkrf false entry0 0 0.
Definition wresp0 : wresp := mkwr false 0 0 0.

(** TlbKernelCoreInput :125-143, TlbKernelCoreOutput :173-185 *)
Record cin := mkci {
  ci_valid : bool; ci_va : Z; ci_type : Z; ci_satp : Z; ci_priv : Z; ci_mxr : bool; ci_sum : bool; ci_mprv : bool; ci_mpp : Z;
  ci_look : look; ci_walk : wregs; ci_refill : refill; ci_repl : Z; ci_cap : Z; ci_ready : bool; ci_rv : bool; ci_resp : wresp }.
Record cout := mkco {
  co_valid : bool; co_result : Z; co_pa : Z; co_retry : Z; co_walk : wregs; co_refill : refill;
  co_rq : bool; co_req : wreq; co_cons : bool; co_src : Z; co_lev : Z; co_perm : Z }.

(** :575-583 *)
Definition compose_paddr (va : Z) (e : entry) : Z :=
  if nz (Z.land (e_level e) 1)
  then Z.lor (Z.land (w32 (Z.shiftl (e_ppn e) 12)) (w32 (Z.lnot 4194303))) (Z.land va 4194303)
  else Z.lor (w32 (Z.shiftl (e_ppn e) 12)) (Z.land va 4095).
(** :585-624 *)
Definition check_perm (perm type priv : Z) (sum mxr : bool) : bool :=
  let r := nz (Z.land perm 2) in let w := nz (Z.land perm 4) in let x := nz (Z.land perm 8) in
  let u := nz (Z.land perm 16) in let a := nz (Z.land perm 64) in let d := nz (Z.land perm 128) in
  if (type =? 0) && negb x then false
  else if (type =? 1) && negb r && negb (mxr && x) then false
  else if (type =? 2) && negb w then false
  else if (priv =? 0) && negb u then false
  else if (priv =? 1) && u && ((type =? 0) || negb sum) then false
  else if negb a then false
  else negb ((type =? 2) && negb d).
(** :626-634 *)
Definition effective_priv (type priv : Z) (mprv : bool) (mpp : Z) : Z :=
  if nz type && mprv then Z.land mpp 3 else Z.land priv 3.
(** :251-253, 636-652 *)
Definition sv32_asid (satp : Z) : Z := Z.land (Z.shiftr satp 22) 511.
Definition entry_matches (e : entry) (va asid : Z) : bool :=
  if negb (e_valid e) then false
  else if negb (e_glob e || (e_asid e =? asid)) then false
  else if negb (e_vpn1 e =? Z.land (Z.shiftr va 22) 1023) then false
  else (e_level e =? 1) || (e_vpn0 e =? Z.land (Z.shiftr va 12) 1023).

(** The entry a completed walk installs: :1082-1090 and schedule_refill, TlbMmu.cpp:1186-1203 *)
Definition walk_entry (va asid : Z) (r : wresp) : entry :=
  mke true (nz (Z.land (r_pte r) 32)) asid (Z.land (r_level r) 1) (Z.land (Z.shiftr va 22) 1023) (Z.land (Z.shiftr va 12) 1023)
      (Z.land (Z.shiftr (r_pte r) 10) 4194303) (Z.land (r_pte r) 255).

(** tlb_kernel_core_comb :972-1096.  Result 0 address, 1 page fault, 2 retry. *)
Definition hit_of (i : cin) : option entry :=
  if f_valid (ci_refill i) && entry_matches (f_entry (ci_refill i)) (ci_va i) (sv32_asid (ci_satp i)) then Some (f_entry (ci_refill i))
  else if l_hit (ci_look i) then Some (l_entry (ci_look i)) else None.
Definition core (i : cin) : cout :=
  let w := ci_walk i in let f := ci_refill i in
  if negb (ci_valid i) then mkco false 0 0 0 w f false wreq0 false 0 255 0
  else
    let priv := if nz (ci_type i) && ci_mprv i then Z.land (ci_mpp i) 3 else Z.land (ci_priv i) 3 in
    if (priv =? 3) || (Z.land (ci_satp i) 2147483648 =? 0)
    then mkco true 0 (ci_va i) 0 w f false wreq0 false 1 255 0
    else match hit_of i with
    | Some h =>
        let perm := Z.land (e_perm h) 255 in
        if negb (check_perm perm (ci_type i) priv (ci_sum i) (ci_mxr i))
        then mkco true 1 0 0 w f false wreq0 false 3 (e_level h) perm
        else mkco true 0 (compose_paddr (ci_va i) h) 0 w f false wreq0 false 2 (e_level h) perm
    | None =>
        let retry reason w' rq q cons := mkco true 2 0 reason w' f rq q cons 4 255 0 in
        if w_act w && negb ((Z.shiftr (w_va w) 12 =? Z.shiftr (ci_va i) 12) && (w_satp w =? ci_satp i))
        then retry 1 w false wreq0 false
        else
          let w := if w_act w then w else mkw true false (ci_va i) (ci_type i) (ci_satp i) priv (ci_mxr i) (ci_sum i) in
          if negb (w_sent w) then
            if negb (ci_ready i) then retry 2 w false wreq0 false
            else retry 3 (mkw (w_act w) true (w_va w) (w_type w) (w_satp w) (w_priv w) (w_mxr w) (w_sum w)) true (mkwq (w_va w) (w_satp w) (w_type w)) false
          else if negb (ci_rv i) then retry 3 w false wreq0 false
          else
            let r := ci_resp i in
            if negb (Z.shiftr (r_va r) 12 =? Z.shiftr (w_va w) 12) then retry 3 w false wreq0 true
            else
              let done result pa f' := mkco true result pa 0 wregs0 f' false wreq0 true 4 (r_level r) (Z.land (r_pte r) 255) in
              if r_fault r then done 1 0 f
              else if negb (check_perm (Z.land (r_pte r) 255) (ci_type i) priv (ci_sum i) (ci_mxr i)) then done 1 0 f
              else
                let cap := if 0 <? ci_cap i then ci_cap i else 1 in
                let slot := ci_repl i mod cap in
                let e := walk_entry (ci_va i) (sv32_asid (ci_satp i)) r in
                done 0 (compose_paddr (ci_va i) e) (mkrf true e slot ((slot + 1) mod cap))
    end.

(** tlb_kernel_top_io_generator :1416-1546 between its decoding and encoding: the ports
    one after another, each seeing the walk and refill registers left by the one before. *)
Record csrs := mkcs { s_satp : Z; s_priv : Z; s_mxr : bool; s_sum : bool; s_mprv : bool; s_mpp : Z }.
(** The fields of mstatus, build_top_common_input TlbMmu.cpp:992-1001 *)
Definition csrs_of (satp mstatus priv : Z) : csrs :=
  mkcs satp priv (nz (Z.land mstatus (Z.shiftl 1 19))) (nz (Z.land mstatus (Z.shiftl 1 18))) (nz (Z.land mstatus (Z.shiftl 1 17)))
       (Z.land (Z.shiftr mstatus 11) 3).
Record pport := mkpp { pp_valid : bool; pp_va : Z; pp_type : Z; pp_look : look }.
Record pout := mkpo { po_valid : bool; po_result : Z; po_pa : Z; po_retry : Z; po_src : Z; po_lev : Z; po_perm : Z }.
(** The ports of a control call, :1451, 1470: the initialiser {0, 0, 0, 0, 0, 0xff, 0} has
    one value fewer than the structure has fields (:186-195), so 0xff is the source and
    the level is 0. *)
Definition pout0 : pout := mkpo false 0 0 0 255 0 0.
Record tin := mkti {
  ti_flush : bool; ti_cancel : bool; ti_csr : csrs; ti_walk : wregs; ti_refill : refill; ti_repl : Z;
  ti_ready : bool; ti_rv : bool; ti_resp : wresp; ti_ports : list pport }.
Record tout := mkto {
  to_tflush : bool; to_walk : wregs; to_refill : refill; to_rq : bool; to_req : wreq; to_cons : bool; to_cflush : bool; to_ports : list pout }.
(** TlbKernelTopAccState :118-123 and the loop body :1479-1520 *)
Record acc := mkac { a_walk : wregs; a_refill : refill; a_ready : bool; a_rv : bool; a_rq : bool; a_req : wreq; a_cons : bool }.
Definition lane_in (cap : Z) (t : tin) (p : pport) (s : acc) : cin :=
  let c := ti_csr t in
  mkci (pp_valid p) (pp_va p) (pp_type p) (s_satp c) (s_priv c) (s_mxr c) (s_sum c) (s_mprv c) (s_mpp c)
       (pp_look p) (a_walk s) (a_refill s) (ti_repl t) cap (a_ready s) (a_rv s) (ti_resp t).
Definition accumulate (s : acc) (o : cout) : acc :=
  mkac (co_walk o) (co_refill o) (if co_rq o then false else a_ready s) (if co_rq o || co_cons o then false else a_rv s)
       (if co_rq o then true else a_rq s) (if co_rq o then co_req o else a_req s) (if co_cons o then true else a_cons s).
Definition port_out (o : cout) : pout := mkpo (co_valid o) (co_result o) (co_pa o) (co_retry o) (co_src o) (co_lev o) (co_perm o).
Fixpoint lanes (cap : Z) (t : tin) (ps : list pport) (s : acc) : acc * list pout :=
  match ps with
  | [] => (s, [])
  | p :: ps => let o := core (lane_in cap t p s) in
               let '(s', os) := lanes cap t ps (accumulate s o) in (s', port_out o :: os)
  end.
Definition top (cap : Z) (t : tin) : tout :=
  if ti_flush t then mkto true wregs0 refill0 false wreq0 false true (map (fun _ => pout0) (ti_ports t))
  else if ti_cancel t then mkto false wregs0 (ti_refill t) false wreq0 false true (map (fun _ => pout0) (ti_ports t))
  else
    let '(s, os) := lanes cap t (ti_ports t) (mkac (ti_walk t) (ti_refill t) (ti_ready t) (ti_rv t) false wreq0 false) in
    mkto false (a_walk s) (a_refill s) (a_rq s) (a_req s) (a_cons s) false os.

(** ** The class TlbMmu.  Registers: table, replacement pointer, walk registers. *)
Record tlb := mkt { t_tab : list entry; t_repl : Z; t_wr : wregs }.
Definition ENTRIES : Z := 16.
Definition cleared : list entry := repeat entry0 16.
Definition tlb0 : tlb := mkt cleared 0 wregs0.
(** Within a cycle: the walk registers as seen now (visible_walk_regs :523-525), the
    refill not yet in the table, a pending flush; and the port adapter
    (MemSubSystem/MemSubsystem.cpp:291-338): what it shows now and what it has
    collected for the walker. *)
Record comb := mkcb {
  b_walk : wregs; b_refill : refill; b_flush : bool;
  b_ready : bool; b_resp : option wresp; b_req : option wreq; b_take : bool; b_kill : bool }.
Definition comb0 (t : tlb) (ready : bool) (resp : option wresp) : comb :=
  mkcb (t_wr t) refill0 false ready resp None false false.
(** send_walk_req :293-303, consume_resp :311-315, flush_client :317-322 *)
Definition a_send (q : wreq) (b : comb) : comb :=
  if negb (b_ready b) || match b_req b with Some _ => true | None => false end then b
  else mkcb (b_walk b) (b_refill b) (b_flush b) false None (Some q) (b_take b) (b_kill b).
Definition a_take (b : comb) : comb := mkcb (b_walk b) (b_refill b) (b_flush b) (b_ready b) None (b_req b) true (b_kill b).
Definition a_kill (b : comb) : comb := mkcb (b_walk b) (b_refill b) (b_flush b) true None (b_req b) (b_take b) true.

(** lookup_table_comb :616-633, lookup_table_access :648-656 *)
Definition table_look (t : tlb) (va asid : Z) : look :=
  match find (fun e => entry_matches e va asid) (t_tab t) with
  | Some e => mklk true e
  | None => mklk false entry0
  end.
(** build_top_common_input :992-1021 *)
Definition common_in (t : tlb) (b : comb) (flush cancel : bool) (c : csrs) (ps : list pport) : tin :=
  mkti flush cancel c (b_walk b) (b_refill b) (t_repl t) (b_ready b)
       (match b_resp b with Some _ => true | None => false end) (match b_resp b with Some r => r | None => wresp0 end) ps.
(** apply_top_output :1040-1061 *)
Definition apply_top (o : tout) (b : comb) : comb :=
  let b := if to_cflush o then a_kill b else b in
  let b := if to_rq o then a_send (to_req o) b else b in
  let b := if to_cons o then a_take b else b in
  mkcb (to_walk o) (to_refill o) (b_flush b || to_tflush o) (b_ready b) (b_resp b) (b_req b) (b_take b) (b_kill b).
(** status = nullptr in the control calls: all CSR fields 0 *)
Definition csrs0 : csrs := mkcs 0 0 false false false 0.
Definition no_port : pport := mkpp false 0 0 (mklk false entry0).
(** consume_completed_walk_refill :1071-1106 *)
Definition consume (faults : bool) (t : tlb) (b : comb) : comb * bool :=
  let w := b_walk b in
  match b_resp b with
  | Some r =>
      if w_act w && w_sent w && (Z.shiftr (r_va r) 12 =? Z.shiftr (w_va w) 12) then
        let ok := check_perm (Z.land (r_pte r) 255) (w_type w) (w_priv w) (w_sum w) (w_mxr w) in
        if (r_fault r || negb ok) && negb faults then (b, false)
        else
          let f := if negb (r_fault r) && ok
                   then mkrf true (walk_entry (w_va w) (sv32_asid (w_satp w)) r) (t_repl t) ((t_repl t + 1) mod ENTRIES)
                   else b_refill b in
          (a_take (mkcb (b_walk b) f (b_flush b) (b_ready b) (b_resp b) (b_req b) (b_take b) (b_kill b)), true)
      else (b, false)
  | None => (b, false)
  end.
(** flush :419-428, cancel_pending_walk :412-417, run_control_via_top :1063-1069 *)
Definition tlb_flush (n : nat) (t : tlb) (b : comb) : comb :=
  apply_top (top ENTRIES (common_in t b true false csrs0 (repeat no_port n))) b.
Definition tlb_cancel (n : nat) (t : tlb) (b : comb) : comb :=
  let b := fst (consume true t b) in
  apply_top (top ENTRIES (common_in t b false true csrs0 (repeat no_port n))) b.
(** Requests of one call: kind and address; [None] for an idle port. *)
Definition port_of (t : tlb) (c : csrs) (q : Z * option Z) : pport :=
  match snd q with
  | Some va => mkpp true va (fst q) (table_look t va (sv32_asid (s_satp c)))
  | None => mkpp false 0 (fst q) (mklk false entry0)
  end.
(** translate :1349-1371 with translate_shared_via_io_generator :951-990: the
    instruction TLB, one port, kind 0 *)
Definition tlb_translate (c : csrs) (va : Z) (t : tlb) (b : comb) : comb * list pout :=
  let o := top ENTRIES (common_in t b false false c [port_of t c (0, Some va)]) in
  (apply_top o b, to_ports o).
(** translate_lsu_ports :1108-1184: two load ports (kind 1), then two store ports (kind 2);
    the answer to a port without a request is discarded *)
Definition tlb_ports (c : csrs) (lds sts : list (option Z)) (t : tlb) (b : comb) : comb * list pout :=
  let '(b, consumed) := consume false t b in
  let b := if consumed then mkcb wregs0 (b_refill b) (b_flush b) (b_ready b) (b_resp b) (b_req b) (b_take b) (b_kill b) else b in
  let o := top ENTRIES (common_in t b false false c (map (port_of t c) (map (pair 1) lds ++ map (pair 2) sts))) in
  (apply_top o b, to_ports o).
(** seq :485-506 *)
Definition tseq (t : tlb) (b : comb) : tlb :=
  if b_flush b then tlb0
  else if f_valid (b_refill b) then mkt (upd (Z.to_nat (f_slot (b_refill b))) (f_entry (b_refill b)) (t_tab t)) (f_next (b_refill b)) (b_walk b)
  else mkt (t_tab t) (t_repl t) (b_walk b).

(** ** Cycles.  Instruction side, front-end/icache/ICacheTop.cpp:609-645, 928-940: flush
    on SFENCE.VMA, cancel on a redirection, and a translation only without one; data
    side, BackTop.cpp:185-201. *)
Record iop := mkio { io_flush : bool; io_cancel : bool; io_va : option Z; io_csr : csrs }.
Definition icycle (i : iop) (t : tlb) (b : comb) : comb * list pout :=
  let b := if io_flush i then tlb_flush 1 t b else b in
  let b := if io_cancel i then tlb_cancel 1 t b else b in
  match io_va i with Some va => tlb_translate (io_csr i) va t b | None => (b, []) end.
Inductive dop := DFlush | DCancel | DPorts (c : csrs) (lds sts : list (option Z)).
Definition dcycle (d : dop) (t : tlb) (b : comb) : comb * list pout :=
  match d with
  | DFlush => (tlb_flush 4 t b, [])
  | DCancel => (tlb_cancel 4 t b, [])
  | DPorts c lds sts => tlb_ports c lds sts t b
  end.
