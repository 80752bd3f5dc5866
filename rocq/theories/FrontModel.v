(** The fetch side of the front end: the four queues of front-end/fifo/
    (fetch_address_FIFO.cpp, instruction_FIFO.cpp, PTAB.cpp,
    front2bank_FIFO.cpp), front-end/predecode.cpp,
    front-end/predecode_checker.cpp, the queue plumbing of
    front-end/front_top.cpp and the fetch-address part of front-end/BPU/BPU.h.

    The four queue files have one structure and are modelled once, over an
    entry type [A], a capacity and a fullness test; only PTAB can push a second
    (dummy) entry in the same cycle.  Every [std::exit(1)] is the result [None].

    Build options as in front-end/config/frontend_feature_config.h:
    FRONTEND_DISABLE_2AHEAD (no two-ahead prediction, so mini_flush_req and
    mini_flush_correct are false, BPU.h:1254-1258), the real instruction cache
    (FRONTEND_ICACHE_MODE 0, so no second request per cycle), and neither
    FRONTEND_ENABLE_FETCH_TO_ICACHE_BYPASS nor
    FRONTEND_ENABLE_ICACHE_TO_PREDECODE_BYPASS is defined anywhere.

    Left out: statistics and trace counters; the direction and target
    predictors (their outputs are inputs of the model); the instruction cache
    (its ready flag and responses are inputs).  The predictor bookkeeping that
    travels with a prediction (pcpn, tage, sc and loop fields) is one opaque value
    per slot: the code masks it to its declared width and copies it. *)
From Verif Require Import Base.
Local Open Scope nat_scope.

Definition NF : nat := 4.            (* FETCH_WIDTH *)
Definition LINE : Z := 64.           (* ICACHE_LINE_SIZE *)
Definition RESET_PC : Z := 0.        (* frontend.h:11 *)
Definition FA_SIZE : nat := 8.       (* FETCH_ADDR_FIFO_SIZE *)
Definition FI_SIZE : nat := 8.       (* INSTRUCTION_FIFO_SIZE *)
Definition PT_SIZE : nat := 8.       (* PTAB_SIZE *)
Definition FB_SIZE : nat := 8.       (* FRONT2BACK_FIFO_SIZE *)

(* ------------------------------------------------------------------ *)
(** * The queues *)

Record frd (A : Type) := Frd { r_size : nat; r_hv : bool; r_head : A }.
Arguments Frd {A}. Arguments r_size {A}. Arguments r_hv {A}. Arguments r_head {A}.
Record fin (A : Type) := Fin { i_reset : bool; i_refetch : bool; i_we : bool; i_re : bool; i_data : A; i_dum : bool }.
Arguments Fin {A}. Arguments i_reset {A}. Arguments i_refetch {A}. Arguments i_we {A}.
Arguments i_re {A}. Arguments i_data {A}. Arguments i_dum {A}.
(** The update request: clear, push, dummy push, pop. *)
Record freq (A : Type) := Freq { q_clear : bool; q_push : bool; q_data : A; q_dpush : bool; q_ddata : A; q_pop : bool }.
Arguments Freq {A}. Arguments q_clear {A}. Arguments q_push {A}. Arguments q_data {A}.
Arguments q_dpush {A}. Arguments q_ddata {A}. Arguments q_pop {A}.
Record fout (A : Type) := Fout { o_full : bool; o_empty : bool; o_rv : bool; o_data : A }.
Arguments Fout {A}. Arguments o_full {A}. Arguments o_empty {A}. Arguments o_rv {A}. Arguments o_data {A}.
(** The class members: entries_[] and size_. *)
Record fst_ (A : Type) := Fst { s_ent : nat -> A; s_size : nat }.
Arguments Fst {A}. Arguments s_ent {A}. Arguments s_size {A}.

Section QUEUE.
  Context {A : Type} (zero dummy : A) (cap : nat) (full : nat -> bool).

  Definition req0 : freq A := Freq false false zero false zero false.

  (** *_FIFO_comb / PTAB_comb: fetch_address_FIFO.cpp:11-56, PTAB.cpp:16-131. *)
  Definition f_comb (i : fin A) (rd : frd A) : option (freq A * fout A) :=
    if i_reset i then Some (Freq true false zero false zero false, Fout false true false zero)
    else
      let clear := i_refetch i in
      let has := if i_refetch i then false else (0 <? r_size rd) in
      let before := if i_refetch i then 0 else r_size rd in
      let do_write := i_we i in
      let push_dummy := i_we i && i_dum i in
      let do_read := i_re i && (has || do_write || push_dummy) in
      if do_read && has && negb (r_hv rd) then None
      else
        let next := before + (if do_write then 1 else 0) + (if push_dummy then 1 else 0)
                    - (if do_read then 1 else 0) in
        Some (Freq clear do_write (if do_write then i_data i else zero)
                   push_dummy (if push_dummy then dummy else zero) do_read,
              Fout (full next) (next =? 0) do_read
                   (if do_read then (if has then r_head rd else if do_write then i_data i else zero) else zero)).

  (** seq_read: fetch_address_FIFO.cpp:62-69 *)
  Definition f_read (s : fst_ A) : frd A :=
    Frd (s_size s) (0 <? s_size s) (if 0 <? s_size s then s_ent s 0 else zero).

  (** build_next_read_data: fetch_address_FIFO.cpp:71-105, PTAB.cpp:147-197. *)
  Definition f_next (cur : frd A) (q : freq A) : option (frd A) :=
    let n0 := if q_clear q then Frd 0 false zero else cur in
    let size_before_ops := r_size n0 in
    match (if q_push q then
             if cap <=? r_size n0 then None
             else Some (if r_size n0 =? 0 then Frd (S (r_size n0)) true (q_data q)
                        else Frd (S (r_size n0)) (r_hv n0) (r_head n0))
           else Some n0) with
    | None => None
    | Some n1 =>
        match (if q_dpush q then
                 if cap <=? r_size n1 then None
                 else Some (if r_size n1 =? 0 then Frd (S (r_size n1)) true (q_ddata q)
                            else Frd (S (r_size n1)) (r_hv n1) (r_head n1))
               else Some n1) with
        | None => None
        | Some n2 =>
            if q_pop q then
              if r_size n2 =? 0 then None
              else
                let sz := r_size n2 - 1 in
                if sz =? 0 then Some (Frd sz false zero)
                else if 1 <? size_before_ops then Some (Frd sz false zero)
                else if q_push q then Some (Frd sz true (q_data q))
                else if q_dpush q then Some (Frd sz true (q_ddata q))
                else Some (Frd sz (r_hv n2) (r_head n2))
            else Some n2
        end
    end.

  (** comb_calc: fetch_address_FIFO.cpp:107-119 *)
  Definition f_calc (i : fin A) (rd : frd A) : option (freq A * fout A * frd A) :=
    match f_comb i rd with
    | None => None
    | Some (q, o) => match f_next rd q with None => None | Some rd' => Some (q, o, rd') end
    end.

  (** for (i = 1; i < size_; ++i) entries_[i-1] = entries_[i]; *)
  Fixpoint shift_loop (n i : nat) (e : nat -> A) : nat -> A :=
    match n with
    | O => e
    | S n' => shift_loop n' (S i) (fupd e (i - 1) (e i))
    end.

  (** seq_write: fetch_address_FIFO.cpp:121-145, PTAB.cpp:211-240. *)
  Definition f_write (s : fst_ A) (q : freq A) : option (fst_ A) :=
    let s0 := if q_clear q then Fst (fun _ => zero) 0 else s in
    match (if q_push q then
             if cap <=? s_size s0 then None
             else Some (Fst (fupd (s_ent s0) (s_size s0) (q_data q)) (S (s_size s0)))
           else Some s0) with
    | None => None
    | Some s1 =>
        match (if q_dpush q then
                 if cap <=? s_size s1 then None
                 else Some (Fst (fupd (s_ent s1) (s_size s1) (q_ddata q)) (S (s_size s1)))
               else Some s1) with
        | None => None
        | Some s2 =>
            if q_pop q then
              if s_size s2 =? 0 then None
              else
                let e := shift_loop (s_size s2 - 1) 1 (s_ent s2) in
                Some (Fst (fupd e (s_size s2 - 1) zero) (s_size s2 - 1))
            else Some s2
        end
    end.

  (** accumulate_*_req: front_top.cpp:912-998 *)
  Definition f_acc (acc step : freq A) : option (freq A) :=
    if (q_pop step && q_pop acc) || (q_push step && q_push acc) || (q_dpush step && q_dpush acc) then None
    else Some (Freq (q_clear acc || q_clear step)
                    (q_push acc || q_push step) (if q_push step then q_data step else q_data acc)
                    (q_dpush acc || q_dpush step) (if q_dpush step then q_ddata step else q_ddata acc)
                    (q_pop acc || q_pop step)).

  (** One access as front_top performs it: calculate on the current snapshot,
      accumulate the request, make the next snapshot current. *)
  Definition f_access (i : fin A) (rd : frd A) (acc : freq A) : option (fout A * frd A * freq A) :=
    match f_calc i rd with
    | None => None
    | Some (q, o, rd') => match f_acc acc q with None => None | Some acc' => Some (o, rd', acc') end
    end.
End QUEUE.

(** The fullness tests: fetch_address_FIFO.cpp:54, instruction_FIFO.cpp,
    PTAB.cpp:129, front2bank_FIFO.cpp; repeated at front_top.cpp:1820-1832. *)
Definition fa_full (n : nat) : bool := FA_SIZE - 1 <=? n.
Definition fi_full (n : nat) : bool := n =? FI_SIZE.
Definition pt_full (n : nat) : bool := PT_SIZE - 1 <=? n.
Definition fb_full (n : nat) : bool := n =? FB_SIZE.

(* ------------------------------------------------------------------ *)
(** * Predecode *)

Local Open Scope Z_scope.

(** PREDECODE_*: predecode.h *)
Definition PD_NON : Z := 0.
Definition PD_DIRECT : Z := 1.
Definition PD_JALR : Z := 2.
Definition PD_JAL : Z := 3.
Definition INST_NOP : Z := 19.        (* 0x00000013 *)

(** sign_extend_u32, predecode.cpp:5-8: (value ^ mask) - mask in uint32_t *)
Definition sign_ext (v bits : Z) : Z := w32 (Z.lxor v (2 ^ (bits - 1)) - 2 ^ (bits - 1)).
Definition pfld (i s m : Z) : Z := Z.land (Z.shiftr i s) m.
(** predecode_comb, predecode.cpp:16-60 *)
Definition predecode (inst pc : Z) : Z * Z :=
  if (inst =? 0) || (inst =? INST_NOP) then (PD_NON, 0)
  else
    let opcode := Z.land inst 127 in
    if opcode =? 111 then
      let raw := Z.lor (Z.lor (Z.lor (Z.shiftl (pfld inst 31 1) 20) (Z.shiftl (pfld inst 12 255) 12))
                              (Z.shiftl (pfld inst 20 1) 11)) (Z.shiftl (pfld inst 21 1023) 1) in
      (PD_JAL, w32 (pc + sign_ext raw 21))
    else if opcode =? 99 then
      let raw := Z.lor (Z.lor (Z.lor (Z.shiftl (pfld inst 31 1) 12) (Z.shiftl (pfld inst 7 1) 11))
                              (Z.shiftl (pfld inst 25 63) 5)) (Z.shiftl (pfld inst 8 15) 1) in
      (PD_DIRECT, w32 (pc + sign_ext raw 13))
    else if opcode =? 103 then (PD_JALR, 0)
    else (PD_NON, 0).

(** predecode_checker_comb, predecode_checker.cpp:17-70.  The switch's default
    branch exits; the types stored by predecode are 0..3. *)
Definition dir_corr (ty : Z) (d : bool) : bool :=
  if ty =? PD_NON then false else if ty =? PD_DIRECT then d else true.
Fixpoint first_taken (n i : nat) (d : nat -> bool) : option nat :=
  match n with
  | O => None
  | S n' => if d i then Some i else first_taken n' (S i) d
  end.
Definition checker (ty : nat -> Z) (tgt : nat -> Z) (dir : nat -> bool) (seq_next next : Z)
  : option ((nat -> bool) * Z * bool) :=
  if existsb (fun i => negb (existsb (Z.eqb (ty i)) [PD_NON; PD_DIRECT; PD_JALR; PD_JAL])) (List.seq 0 NF) then None
  else
    let d := fun i => dir_corr (ty i) (dir i) in
    let c := match first_taken NF 0 d with
             | Some k => if (ty k =? PD_DIRECT) || (ty k =? PD_JAL) then tgt k else next
             | None => seq_next
             end in
    Some (d, c, negb (next =? c)).

(* ------------------------------------------------------------------ *)
(** * The front end's cycle *)

(** What the instruction cache returns: fetch_pc, fetch_group, page_fault_inst,
    inst_valid. *)
Record igroup := IGroup { ig_pc : Z; ig_inst : nat -> Z; ig_pf : nat -> bool; ig_valid : nat -> bool }.
(** instruction_FIFO entry *)
Record ientry := IEntry { ie_inst : nat -> Z; ie_pc : nat -> Z; ie_pf : nat -> bool; ie_valid : nat -> bool;
                          ie_type : nat -> Z; ie_tgt : nat -> Z; ie_seq : Z }.
(** PTAB_entry *)
Record pentry := PEntry { pe_dir : nat -> bool; pe_pc : nat -> Z; pe_meta : nat -> Z; pe_next : Z;
                          pe_mini : bool; pe_dummy : bool }.
(** front2back_FIFO entry, which is also what the back end is given. *)
Record bentry := BEntry { be_inst : nat -> Z; be_pf : nat -> bool; be_valid : nat -> bool; be_dir : nat -> bool;
                          be_pc : nat -> Z; be_meta : nat -> Z; be_next : Z }.
Definition ie0 : ientry := IEntry (fun _ => 0) (fun _ => 0) (fun _ => false) (fun _ => false) (fun _ => 0) (fun _ => 0) 0.
Definition pe0 : pentry := PEntry (fun _ => false) (fun _ => 0) (fun _ => 0) 0 false false.
Definition pe_dum : pentry := PEntry (fun _ => false) (fun _ => 0) (fun _ => 0) 0 false true.
Definition be0 : bentry := BEntry (fun _ => 0) (fun _ => false) (fun _ => false) (fun _ => false) (fun _ => 0) (fun _ => 0) 0.

(** pc + i*4 in uint32_t *)
Definition slot_pc (pc : Z) (i : nat) : Z := w32 (pc + Z.of_nat i * 4).
(** The block boundary, front_top.cpp:1626-1630 and BPU.h:822-827. *)
Definition line_mask (x : Z) : Z := Z.land x (Z.lxor (LINE - 1) (2 ^ 32 - 1)).
Definition seq_next (pc : Z) : Z :=
  let n := w32 (pc + Z.of_nat NF * 4) in
  if negb (line_mask n =? line_mask pc) then line_mask n else n.

(** The entry written to the instruction FIFO, front_top.cpp:1598-1630. *)
Definition ientry_of (g : igroup) : ientry :=
  IEntry (ig_inst g) (slot_pc (ig_pc g)) (ig_pf g) (ig_valid g)
         (fun i => if ig_valid g i then fst (predecode (ig_inst g i) (slot_pc (ig_pc g) i)) else PD_NON)
         (fun i => if ig_valid g i then snd (predecode (ig_inst g i) (slot_pc (ig_pc g) i)) else 0)
         (seq_next (ig_pc g)).

(** The predictor's answer for the current fetch address: a direction and a
    bookkeeping value per slot, and the next fetch address. *)
Record pred := Pred { pr_dir : nat -> bool; pr_meta : nat -> Z; pr_next : Z }.
(** front_ptab_write_comb, front_top.cpp:725-763 *)
Definition pentry_of (pc : Z) (p : pred) : pentry :=
  PEntry (pr_dir p) (slot_pc pc) (pr_meta p) (pr_next p) false false.

Record fstate := FS {
  fs_fa : fst_ Z; fs_fi : fst_ ientry; fs_pt : fst_ pentry; fs_fb : fst_ bentry;
  l_fa_full : bool; l_fa_empty : bool; l_fi_full : bool; l_fi_empty : bool;
  l_pt_full : bool; l_pt_empty : bool; l_fb_full : bool; l_fb_empty : bool;
  fs_refetch : bool; fs_refetch_addr : Z;     (* predecode_refetch(_address) *)
  fs_pc : Z; fs_send : bool }.                (* BPU pc_reg, pc_can_send_to_icache *)

(** Inputs of a cycle: reset, the back end's redirection and read request, the
    instruction cache's ready flag and response, the predictor's answer. *)
Record fcin := FIn { c_reset : bool; c_refetch : bool; c_addr : Z; c_re : bool;
                     c_ready : bool; c_resp : option igroup; c_pred : pred }.
(** Outputs: the group offered to the back end, the instruction cache request. *)
Record fcout := FCOut { co_group : option bentry; co_icreq : option Z }.

(** static initialisers, front_top.cpp:26-60 and BPU_TOP::BPU_TOP *)
Definition fs_init : fstate :=
  FS (Fst (fun _ => 0) 0) (Fst (fun _ => ie0) 0) (Fst (fun _ => pe0) 0) (Fst (fun _ => be0) 0)
     false true false true false true false true false 0 RESET_PC true.

Notation "'do' x <- a ; b" := (match a with None => None | Some x => b end)
  (at level 200, x pattern, a at level 100, b at level 200, only parsing).

Section CYCLE.
  Variables (s : fstate) (c : fcin).

  (** front_global_control_comb, l.615-624 *)
  Definition g_reset : bool := c_reset c.
  Definition g_refetch : bool := c_refetch c || fs_refetch s.
  Definition g_addr : Z := if c_refetch c then c_addr c else fs_refetch_addr s.
  (** front_read_enable_comb, l.626-645 *)
  Definition re_fa : bool := c_ready c && negb (l_fa_empty s) && negb g_reset && negb g_refetch.
  Definition re_pre : bool :=
    negb (l_fi_empty s) && negb (l_pt_empty s) && negb (l_fb_full s) && negb g_reset && negb g_refetch.
  (** front_bpu_control_comb, l.675-690 *)
  Definition bpu_stall : bool := l_fa_full s || l_pt_full s.
  Definition bpu_can_run : bool := negb bpu_stall || g_reset || g_refetch.
  Definition bpu_ready : bool := if bpu_can_run then negb (l_fa_full s) else false.
  (** bpu_pre_read_req_comb, BPU.h:820, 842-843; bpu_predict_main_comb, 1076, 1146.
      In a reset cycle the predictor is not evaluated (front_top.cpp:1334-1340). *)
  Definition bpu_pc : Z := if g_refetch then g_addr else fs_pc s.
  Definition bpu_do : bool := fs_send s && (bpu_ready || g_refetch).
  Definition bpu_rv : bool := if g_reset then false else fs_send s && negb g_refetch.
  Definition bpu_ptw : bool := if g_reset then false else bpu_do && negb g_refetch.
  (** The write controls, l.1372-1374, 1656-1658 *)
  Definition we_fa : bool := bpu_rv && bpu_can_run && negb g_reset.
  Definition we_pt : bool := bpu_ptw && negb (l_pt_full s) && negb g_reset && negb g_refetch.
  Definition ic_valid : bool := match c_resp c with Some _ => true | None => false end.
  Definition we_fi : bool := negb (l_fi_full s) && ic_valid && negb g_reset && negb g_refetch.

  (** bpu_comb_calc's pc update, BPU.h:1789-1808; bpu_seq_write with reset. *)
  Definition pc_next : Z :=
    if g_reset then RESET_PC
    else if g_refetch then g_addr
    else if bpu_do then pr_next (c_pred c) else fs_pc s.
  Definition send_next : bool :=
    if g_reset then true else if g_refetch then true else if bpu_do then true else fs_send s.

  (** front_comb_calc (front_top.cpp:1003-1960) followed by front_seq_write. *)
  Definition fcycle : option (fstate * fcout) :=
    (* stage 3: reads *)
    do (oa, ra, qa) <- f_access 0 0 FA_SIZE fa_full (Fin g_reset g_refetch false re_fa 0 false)
                         (f_read 0 (fs_fa s)) (req0 0);
    do (oi, ri, qi) <- f_access ie0 ie0 FI_SIZE fi_full (Fin g_reset g_refetch false re_pre ie0 false)
                         (f_read ie0 (fs_fi s)) (req0 ie0);
    do (op, rp, qp) <- f_access pe0 pe_dum PT_SIZE pt_full (Fin g_reset g_refetch false re_pre pe0 false)
                         (f_read pe0 (fs_pt s)) (req0 pe0);
    do (ob, rb, qb) <- f_access be0 be0 FB_SIZE fb_full (Fin g_reset (c_refetch c) false (c_re c) be0 false)
                         (f_read be0 (fs_fb s)) (req0 be0);
    (* stage 5: the predictor's fetch address *)
    do (ra, qa) <- (if we_fa then
                      do (_, ra, qa) <- f_access 0 0 FA_SIZE fa_full (Fin false false true false bpu_pc false) ra qa;
                      Some (ra, qa)
                    else Some (ra, qa));
    (* stage 7: the instruction cache's response; inst_fifo_read_enable is re_pre *)
    let can_run := negb (pe_dummy (o_data op)) && re_pre in
    do (ri, qi) <- (if we_fi then
                      match c_resp c with
                      | Some g =>
                          do (_, ri, qi) <- f_access ie0 ie0 FI_SIZE fi_full
                                              (Fin g_reset g_refetch true false (ientry_of g) false) ri qi;
                          Some (ri, qi)
                      | None => Some (ri, qi)
                      end
                    else Some (ri, qi));
    do (rp, qp) <- (if we_pt then
                      do (_, rp, qp) <- f_access pe0 pe_dum PT_SIZE pt_full
                                          (Fin g_reset g_refetch true false (pentry_of bpu_pc (c_pred c)) false) rp qp;
                      Some (rp, qp)
                    else Some (rp, qp));
    (* the predecode checker, l.1690-1722: exits when the two queues disagree on a pc *)
    let ie := o_data oi in
    let pe := o_data op in
    do (dirs, corr, flush) <-
      (if can_run then
         if existsb (fun i => negb (ie_pc ie i =? pe_pc pe i)) (List.seq 0 NF) then None
         else checker (ie_type ie) (ie_tgt ie) (pe_dir pe) (ie_seq ie) (pe_next pe)
       else Some ((fun _ => false), 0, false));
    (* the write to the back end's queue, or straight to the output, l.1735-1800 *)
    let can_write := can_run && negb (l_fb_full s) && negb g_reset in
    let bypass := c_re c && l_fb_empty s && negb (o_rv ob) && can_write in
    let be := BEntry (ie_inst ie) (ie_pf ie) (ie_valid ie) dirs (pe_pc pe) (pe_meta pe) corr in
    do (rb, qb) <- (if can_write && negb bypass then
                      do (_, rb, qb) <- f_access be0 be0 FB_SIZE fb_full
                                          (Fin g_reset (c_refetch c) true false be false) rb qb;
                      Some (rb, qb)
                    else Some (rb, qb));
    (* front_seq_write *)
    do fa' <- f_write 0 FA_SIZE (fs_fa s) qa;
    do fi' <- f_write ie0 FI_SIZE (fs_fi s) qi;
    do pt' <- f_write pe0 PT_SIZE (fs_pt s) qp;
    do fb' <- f_write be0 FB_SIZE (fs_fb s) qb;
    Some (FS fa' fi' pt' fb'
             (fa_full (r_size ra)) (Nat.eqb (r_size ra) 0) (fi_full (r_size ri)) (Nat.eqb (r_size ri) 0)
             (pt_full (r_size rp)) (Nat.eqb (r_size rp) 0) (fb_full (r_size rb)) (Nat.eqb (r_size rb) 0)
             flush (if flush then corr else 0) pc_next send_next,
          FCOut (if o_rv ob then Some (o_data ob) else if bypass then Some be else None)
                (if o_rv oa then Some (o_data oa) else None)).
End CYCLE.
