(** Model of back-end/Dispatch.cpp (comb_alloc, comb_wake, comb_dispatch, comb_fire,
    comb_pipeline, decompose_inst).  Slots are a list in program order; the code's width
    DECODE_WIDTH = 2 (include/config.h) appears only as the port limit [W].
    Not modelled: performance counters, block-reason bookkeeping and fields that are
    copied through unread (ftq indices, immediates other than the link constant, dbg). *)
From Verif Require Import Base.

Definition W : nat := 2.          (* DECODE_WIDTH = dispatch_width of every queue = MAX_*_DISPATCH_WIDTH, config.h:418-420,495-506 *)
Definition STQ_SIZE : nat := 16.
Definition BANKS : nat := 2.

(** InstType, include/types.h:23-44. *)
Inductive itype := NOP | JAL | JALR | ADD | BR | LOAD | STORE | CSR | FENCE | ECALL | EBREAK | WFI
| SFENCE_VMA | FENCE_I | MRET | SRET | MUL | DIV | AMO | FP.
Scheme Equality for itype.
Inductive iqid := IQ_INT | IQ_LD | IQ_STA | IQ_STD | IQ_BR.
Scheme Equality for iqid.
Inductive uopk := UOP_ADD | UOP_MUL | UOP_DIV | UOP_FP | UOP_BR | UOP_LOAD | UOP_STA | UOP_STD | UOP_JUMP
| UOP_CSR | UOP_FENCE | UOP_ECALL | UOP_MRET | UOP_SRET | UOP_SFENCE_VMA | UOP_FENCE_I | UOP_EBREAK | UOP_WFI.

(** RenDisInst plus the DispatchInst extension, Dispatch.h:34-47.  [id] is a ghost
    identity that the code does not have. *)
Record inst := mkInst {
  id : Z; ty : itype; f7 : Z; den : bool; da : Z; dp : Z;
  s1e : bool; s1 : Z; s1b : bool; s2e : bool; s2 : Z; s2b : bool;
  brm : Z; robi : nat; robf : bool; stqi : nat; stqf : bool; ldqi : Z; expect : Z }.
(** DisIssUop; [uid] is the ghost identity of the instruction it came from. *)
Record uop := mkUop {
  uid : Z; op : uopk; uden : bool; udp : Z; us1e : bool; us1 : Z; us1b : bool; us2e : bool; us2 : Z; us2b : bool;
  ulink : bool (* imm replaced by 4 *); ubrm : Z; urobi : nat; urobf : bool; ustqi : nat; ustqf : bool; uldqi : Z }.

Definition LR := 2. Definition SC := 3. Definition SWAP := 1.          (* AmoOp, types.h:50-54 *)
Definition amo_op (x : inst) : Z := Z.shiftr (f7 x) 2.
(** is_store / is_load / is_CSR, util.h:131-168. *)
Definition is_store (x : inst) : bool := itype_beq (ty x) STORE || (itype_beq (ty x) AMO && negb (amo_op x =? LR)).
Definition is_load (x : inst) : bool := itype_beq (ty x) LOAD || (itype_beq (ty x) AMO && negb (amo_op x =? SC)).
Definition is_CSR (t : itype) : bool := match t with CSR | MRET | ECALL | EBREAK => true | _ => false end.

Record env := mkEnv {
  e_enq : nat; e_robflag : bool; e_ready : bool; e_empty : bool; e_stall : bool;           (* rob2dis *)
  e_stail : nat; e_stflag : bool; e_sfree : nat; e_lfree : nat; e_lav : nat -> bool; e_lai : nat -> Z;   (* lsu2dis *)
  e_iqr : iqid -> nat;                                                                      (* iss2dis->ready_num *)
  e_wake : list Z;                                       (* valid wakes of prf_awake followed by iss_awake *)
  e_flush : bool; e_mispred : bool; e_clear : Z;                                            (* rob_bcast, dec_bcast *)
  e_new : list (bool * inst) }.                                                             (* ren2dis *)
(** Flip-flops: inst_valid / inst_r, busy_table; [succ] and [cache] are the class members
    dispatch_success_flags and dispatch_cache, which keep last cycle's values where the loop breaks. *)
Record dis := mkDis { slots : list (bool * inst); busy : Z -> bool; succ : list bool; cache : list (list iqid) }.

(** A slot after comb_alloc: inst_valid, dis2rob->valid, inst_alloc. *)
Record aslot := mkA { av : bool; arv : bool; ai : inst }.

(** comb_alloc, Dispatch.cpp:72-143.  [so], [lo] are stq_port_owner and ldq_port_owner in port order. *)
Definition alloc_one (e : env) (i : nat) (so lo : list nat) (v : bool) (x : inst) : aslot * list nat * list nat :=
  let sc := length so in let lc := length lo in
  let isl := v && is_load x in
  let ist := v && is_store x in
  let lok := (Nat.ltb lc (e_lfree e)) && (Nat.ltb lc W) && (Nat.ltb lc W) && e_lav e lc in
  let sok := (Nat.ltb sc (e_sfree e)) && (Nat.ltb sc W) in
  let pos := (e_stail e + sc)%nat in
  let give := isl || (ist && sok) in
  let a := mkInst (id x) (ty x) (f7 x) (den x) (da x) (dp x) (s1e x) (s1 x) (s1b x) (s2e x) (s2 x) (s2b x)
             (Z.ldiff (brm x) (e_clear e)) (e_enq e * BANKS + i) (e_robflag e)
             (if give then pos mod STQ_SIZE else 0)%nat
             (if give then xorb (e_stflag e) (Nat.odd (pos / STQ_SIZE)) else false)
             (if isl && lok then e_lai e lc else 0) 0 in
  (mkA v (v && (negb isl || lok) && (negb ist || sok)) a,
   if ist && sok then so ++ [i] else so, if isl && lok then lo ++ [i] else lo).
Fixpoint alloc_loop (e : env) (i : nat) (so lo : list nat) (sl : list (bool * inst)) : list aslot * list nat * list nat :=
  match sl with
  | [] => ([], so, lo)
  | (v, x) :: r => let '(a, so', lo') := alloc_one e i so lo v x in
                   let '(r', so'', lo'') := alloc_loop e (S i) so' lo' r in (a :: r', so'', lo'')
  end.

(** is_preg_woken, apply_wakeup_to_uop, Dispatch.cpp:4-27. *)
Definition woken (e : env) (p : Z) : bool := existsb (Z.eqb p) (e_wake e).
(** comb_wake, Dispatch.cpp:152-183; [prev] are the slots before this one. *)
Definition wake_src (e : env) (b : Z -> bool) (prev : list aslot) (en : bool) (p : Z) : bool :=
  let b0 := if en then b p else false in
  let b1 := if en && woken e p then false else b0 in
  fold_left (fun b j => if negb (arv j) || negb (den (ai j)) then b
                        else if da (ai j) =? 0 then b
                        else if en && (p =? dp (ai j)) then true else b) prev b1.
Definition set_busy (x : inst) (b1 b2 : bool) : inst :=
  mkInst (id x) (ty x) (f7 x) (den x) (da x) (dp x) (s1e x) (s1 x) b1 (s2e x) (s2 x) b2
         (brm x) (robi x) (robf x) (stqi x) (stqf x) (ldqi x) (expect x).
Definition wake_one (e : env) (b : Z -> bool) (prev : list aslot) (a : aslot) : aslot :=
  if negb (arv a) then a
  else mkA (av a) (arv a) (set_busy (ai a) (wake_src e b prev (s1e (ai a)) (s1 (ai a))) (wake_src e b prev (s2e (ai a)) (s2 (ai a)))).
Fixpoint wake_loop (e : env) (b : Z -> bool) (prev sl : list aslot) : list aslot :=
  match sl with
  | [] => []
  | a :: r => let a' := wake_one e b prev a in a' :: wake_loop e b (prev ++ [a']) r
  end.

(** make_dis_iss_uop, Dispatch.cpp:767-795. *)
Definition mk (x : inst) (o : uopk) : uop :=
  mkUop (id x) o (den x) (dp x) (s1e x) (s1 x) (s1b x) (s2e x) (s2 x) (s2b x) false (brm x)
        (robi x) (robf x) (stqi x) (stqf x) (ldqi x).
Definition no_s1 (u : uop) : uop :=
  mkUop (uid u) (op u) (uden u) (udp u) false (us1 u) (us1b u) (us2e u) (us2 u) (us2b u) (ulink u) (ubrm u) (urobi u) (urobf u) (ustqi u) (ustqf u) (uldqi u).
Definition set_s1e (u : uop) : uop :=
  mkUop (uid u) (op u) (uden u) (udp u) true (us1 u) (us1b u) (us2e u) (us2 u) (us2b u) (ulink u) (ubrm u) (urobi u) (urobf u) (ustqi u) (ustqf u) (uldqi u).
Definition set_s2e (b : bool) (u : uop) : uop :=
  mkUop (uid u) (op u) (uden u) (udp u) (us1e u) (us1 u) (us1b u) b (us2 u) (us2b u) (ulink u) (ubrm u) (urobi u) (urobf u) (ustqi u) (ustqf u) (uldqi u).
Definition set_den (b : bool) (u : uop) : uop :=
  mkUop (uid u) (op u) b (udp u) (us1e u) (us1 u) (us1b u) (us2e u) (us2 u) (us2b u) (ulink u) (ubrm u) (urobi u) (urobf u) (ustqi u) (ustqf u) (uldqi u).
Definition set_s1 (p : Z) (b : bool) (u : uop) : uop :=
  mkUop (uid u) (op u) (uden u) (udp u) (us1e u) p b (us2e u) (us2 u) (us2b u) (ulink u) (ubrm u) (urobi u) (urobf u) (ustqi u) (ustqf u) (uldqi u).
Definition link (u : uop) : uop :=
  mkUop (uid u) (op u) (uden u) (udp u) false (us1 u) (us1b u) false (us2 u) (us2b u) true (ubrm u) (urobi u) (urobf u) (ustqi u) (ustqf u) (uldqi u).

(** decompose_inst, Dispatch.cpp:797-993. *)
Definition decompose (x : inst) : list (iqid * uop) :=
  match ty x with
  | ADD => [(IQ_INT, mk x UOP_ADD)]
  | MUL => [(IQ_INT, mk x UOP_MUL)]
  | DIV => [(IQ_INT, mk x UOP_DIV)]
  | FP => [(IQ_INT, mk x UOP_FP)]
  | BR => [(IQ_BR, mk x UOP_BR)]
  | LOAD => [(IQ_LD, mk x UOP_LOAD)]
  | STORE => [(IQ_STA, set_s2e false (mk x UOP_STA)); (IQ_STD, set_s2e true (no_s1 (mk x UOP_STD)))]
  | JALR => [(IQ_INT, link (mk x UOP_ADD)); (IQ_BR, set_den false (set_s1e (mk x UOP_JUMP)))]
  | JAL => [(IQ_INT, link (mk x UOP_ADD)); (IQ_BR, set_den false (mk x UOP_JUMP))]
  | AMO =>
      if amo_op x =? LR then [(IQ_LD, set_s2e false (mk x UOP_LOAD))]
      else if amo_op x =? SC then
        [(IQ_STA, set_den true (set_s2e false (mk x UOP_STA))); (IQ_STD, set_den false (no_s1 (mk x UOP_STD)))]
      else [(IQ_LD, set_s2e false (mk x UOP_LOAD));
            (IQ_STA, set_den false (set_s2e false (mk x UOP_STA)));
            (IQ_STD, set_den false (set_s1 (dp x) (if amo_op x =? SWAP then false else true) (mk x UOP_STD)))]
  | NOP => [(IQ_INT, mk x UOP_ADD)]
  | CSR => [(IQ_INT, mk x UOP_CSR)]
  | FENCE => [(IQ_INT, mk x UOP_FENCE)]
  | ECALL => [(IQ_INT, mk x UOP_ECALL)]
  | MRET => [(IQ_INT, mk x UOP_MRET)]
  | SRET => [(IQ_INT, mk x UOP_SRET)]
  | SFENCE_VMA => [(IQ_INT, mk x UOP_SFENCE_VMA)]
  | FENCE_I => [(IQ_INT, mk x UOP_FENCE_I)]
  | EBREAK => [(IQ_INT, mk x UOP_EBREAK)]
  | WFI => [(IQ_INT, mk x UOP_WFI)]
  end.
(** rob_cplt_mask_from_iq, util.h:72-86; G0 = 1, G1 = 2, G2 = 4. *)
Definition cplt_of (q : iqid) : Z := match q with IQ_INT | IQ_LD => 1 | IQ_BR | IQ_STA => 2 | IQ_STD => 4 end.
Definition expect_of (x : inst) : Z :=
  if itype_beq (ty x) AMO && (amo_op x =? SC) then Z.lor 1 4
  else fold_left (fun m qu => Z.lor m (cplt_of (fst qu))) (decompose x) 0.

(** dis2iss->req: None is an invalid port. *)
Definition reqs := iqid -> nat -> option uop.
Definition usage := iqid -> nat.
Definition bump (u : usage) (q : iqid) : usage := fun r => if iqid_beq r q then S (u r) else u r.
Definition rset (m : reqs) (q : iqid) (k : nat) (v : option uop) : reqs :=
  fun r j => if iqid_beq r q && Nat.eqb j k then v else m r j.
Fixpoint place (us : list (iqid * uop)) (n : usage) (m : reqs) : usage * reqs :=
  match us with
  | [] => (n, m)
  | (q, u) :: r => place r (bump n q) (rset m q (n q) (Some u))
  end.
Definition fits (e : env) (n : usage) (us : list (iqid * uop)) : bool :=
  forallb (fun qu => negb (Nat.leb W (n (fst qu)) || Nat.leb (e_iqr e (fst qu)) (n (fst qu)))) us.

(** comb_dispatch, Dispatch.cpp:192-264; returns success flags, cache, requests. *)
Fixpoint disp_loop (e : env) (sl : list aslot) (of : list bool) (oc : list (list iqid)) (n : usage) (m : reqs)
  : list bool * list (list iqid) * reqs :=
  match sl with
  | [] => ([], [], m)
  | a :: r =>
      if negb (av a) then let '(f, c, m') := disp_loop e r (tl of) (tl oc) n m in (true :: f, [] :: c, m')
      else let us := decompose (ai a) in
           if fits e n us then
             let '(n1, m1) := place us n m in
             let '(f, c, m') := disp_loop e r (tl of) (tl oc) n1 m1 in (true :: f, map fst us :: c, m')
           else (false :: tl of, map fst us :: tl oc, m)
  end.

(** comb_fire step 1, Dispatch.cpp:383-440; returns dis_fire and the final pre_stall. *)
Definition gflush (e : env) : bool := e_flush e || e_mispred e || e_stall e.
Fixpoint fire_loop (e : env) (sl : list aslot) (f : list bool) (pre_stall pre_fire : bool) : list bool * bool :=
  match sl with
  | [] => ([], pre_stall)
  | a :: r =>
      let atomic := av a && itype_beq (ty (ai a)) AMO in
      let wfi := av a && itype_beq (ty (ai a)) WFI in
      let b0 := arv a && hd false f && e_ready e && negb pre_stall && negb (gflush e) in
      let b1 := if is_CSR (ty (ai a)) && (negb (e_empty e) || pre_fire) then false else b0 in
      let b2 := if atomic && (negb (e_empty e) || pre_fire) then false else b1 in
      let ps1 := if av a && negb b2 then true else pre_stall in
      let ps2 := if b2 && (atomic || wfi) then true else ps1 in
      let '(r', ps) := fire_loop e r (tl f) ps2 (pre_fire || b2) in (b2 :: r', ps)
  end.

(** comb_fire step 2, Dispatch.cpp:451-478. *)
Fixpoint bumps (qs : list iqid) (n : usage) : usage := match qs with [] => n | q :: r => bumps r (bump n q) end.
Fixpoint cancel (qs : list iqid) (n : usage) (m : reqs) : usage * reqs :=
  match qs with [] => (n, m) | q :: r => cancel r (bump n q) (rset m q (n q) None) end.
Fixpoint roll (sl : list aslot) (f fr : list bool) (c : list (list iqid)) (n : usage) (m : reqs) : reqs :=
  match sl with
  | [] => m
  | a :: r =>
      if negb (av a) then roll r (tl f) (tl fr) (tl c) n m
      else if negb (hd false f) then m
      else if negb (hd false fr) then let '(n1, m1) := cancel (hd [] c) n m in roll r (tl f) (tl fr) (tl c) n1 m1
      else roll r (tl f) (tl fr) (tl c) (bumps (hd [] c) n) m
  end.

(** comb_fire steps 3 and 4, Dispatch.cpp:480-507: per LSU port, the allocation request with the instruction behind it. *)
Definition lsu_req (owner : list nat) (fr : list bool) (sl : list aslot) (k : nat) : option inst :=
  match nth_error owner k with
  | Some i => if nth i fr false then option_map ai (nth_error sl i) else None
  | None => None
  end.

(** busy_table_1, Dispatch.cpp:371-381,443-447. *)
Definition busy_wake (ws : list Z) (b : Z -> bool) : Z -> bool :=
  fold_left (fun b w => fun p => if p =? w then false else b p) ws b.
Fixpoint busy_set (sl : list aslot) (fr : list bool) (b : Z -> bool) : Z -> bool :=
  match sl with
  | [] => b
  | a :: r => busy_set r (tl fr) (if hd false fr && den (ai a) then fun p => if p =? dp (ai a) then true else b p else b)
  end.

(** comb_pipeline, Dispatch.cpp:712-757. *)
Definition clr (e : env) (x : inst) : inst :=
  mkInst (id x) (ty x) (f7 x) (den x) (da x) (dp x) (s1e x) (s1 x) (s1b x) (s2e x) (s2 x) (s2b x)
         (Z.ldiff (brm x) (e_clear e)) (robi x) (robf x) (stqi x) (stqf x) (ldqi x) (expect x).
Definition keep_one (e : env) (vx : bool * inst) (a : aslot) (f : bool) : bool * inst :=
  let '(v, x) := vx in
  if v && negb f then
    (true, clr e (set_busy x (if s1e x && woken e (s1 x) then false else s1b (ai a)) (if s2e x && woken e (s2 x) then false else s2b (ai a))))
  else (false, x).
Fixpoint keep (e : env) (sl : list (bool * inst)) (al : list aslot) (fr : list bool) : list (bool * inst) :=
  match sl, al, fr with
  | vx :: r, a :: ra, f :: rf => keep_one e vx a f :: keep e r ra rf
  | _, _, _ => []
  end.

Record out := mkOut {
  o_alloc : list aslot;              (* inst_alloc and dis2rob->valid as seen by comb_fire *)
  o_fire : list bool;                (* dis2rob->dis_fire *)
  o_ready : bool;                    (* dis2ren->ready *)
  o_req : reqs;                      (* dis2iss->req after the rollback *)
  o_stq : nat -> option inst; o_ldq : nat -> option inst;
  o_expect : list Z }.               (* dis2rob->uop[].expect_mask, Dispatch.cpp:141,226-233,252 *)
Definition no_req : reqs := fun _ _ => None.
Definition cycle (e : env) (st : dis) : out * dis :=
  let '(al0, so, lo) := alloc_loop e 0 [] [] (slots st) in
  let al := wake_loop e (busy st) [] al0 in
  let '(f, c, m) := disp_loop e al (succ st) (cache st) (fun _ => O) no_req in
  let '(fr, ps) := fire_loop e al f false false in
  let m' := roll al f fr c (fun _ => O) m in
  let ready := negb ps in
  let b' := busy_set al fr (busy_wake (e_wake e) (busy st)) in
  let sl' := if e_flush e || e_mispred e then map (fun vx => (false, snd vx)) (slots st)
             else if ready then map (fun vx => (fst vx, clr e (snd vx))) (e_new e)
             else keep e (slots st) al fr in
  (mkOut al fr ready m' (lsu_req so fr al) (lsu_req lo fr al)
         (map (fun af => if av (fst af) && snd af then expect_of (ai (fst af)) else 0) (combine al f)), mkDis sl' b' f c).
