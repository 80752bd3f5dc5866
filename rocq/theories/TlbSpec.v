(** Both TLBs with the shared walker, the routing block and the data cache behind them,
    over whole CPU cycles. *)
From Verif Require Import Base MemSpec DcModel DcSpec RtModel RtSpec PtwModel Sv32Spec PtwSpec TlbModel.

Record usys := mku { u_v : vsys; u_t : client -> tlb }.
Definition usys0 (m : Z -> Z) : usys := mku (vsys0 m) (fun _ => tlb0).
Record uin := mkui { ui_lsu : request; ui_ic : option Z; ui_i : iop; ui_d : dop }.
(** A translation is not asked for in a cycle with a redirection or a flush
    (ICacheTop.cpp:931; rob_bcast.fence comes with rob_bcast.flush, Rob.cpp:440-470,
    BackTop.cpp:341-352, and that with a redirection, rv_simu_mmu_v2.cpp:1120-1190). *)
Definition iop_ok (i : iop) : Prop := io_va i <> None -> io_flush i = false /\ io_cancel i = false.
(** The CSRs with the requests of a cycle; privilege modes are two-bit fields. *)
Definition csr_in (i : uin) (c : client) : option csrs :=
  match c with Itlb => match io_va (ui_i i) with Some _ => Some (io_csr (ui_i i)) | None => None end
             | Dtlb => match ui_d i with DPorts s _ _ => Some s | _ => None end end.
Definition ctx_of (c : csrs) : ctx := mkctx (s_priv c) (s_sum c) (s_mxr c) (s_mprv c) (s_mpp c).
Definition csrs_ok (c : csrs) : Prop := 0 <= s_satp c < 2 ^ 32 /\ 0 <= s_priv c < 4 /\ 0 <= s_mpp c < 4.
(** What the adapter of a client shows at the start of a cycle is the state of the
    walker (sync_ptw_port_outputs, MemSubsystem.cpp:340-380, 1207). *)
Definition start (u : usys) (c : client) : comb := comb0 (u_t u c) (wready (v_p (u_v u)) c) (c_resp (pw_c (v_p (u_v u)) c)).
Definition result (u : usys) (i : uin) (c : client) : comb * list pout :=
  match c with Itlb => icycle (ui_i i) (u_t u Itlb) (start u Itlb) | Dtlb => dcycle (ui_d i) (u_t u Dtlb) (start u Dtlb) end.
Definition drive (b : comb) : pin := mkpi None false (b_req b) (b_take b).
Definition vin_of (u : usys) (i : uin) : vin :=
  mkvi (ui_lsu i) (ui_ic i) (fun c => drive (fst (result u i c))) (fun c => b_kill (fst (result u i c))).
Definition clocked (u : usys) (i : uin) : client -> tlb :=
  let d := tseq (u_t u Dtlb) (fst (result u i Dtlb)) in let j := tseq (u_t u Itlb) (fst (result u i Itlb)) in
  fun c => match c with Dtlb => d | Itlb => j end.
Inductive ucycle (u : usys) (i : uin) : usys -> Prop :=
| ucycle_intro : forall p1 ro g m',
    iop_ok (ui_i i) -> (forall c s, csr_in i c = Some s -> csrs_ok s) -> p1 = comb_begin (vi_port (vin_of u i)) (v_p (u_v u)) ->
    mcycle (v_m (u_v u)) (asks p1 (vin_of u i)) ro g m' ->
    ucycle u i (mku (mkv m' (pseq (vi_flush (vin_of u i)) (comb_finish g (ro_ev ro) (ro_wake ro) p1)))
                    (clocked u i)).
(** Runs, with the cycles so far, the newest first. *)
Inductive ureach (m0 : Z -> Z) : list (usys * uin) -> usys -> Prop :=
| ureach0 : ureach m0 [] (usys0 m0)
| ureachS : forall tr u i u', ureach m0 tr u -> ucycle u i u' -> ureach m0 ((u, i) :: tr) u'.

(** Requests of a cycle and the answers given in it: the instruction side has one port,
    the data side load ports followed by store ports. *)
Inductive answered (u : usys) (i : uin) : client -> access -> Z -> csrs -> pout -> Prop :=
| answered_fetch : forall va r, io_va (ui_i i) = Some va -> nth_error (snd (result u i Itlb)) 0 = Some r ->
    answered u i Itlb Fetch va (io_csr (ui_i i)) r
| answered_load : forall c lds sts n va r, ui_d i = DPorts c lds sts -> nth_error lds n = Some (Some va) ->
    nth_error (snd (result u i Dtlb)) n = Some r -> answered u i Dtlb Read va c r
| answered_store : forall c lds sts n va r, ui_d i = DPorts c lds sts -> nth_error sts n = Some (Some va) ->
    nth_error (snd (result u i Dtlb)) (length lds + n) = Some r -> answered u i Dtlb Write va c r.
(** The cycles since the last flush of a TLB. *)
Definition flushes (c : client) (i : uin) : bool :=
  match c with Itlb => io_flush (ui_i i) | Dtlb => match ui_d i with DFlush => true | _ => false end end.
Fixpoint since_flush (c : client) (tr : list (usys * uin)) : list (usys * uin) :=
  match tr with [] => [] | (u, i) :: t => if flushes c i then [] else (u, i) :: since_flush c t end.
(** [d] is the word at the physical address [a] as the program saw it at some point
    since the last flush of [c] (or earlier, if the line was being fetched then: C49). *)
Definition seen (m0 : Z -> Z) (tr : list (usys * uin)) (u : usys) (c : client) (a d : Z) : Prop :=
  exists z i, In (z, i) (since_flush c tr) /\ word_since m0 (v_m (u_v z)) (v_m (u_v u)) (w32 a) d.
(** [satp] was in use in a request of [c] since the last flush. *)
Definition used (tr : list (usys * uin)) (c : client) (satp : Z) : Prop :=
  exists z i s, In (z, i) (since_flush c tr) /\ csr_in i c = Some s /\ s_satp s = satp.

(** An answer agrees with a translation: addresses have 32 bits. *)
Definition agrees (r : pout) (t : option Z) : Prop :=
  match t with Some a => po_result r = 0 /\ po_pa r = w32 a | None => po_result r = 1 end.
Definition global (o : outcome) : Prop := match o with Leaf p _ => pG p = true | Fault => False end.
(** Everything seen since the last flush of [c], at the two places where a walk of
    [satp] for [va] over the words [f] looks, was [f]. *)
Definition tables (m0 : Z -> Z) (tr : list (usys * uin)) (u : usys) (c : client) (f : Z -> Z) (satp va : Z) : Prop :=
  forall a d, a = pte1_addr satp va \/ a = pte0_addr (f (pte1_addr satp va)) va -> seen m0 tr u c a d -> w32 d = w32 (f a).
(** Software's side of ASIDs and the global bit: an entry made under [s] that may be
    used under [satp] is what a walk under [satp] would find. *)
Definition consistent (f : Z -> Z) (satp va s : Z) : Prop :=
  asid s = asid satp \/ global (walk f s va) -> same_outcome (walk f s va) (walk f satp va).
