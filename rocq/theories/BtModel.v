(** The order in which BackTop::comb (back-end/BackTop.cpp:211-392) and
    BackTop::seq evaluate the back-end's functions, and for each function the
    connections it reads and drives.

    A connection is named as the member of BackTop that carries it.  The fields
    of one IO record are one connection, except where functions drive them at
    different points (rob2dis, dis2rob, ren2dis, rob_commit).  A payload that is
    only read under its valid bit goes with the valid bit; a function that
    drives only some fields, or drives under a condition, is listed as also
    reading the connection.  [m.reg] is the registered state of module [m],
    [m.next] the copy its comb functions prepare (copied by comb_begin, taken over by
    seq), [m.tmp] file-static or member temporaries.  RealLsu keeps [nxt] equal
    to [cur] between cycles instead of copying at the beginning.
    Statistics and debug prints are left out. *)
From Verif Require Import Base.
From Coq Require Export String.
Local Open Scope string_scope.

Record fn := Fn { f_mod : string; f_name : string; f_rd : list string; f_wr : list string }.

Definition comb_fns : list fn := [
  (* PreIduQueue.cpp:83-111, Idu.cpp:37, Ren.cpp:80, Dispatch.cpp:58, Isu.cpp:94, Prf.cpp:77,
     Exu.cpp:150-207, Rob.cpp:84, Csr.cpp:56 *)
  Fn "pre" "comb_begin" ["pre.reg"] ["pre.next"; "pre.tmp"; "pre_issue"; "pre2front"];
  Fn "idu" "comb_begin" ["idu.reg"] ["idu.next"];
  Fn "ren" "comb_begin" ["ren.reg"] ["ren.next"];
  Fn "dis" "comb_begin" ["dis.reg"] ["dis.next"];
  Fn "isu" "comb_begin" ["isu.reg"] ["isu.next"];
  Fn "prf" "comb_begin" ["prf.reg"] ["prf.next"];
  Fn "exu" "comb_begin" ["exu.reg"]
     ["exu.next"; "exe2csr"; "exe2prf"; "exu2rob"; "exe2iss"; "exe2lsu"; "exu2id"; "exu2fu"; "fu2exu"];
  Fn "rob" "comb_begin" ["rob.reg"] ["rob.next"];
  Fn "csr" "comb_begin" ["csr.reg"] ["csr.next"];
  (* BackTop.cpp:271-281 *)
  Fn "pre" "comb_accept_front" ["front2pre"; "idu.reg"; "rob_bcast"; "pre.reg"; "pre.next"; "pre.tmp"; "pre2front"]
     ["pre2front"; "pre.next"; "pre.tmp"];
  Fn "idu" "comb_decode" ["pre_issue"; "idu.reg"] ["dec2ren"; "idu.tmp"];
  Fn "csr" "comb_interrupt" ["csr.reg"] ["csr2rob"];
  Fn "ren" "comb_alloc" ["ren.reg"] ["ren2dis.valid"; "ren.tmp"];
  Fn "prf" "comb_complete" [] [];
  Fn "prf" "comb_awake" ["prf.reg"; "dec_bcast"] ["prf_awake"];
  Fn "prf" "comb_write" ["prf.reg"; "prf.next"] ["prf.next"];
  Fn "isu" "comb_ready" ["isu.next"] ["iss2dis"];
  Fn "lsu" "comb_cal" ["lsu.reg"] ["lsu.tmp"];
  Fn "lsu" "comb_lsu2dis" ["lsu.reg"; "lsu.tmp"] ["lsu2dis"];
  Fn "lsu" "comb_lsu2rob" ["lsu.reg"] ["lsu2rob"];
  (* l.283 *)
  Fn "idu" "comb_branch" ["idu.reg"] ["dec_bcast"];
  (* l.285-290 *)
  Fn "rob" "comb_ready" ["rob.reg"; "lsu2rob"] ["rob2dis.status"; "rob2csr"];
  Fn "rob" "comb_ftq_pc_req" ["rob.reg"] ["ftq_rob_pc_req"];
  Fn "pre" "comb_ftq_lookup_rob" ["ftq_rob_pc_req"; "pre.reg"] ["ftq_rob_pc_resp"];
  Fn "rob" "comb_commit" ["rob.reg"; "rob.next"; "csr2rob"; "dec_bcast"; "front_stall"; "ftq_rob_pc_resp"; "lsu2rob"; "rob2csr"]
     ["rob_bcast"; "rob2csr"; "rob_commit"; "rob_commit.diag"; "rob2dis.enq"; "rob.next"];
  Fn "pre" "comb_commit_info" ["rob_commit"; "pre.reg"] ["ftq_commit_info"];
  Fn "lsu" "comb_stq_commit" ["rob_commit"; "rob_bcast"; "lsu.reg"; "lsu.next"] ["lsu.next"];
  (* l.292-298 *)
  Fn "dis" "comb_alloc" ["dis.reg"; "rob2dis.enq"; "lsu2dis"; "dec_bcast"] ["dis.tmp"; "dis2rob.valid"; "dis2rob.uop"; "dis2lsu"];
  Fn "lsu" "comb_mmio_in" ["peripheral_resp"; "lsu.reg"; "lsu.next"] ["lsu.next"];
  Fn "lsu" "comb_dcache2lsu_ldq" ["dcache2lsu"; "lsu.reg"; "lsu.next"] ["lsu.next"];
  Fn "lsu" "comb_dcache2lsu_stq" ["dcache2lsu"; "lsu.reg"; "lsu.next"] ["lsu.next"];
  Fn "lsu" "comb_lsu2exe" ["lsu.reg"; "lsu.next"] ["lsu2exe"; "lsu.next"];
  Fn "exu" "comb_to_csr" ["rob_bcast"; "dec_bcast"; "exu.reg"; "exe2csr"] ["exe2csr"];
  Fn "csr" "comb_csr_read" ["exe2csr"; "csr.reg"] ["csr2exe"];
  (* l.300-301 *)
  Fn "exu" "comb_exec" ["rob_bcast"; "dec_bcast"; "exu.reg"; "exu.next"; "exu2fu"; "fu2exu"; "lsu2exe"; "csr2exe"; "exe2csr";
                        "exe2prf"; "exu2rob"; "exe2lsu"; "exu2id"]
     ["exu2fu"; "fu2exu"; "exe2prf"; "exu2rob"; "exe2lsu"; "exu2id"; "exu.next"];
  Fn "rob" "comb_complete" ["exu2rob"; "rob.reg"; "rob.next"] ["rob.next"];
  (* l.303-310 *)
  Fn "exu" "comb_ready" ["rob_bcast"; "exu.reg"; "exu.next"; "fu2exu"; "exe2iss"] ["exe2iss"];
  Fn "isu" "comb_issue" ["exe2iss"; "dec_bcast"; "rob_bcast"; "isu.reg"; "isu.next"] ["iss2prf"; "isu.next"];
  Fn "lsu" "comb_exe2lsu" ["exe2lsu"; "lsu.reg"; "lsu.next"] ["lsu.next"];
  Fn "lsu" "comb_tlb_out" ["csr_status"; "lsu.reg"; "lsu.next"] ["lsu2mmu"; "lsu.next"];
  Fn "BackTop" "comb_lsu_mmu" ["rob_bcast"; "dec_bcast"; "lsu2mmu"; "dtlb.reg"; "dtlb.next"] ["mmu2lsu"; "dtlb.next"];
  Fn "lsu" "comb_tlb_in_ldq" ["mmu2lsu"; "lsu.reg"; "lsu.next"] ["lsu.next"];
  Fn "lsu" "comb_tlb_in_stq" ["mmu2lsu"; "lsu.reg"; "lsu.next"] ["lsu.next"];
  Fn "lsu" "comb_stlf" ["rob_bcast"; "lsu.reg"; "lsu.next"] ["lsu.next"];
  (* l.312-314 *)
  Fn "prf" "comb_req_ftq" ["iss2prf"] ["ftq_prf_pc_req"];
  Fn "pre" "comb_ftq_lookup_prf" ["ftq_prf_pc_req"; "pre.reg"] ["ftq_prf_pc_resp"];
  Fn "prf" "comb_read" ["iss2prf"; "ftq_prf_pc_resp"; "exe2prf"; "prf.reg"] ["prf2exe"];
  (* l.317-322 *)
  Fn "isu" "comb_awake" ["prf_awake"; "iss2prf"; "isu.reg"; "isu.next"] ["iss_awake"; "isu.next"];
  Fn "isu" "comb_calc_latency_next" ["iss2prf"; "isu.reg"; "isu.next"] ["isu.next"];
  Fn "csr" "comb_exception" ["rob_bcast"; "rob2csr"; "csr.reg"; "csr.next"] ["csr.next"; "csr2front"];
  Fn "csr" "comb_csr_write" ["exe2csr"; "rob2csr"; "csr.reg"; "csr.next"] ["csr.next"];
  Fn "dis" "comb_wake" ["prf_awake"; "iss_awake"; "dis.reg"; "dis.tmp"; "dis2rob.valid"] ["dis.tmp"];
  Fn "ren" "comb_rename" ["ren.reg"; "ren.tmp"] ["ren2dis.uop"];
  (* l.324: the loop stops at the first instruction that does not fit, and
     dispatch_success_flags / dispatch_cache keep what they held beyond it *)
  Fn "dis" "comb_dispatch" ["iss2dis"; "dis.reg"; "dis.tmp"; "dis2rob.uop"; "dis.flags"] ["dis2iss"; "dis2rob.uop"; "dis.flags"];
  (* l.326-362; out.stall is driven, and read (rv_simu_mmu_v2.cpp:1099-1128), only without a flush *)
  Fn "BackTop" "comb_outputs" ["rob_bcast"; "dec_bcast"; "pre2front"; "idu.reg"; "csr2front"; "rob_commit"; "rob_commit.diag"]
     ["out.redirect"; "out.commit"; "rob_commit.diag"];
  (* l.364-380 *)
  Fn "dis" "comb_fire" ["dis2rob.valid"; "dis.flags"; "dis.reg"; "dis.next"; "dis.tmp"; "rob2dis.status"; "rob2dis.enq"; "rob_bcast"; "dec_bcast";
                        "iss_awake"; "prf_awake"; "iss2dis"; "lsu2dis"; "dis2iss"; "dis2rob.uop"; "dis2lsu"]
     ["dis2rob.fire"; "dis2ren"; "dis2iss"; "dis2lsu"; "dis.next"];
  Fn "lsu" "comb_dis2lsu" ["dis2lsu"; "lsu.next"] ["lsu.next"];
  Fn "ren" "comb_fire" ["dis2ren"; "ren2dis.valid"; "ren2dis.uop"; "dec_bcast"; "rob_bcast"; "rob_commit"; "ren.reg"; "ren.next"]
     ["ren2dec"; "ren.next"; "ren.tmp"];
  Fn "idu" "comb_fire" ["exu2id"; "ren2dec"; "rob_bcast"; "dec2ren"; "idu.reg"; "idu.next"; "idu.tmp"] ["idu_consume"; "idu.next"];
  Fn "lsu" "comb_flush" ["rob_bcast"; "dec_bcast"; "lsu.reg"; "lsu.next"] ["lsu.next"];
  Fn "lsu" "comb_lsu2dcache_ldq" ["lsu.reg"; "lsu.next"] ["lsu2dcache.load"; "lsu.next"];
  Fn "lsu" "comb_lsu2dcache_stq" ["lsu.reg"; "lsu.next"] ["lsu2dcache.store"; "lsu.next"];
  Fn "lsu" "comb_mmio_out" ["peripheral_resp"; "lsu.reg"; "lsu.next"] ["peripheral_req"; "lsu.next"];
  Fn "lsu" "comb_check" ["lsu.reg"; "lsu.next"] [];
  Fn "isu" "comb_enq" ["dis2iss"; "iss_awake"; "isu.reg"; "isu.next"] ["isu.next"];
  Fn "rob" "comb_branch" ["dec_bcast"; "rob_bcast"; "rob.reg"; "rob.next"] ["rob.next"];
  Fn "rob" "comb_fire" ["dis2rob.fire"; "dis2rob.uop"; "rob2dis.status"; "rob.reg"; "rob.next"] ["rob.next"];
  Fn "rob" "comb_flush" ["rob_bcast"; "rob.next"] ["rob.next"];
  Fn "isu" "comb_flush" ["rob_bcast"; "dec_bcast"; "isu.reg"; "isu.next"] ["isu.next"];
  (* l.382-387 *)
  Fn "pre" "comb_fire" ["idu_consume"; "idu.reg"; "rob_bcast"; "rob_commit"; "pre.reg"; "pre.next"; "pre.tmp"] ["pre.next"];
  Fn "prf" "comb_pipeline" ["exe2prf"; "dec_bcast"; "rob_bcast"; "prf.next"] ["prf.next"];
  Fn "exu" "comb_pipeline" ["prf2exe"; "dec_bcast"; "rob_bcast"; "fu2exu"; "exu.reg"; "exu.next"] ["exu.next"];
  Fn "dis" "comb_pipeline" ["ren2dis.valid"; "ren2dis.uop"; "dis2ren"; "dis2rob.fire"; "rob_bcast"; "dec_bcast"; "dis.reg"; "dis.next"; "dis.tmp"] ["dis.next"];
  Fn "ren" "comb_pipeline" ["dec2ren"; "ren2dec"; "rob_bcast"; "dec_bcast"; "ren.reg"; "ren.next"; "ren.tmp"] ["ren.next"];
  Fn "csr" "comb_interrupt_inject" ["interrupt_inject"; "csr.next"] ["csr.next"]
].

(** BackTop::seq, BackTop.cpp:394-411 *)
Definition mods : list string := ["pre"; "ren"; "dis"; "idu"; "isu"; "exu"; "prf"; "rob"; "csr"; "dtlb"; "lsu"].
Definition seq_fns : list fn :=
  map (fun m => Fn m "seq" ((m ++ ".next") :: if m =? "csr" then ["interrupt_inject"; "csr.next"] else []) [m ++ ".reg"]) mods.
Definition back_fns : list fn := (comb_fns ++ seq_fns)%list.

(** What comes from outside in a cycle. *)
Definition inputs : list string :=
  ["front2pre"; "front_stall"; "csr_status"; "peripheral_resp"; "dcache2lsu"; "interrupt_inject"].
(** Registers (RealLsu and the TLB work on [nxt], which holds [cur] between cycles). *)
Definition registers : list string := (map (fun m => String.append m ".reg") mods ++ ["lsu.next"; "dtlb.next"])%list.
(** What a cycle reads although the cycle before left it there. *)
Definition carried : list string := ["rob_bcast"; "dec_bcast"; "dis.flags"].
(** What the rest of the simulator sees. *)
Definition outputs : list string :=
  ["pre2front"; "out.redirect"; "out.commit"; "ftq_commit_info"; "lsu2dcache.load"; "lsu2dcache.store"; "peripheral_req"].
