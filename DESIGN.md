# Formal model of the simulator: design

Subject: the RV32 out-of-order, cycle-level simulator in `/repo` (C++).
Tool: Rocq/Coq 8.16.1, standard library only.  The code is read as text; it is
never built or run.  The only tie between model and code is the reading, so
every definition cites the file and lines it models.

## Conventions

* Machine words are `Z` with explicit `mod 2^n` wrap (`theories/Base.v`).
  Array indices are `nat` or `Z`; arrays are lists (bounds visible) or total
  functions with point update.
* Each simulator module has `comb_*` functions that compute next-state copies
  (`*_1`) and a `seq()` that installs them.  A model step is one whole cycle:
  the `comb_*` functions of that module in the order `BackTop::comb` calls
  them, followed by `seq`.
* Undefined behaviour and `Assert` failures are distinct outcomes (`option` /
  error constructors), never silently totalised.  `Assert` is compiled out in
  release builds (`back-end/include/util.h:44`, `Makefile` `-DNDEBUG`), so a
  property must not rest on an assert stopping the program.
* Per module: `XModel.v` (executable model), `XSpec.v` (small independent
  specification) where the specification is not a one-liner, `XProofs.v`
  (lemmas), `XProps.v` (only the property theorems, closed by `exact`, with
  `Print Assumptions` and a non-vacuity `Example`).

## Plan per property

| id | modelled | method |
|----|----------|--------|
| C01 | Ren: free-list ring, spec/arch RAT, checkpoints; one step per cycle | invariant by induction over cycles; ghost list of in-flight instructions as the abstract state |
| C02 | same | refinement: concrete RAT = replay of the abstract in-flight list; recovery theorems as corollaries |
| C03 | Rob pointers, flags, valid bits | refinement to a list of groups (append / drop / truncate) |
| C04 | Rob::comb_commit on one head line plus comb_complete | decision theorem for all head lines and inputs |
| C05 | Rob::comb_commit | expected `_refuted` (forward-progress fallback ignores the fence gate); theorem for FENCE.I / SFENCE.VMA |
| C06 | Idu tag vector, now_br_mask, br_mask_cp | refinement to an ordered list of unresolved branches |
| C07 | InstructionBuffer ring | refinement to a bounded list queue |
| C08 | FTQ ring | refinement to a list queue with absolute block numbers |
| C09 | IssueQueue slots, wakeup, schedule, commit_issue | invariant + per-step theorems; multi-step "issued at most once" over histories |
| C10 | IssueQueue flush_br/clear_br; FixedLatencyFU / IterativeFU flush | set equality of surviving entries |
| C11 | AbstractFU flush with C++ integer promotion | expected `_refuted`; positive theorem for the branch-mask path |
| C12 | AluUnit::impl_compute | equality with independent ISA functions written from the manual; UB outcome for rotate by 0 |
| C13 | MulUnit / DivUnit | equality with Z arithmetic specification |
| C14 | BruUnit | equality with ISA next-PC |
| C15 | immediates of RISCV.h | bit-level equality with field concatenation |
| C16 | cmp_inst_age + arbitration loop of Exu | fold over ports returns the minimum of the ring order |
| C17 | Csr state, write, trap, return, interrupt injection | invariant over op sequences |
| C18 | Csr::comb_exception | trap;return composition theorem |
| C19 | Csr::comb_interrupt / comb_exception | iff against specification; causes/vectors expected `_refuted` in part |
| C20 | csr_we latch across cycles | expected `_refuted` with a concrete schedule; positive theorem without squash |
| C21 | RealLsu STQ entries, check_stlf, comb_stlf, extract_data | refinement: byte memory with older stores applied |
| C22 | same with suppress_write | expected `_refuted` |
| C23 | MemUtils + apply_strobe | bit-level equality with a byte-map specification |
| C24 | STQ ring of RealLsu | refinement to a list with committed prefix |
| C25 | request-id helpers and slot generation; answers of the data cache over runs of the LSU | round trip + uniqueness; invariant: the requests of the last cycle are those of the loads that wait (c56_lsu_load_answered answers all of them in this cycle), so every answer meets its load |
| C26 | DcacheConfig decode/get_addr/PLRU | round trip; PLRU theorem for all tree states |
| C27 | MSHR inside the whole cache tick | invariant over all ticks; data refinement |
| C28 | WriteBuffer inside the whole cache tick | same invariant |
| C29 | PtwWalker state machine | termination + equality with recursive Sv32 spec for every response delay |
| C30 | TlbMmuKernel core | equality with the privileged-spec permission predicate and address composition |
| C31 | TlbMmuKernel encode/decode | generic bit-cursor round-trip |
| C32 | PhysMemory | refinement to a total map |
| C33 | PeripheralModel timer | 64-bit modular theorem |
| C34 | PeripheralModel DMA | byte-map memmove |
| C35 | RefCpu::va2pa vs walker+TLB kernel | equality outside / refuted on S-mode fetch from user superpage |
| C36 | RefCpu::RV32CSR vs Csr | equality per CSR; expected `_refuted` for mip/sip |
| C37 | RefCpu::store_data / LR path | expected `_refuted` |
| C38 | front-end FIFOs | refinement to list queues |
| C39 | predecode, predecode_checker | functional specification |
| C40 | Dispatch comb_dispatch/comb_fire | prefix/atomicity theorem |
| C41 | Prf read bypass | priority theorem |
| C42 | Isu latency pipe | expected `_refuted` on collision; positive for collision-free schedules |
| C43 | address/data micro-ops of Exu (load, STA, STD, AMO, LR/SC) | equality with ISA effective address and data |
| C44 | FixedLatencyFU / IterativeFU / port arbitration over cycles | history invariant: issued = delivered + held + squashed |
| C45 | Csr privilege register over op sequences | event theorem; user escalation `_refuted` |
| C46 | PhysMemory + PeripheralModel over event sequences | refinement to an abstract byte-level device |
| C47 | same, narrow accesses to registers | expected `_refuted` |
| C48 | lsu_is_mmio_addr vs is_modeled_mmio | exact difference set |
| C49 | RealDcache, MSHR, WriteBuffer, response latch, memory | invariant: every place holding a line agrees with the acknowledged stores; held-fill case `_refuted` |
| C50 | same, one main tick + n fast ticks | window invariant over the response latch |
| C51 | same | corollary of the invariant |
| C52 | icache_module, icache tables, ICacheTop glue | invariant over cycles with the outstanding reads and probes as ghost state; the legitimacy of a word is a parameter |
| C53 | same | ids in flight = outstanding reads |
| C54 | same | decreasing rank; the bound counts the cycles the surroundings hold the request up |
| C55 | same | the invariant holds for any new notion of legitimacy after the fence |
| C56 | MemRouteBlock on the data cache | two-cycle window over request and published answer |
| C57 | same | same; lost wake-up with several readers `_refuted` |
| C58 | instruction cache + MemRouteBlock + data cache + memory | composite invariant discharging the probe assumptions; coherence after fence.i `_refuted` |
| C59 | RefCpu exec/RISCV/RV32IM/RV32A vs a small machine, and vs the core's units | simulation step by step; word-level equality of the two decoders' results |
| C60 | RefCpu::exception/RISCV vs Csr::comb_exception | one equality over any matching event, then each event through exec; four `_refuted` cases |
| C61 | PeripheralAxi alone; behind the LSU's uncached unit | history invariant (taken, bus, answers); composite invariant by phase of the operation; bus loads `_refuted` |
| C62 | BPU.h histories, return stacks, next address | register contents as functions of the committed/predicted branches, by induction over cycles; what a redirection loses `_refuted` |
| C63 | BPU.h update queues, with the ROB's front_stall | one FIFO per bank against the committed instructions; room by the stall; waiting time |
| C64 | TAGE_top.h: one direction predictor bank | each cell's next value against the training; a potential that falls with each lesson; the empty entries, the correctors and the loop predictor `_refuted` |
| C65 | TypePredictor.h | per set a function of the cycles that touched it; what a same-cycle update loses and a last word ignored `_refuted` |
| C66 | BTB_top.h: one target predictor bank | the associative tables refine a memory of latest writes; indirect jumps through both caches; the fall-back address, the history that never forgets and alternating targets `_refuted` |
| C67 | BPU.h with TypePredictor.h and the four banks of BTB_top.h | composition of C62, C63, C65 and C66 over whole executions; the first taken time `_refuted` |
| C68 | FPU.h (FPUSoftfloat) with decode, against RISC-V and `ref.cpp` | field arithmetic and case analysis over the encodings; the words that abort exactly; formats, reserved rounding and fused operations `_refuted` |
| C69 | fadd.h and fmul.h (gate netlists), FPURtl | a sound run of the gates on partly unknown inputs, and on pairs of inputs, evaluated inside Coq with case splits; flags and the dynamic rounding mode `_refuted` |
| C70 | RealLsu.cpp comb_flush within the whole cycle | case analysis per slot; the store ring through C24's invariant |
| C71 | the lock-step check: difftest_prepare, run_difftest_inst, checkregs, sync and step of diff.cpp | the verdict is an iff against a comparison specification; induction over commits, joined with C59; what is not compared `_refuted` |
| C72 | Ren and Prf in one cycle with the instructions between them: operand reads, write-back, retirement, difftest_prepare, get_reg | simulation of the machine without renaming: invariant over renaming reachability (C01/C02) and register values, for any schedule that keeps `OooSpec.cycle_with`; load to x0 `_refuted` |
| C73 | front end (C38), `SimCpu::front_cycle` hand-off and PreIduQueue (C07) in one cycle | invariant over both reachabilities relating accepted instructions to delivered blocks; walk over a block; misaligned line end `_refuted` |
| C74 | commit broadcast of `Rob::comb_commit` into `comb_stq_commit`, dispatch of stores into both queues, store reports of the LSU into the ROB | invariant over both runs: stores of the ROB = uncommitted part of the store queue; every index in a store address queue has a live entry; interrupt on an unfinished store `_refuted` |
| C75 | load queue, its four index queues and the uncached unit over runs of the LSU | location function: every executed load in exactly one valid slot of the queue its state calls for; phase lemmas for each comb function; cycle theorem for reports, squash and dispatch |
| C76 | loads against the store queue, the committed stores and the data cache, over runs of the LSU | every store position is followed from queue slot to history (`trk`); the source of a load's value (`src`) is carried from the comparison or the cache answer to the moment all older stores are committed, then shown to be the program-order value |
| C77 | ROB, load queue and store queue in one cycle: dispatch of loads into both, load reports into the ROB, commit | joint invariant `KI` (LcProofs.v): C74's run plus the place of every load; discharges the commit, squash and position assumptions of C75/C76; trace of committed operations by induction over cycles |
| C78 | evaluation order of `BackTop::comb`/`seq`: table of functions with reads and writes (BtModel) | any behaviour respecting the table; read-before-driven and driven-after-read checks computed on the table, lifted to all behaviours by induction over the order; necessity of the carried connections by a marking behaviour |
| C79 | `BackTop::comb` redirect (l.326-351), `Rob::comb_ftq_pc_req` joined with RobModel broadcast and CsrModel redirect | case analysis over C04 causes, reuse of C18/C19; `_partial` where those are |
| C80 | `RobModel`, `BrArbModel`, `Idu::comb_branch`/`comb_fire` (br_latch, l.183-219), fetch point of `BackTop.cpp:326-351`, joined | invariant over runs: each neighbour pair in flight is architectural, unresolved, or at or behind the latched redirect |
| C81 | `OooModel` (C72), `LcModel` (C77), `CpModel` (C80), `ExecModel` (C12-C14, C43) and `RefSpec`/`RefModel` (C59), joined at the logs of committed instructions | induction over the stretch; one lemma per instruction class |
| C82 | `AxModel` (boundary functions of `rv_simu_mmu_v2.cpp`), `AxSpec` (interconnect as a response queue) | boundary: induction over the ticks; queue: invariants `honest` and conservation of arrivals over cycles; provisos shown necessary by refutations |
| C83 | `PbModel` (bridge and registered bus), `DcModel`, `IcModel` | local case analysis for three masters; joint invariant of bridge and bus; refutations by run |

## Trusted base

* The Coq 8.16.1 kernel (`vm_compute` is used for the concrete `Example`s and
  for some `_refuted` witnesses; `native_compute` is not used).
* Axioms: every property theorem prints "Closed under the global context" under
  `Print Assumptions` (each `*Props.v` ends with these commands, one per
  theorem).  No file declares an axiom, parameter, section-less variable or
  hypothesis, and no kernel check is switched off.
  A whole-library `coqchk` also lists the `Under_rel` parameters of
  `Coq.ssr.ssrunder`: they come with the standard library's ssreflect files,
  loaded through `Lia`/`ZArith`, and no theorem here depends on them.
* The reading of the C++: nothing links model and code but the reader.  Each
  definition names the file and lines it stands for.
* The configuration: where a number matters it is the quick-check profile of
  `config.h` (decode/commit 2, fetch 4, 64 physical registers, 16 branch tags,
  64 reorder-buffer entries, 16-entry load and store queues, two load and two
  store ports).  Most theorems are for any width; the comment at each section
  says so.
* The environment records (`traffic_ok`, `senv`, ...): a module theorem assumes
  what its neighbours do to it.  Each assumption is a field with a comment
  naming the code that ensures it, and each is shown satisfiable by an
  `Example` that runs the model.

## What is modelled, file by file

| model | code | abstraction |
|-------|------|-------------|
| Base, BaseLemmas | types and integer helpers | words are `Z` with explicit wrap |
| ExecModel, ExecIsa* | AluUnit, MulUnit, DivUnit, BruUnit, immediates (`RISCV.h`), address generation in Exu | shift by 32 is an explicit undefined outcome |
| Ren* | `Ren.cpp` free list, maps, checkpoints | checkpoint storage by branch tag; uop payload dropped |
| Rob* | `Rob.cpp` comb_ready/complete/commit/branch/fire/flush | uop payload reduced to the fields commit reads |
| Idu* | `Idu.cpp` branch tags, masks, prefix decode | decoded fields other than branch type are inputs |
| PreIdu*, Ring | `PreIduQueue.cpp` FTQ and instruction buffer | instruction payload abstract |
| Iq* | `IssueQueue.h`/`Isu.cpp` queue, wake matrix, select | payload abstract |
| Wake* | `Isu.cpp` delayed wake-up pipe | one port |
| Exu* | `Exu.cpp` units, flush, arbitration; `BrArb*` the misprediction arbiter | operand values abstract |
| Prf* | `Prf.cpp` read and bypass | |
| Csr* | `Csr.cpp` | counters are inputs |
| Disp* | `Dispatch.cpp` | payload reduced to the fields routed |
| Mem* | `MemUtils`, strobe helpers, `check_stlf`, request ids | |
| LsuModel, LsuStq, LsuQ, LsuRun, LsuHist, LsuCycle, LsuProps, LsuSquashProps | `RealLsu.cpp`, whole cycle: commit, MMIO in/out, cache in/out, port inputs, TLB responses, forwarding, allocation, flush, issue, retire | TLB and cache answers are inputs; perf counters and logs dropped; AMO reservation kept |
| FrontModel, FrontSpec, FrontProofs, FrontProps | `front-end/fifo/*.cpp`, `predecode.cpp`, `predecode_checker.cpp`, `front_top.cpp` (stages 1-9 without statistics), the fetch-address register of `BPU.h` | predictor answers and cache responses are inputs; predictor bookkeeping is one opaque value per slot; every `std::exit(1)` is an explicit outcome |
| PeriphModel, PeriphSpec, PeriphProofs, PeriphProps | `PhysMemory.cpp`, `PeripheralModel.h` | the null-pointer tests are dropped (pointers are bound at init); stdout and the RAM-sync hook are logs; `abort` is an explicit flag; time is an input |
| DcModel, DcSpec, DcLemmas, DcInv, DcStage, DcMiss, DcFill, DcTick, DcReach, DcLoad, DcRound, DcTrace, DcProps | `DcacheConfig.cpp`, `WriteBuffer.cpp`, `MSHR.cpp`, `RealDcache.cpp`, the tick and response latch of `MemSubsystem.cpp:775-976` | perf counters, dumps and request origin dropped; the AXI interconnect and memory are the environment |
| IcModel, IcSpec, IcProofs, IcInv, IcIdle, IcSwap, IcCall, IcReach, IcProg, IcProps | `icache_module.cpp`, `icache.cpp`, the glue of `ICacheTop.cpp`, the two calls per cycle of `front_top.cpp` | register packing is the identity and left out; lookup latency 0; translation, AXI port and data-cache probe answers are inputs |
| RtModel, RtSpec, RtDc, RtProofs, RtTrace, RtProps | `MemRouteBlock.cpp`, one CPU cycle of `MemSubsystem.cpp` (main tick and fast ticks) | perf counter and dump dropped |
| Sv32Spec, PtwModel, PtwSpec, PtwProofs, PtwMain, PtwTrace, PtwProps | `MemPtwBlock.h` (the shared walker), `PtwWalker.cpp`, their order in `MemSubsystem.cpp:1006-1121` | perf counters dropped; the packed state (netlist generator only) and nonzero replay codes (never produced) left out |
| TlbModel, TlbSpec, TlbProofs, TlbMain, TlbTrace, TlbProps | `TlbMmuKernel.h` core, lanes and top; `TlbMmu.cpp` table, registers, ports; both TLBs with the walker, routing block and data cache over whole CPU cycles | trace records dropped; paths taken without a walker port (never in the simulator) left out |
| TlbBits, TlbBitsProofs, TlbBitsMain, TlbBitsParts, TlbBitsProps | bit codecs of `TlbMmuKernel.h` and `TlbMmu.cpp`, packed calls, output mapper, small generators | a bit array with a cursor is a list; the two codecs (same fields, same order) are one definition; the wiring of the pieces (`wired`) is not in the repository |
| RefModel, RefSpec, RefExecProofs, RefStepProofs, RefVmProps, RefExecProps, RefCsrProps, RefTrapProps, RefDevProps | `diff/ref.cpp`, `diff/include/ref.h` | init, statistics flags and the oracle timer queue dropped; softfloat (external) is a record of functions; a failed Assert or exit is `Halt` |
| PaxModel, PaxSpec, PaxProofs, PaxComp, PaxProps | `MemSubSystem/PeripheralAxi.cpp`, `MemSubsystem.cpp:1123-1129`, with LsuModel and PeriphModel | pointers non-null as installed; req_id (always 0) dropped; the AXI interconnect is the environment |
| DiffModel, DiffSpec, DiffProofs, DiffProps | `difftest_prepare`, `run_difftest_inst` of `rv_simu_mmu_v2.cpp`; `checkregs`, `difftest_step`, `difftest_sync_from_dut` of `diff.cpp` | the reference behind the library interface is RefModel; its set_state is taken to install every field and keep memory and timer; what the core shows at a commit is an input |
| OooModel, OooSpec, OooProofs, OooProps | `Ren` and `Prf` joined (RenModel, PrfModel), `difftest_prepare` register read of `rv_simu_mmu_v2.cpp:786-791`, `BackTop::get_reg` | issue, units and ROB are the inputs of a cycle under `OooSpec.cycle_with`; an instruction is a function of two operands |
| SupModel, SupSpec, SupProofs, SupProps | `SimCpu::front_cycle` and the stall/redirect part of `SimCpu::cycle` and `BackTop::comb`, joining FrontModel and PreIduModel | cache and predictor answers under `FrontSpec.fenv`; ROB, branch unit and decode under `PreIduSpec.env_ok`; predictor metadata opaque |
| RlLsu, RlModel, RlProofs, RlProps | the wires of `BackTop::comb` between ROB, dispatch and LSU for stores, joining RobModel and LsuModel | `RlModel.jenv_of`: dispatch gives both queues the same stores with consecutive indices, branch masks mark exactly the younger stores, an SC shares its index with no load, integer and branch results are not reported for stores; interrupts gated except in the refutation |
| LdqInv, LdqPhase, LdqPhase2, LdqPhase3, LdqMain, LdqProps | nothing new: the load side of LsuModel over executions | `LdqMain.lenv`: every load request to the cache is answered in the next cycle on its port (what c56_lsu_load_answered proves of the memory subsystem), dispatch uses offered indices once, a load executes once in its entry, translations answer requests of the same cycle |
| LvStab, LvLoads, LvStores, LvMem, LvMain, LvProps | nothing new: the load and store side of LsuModel together | `senv`, `lenv` and `LvMain.oenv`: a load carries the position of the next store at dispatch; commit is in order (no store after an executed load commits before it reports or is gone); a store older than a load depends on no branch the load does not depend on; a hit answers with the memory of the acknowledged stores plus some of those in flight; no load is compared with an overlapping older store-conditional, uncached or suppressed store (C22 shows the first is needed) |
| LcSc, LcModel, LcProofs, LcProps | the wires of `BackTop::comb` between ROB, dispatch and LSU for loads, added to RlModel | `LcModel.kenv`: dispatch gives both queues the same loads, each with the place of the next store; requests carry what dispatch gave; a misprediction hits exactly the younger loads; load ports report what the LSU sends; cache answers and forwarding as in `oenv` |
| BtModel, BtProps | `BackTop.cpp` comb and seq: which function runs when and what it reads and drives | the table is read off the code by hand; an IO record is one connection except rob2dis, dis2rob, ren2dis, rob_commit; payloads go with their valid bits; statistics left out |
| ResModel, ResProps | `BackTop.cpp:326-351`, `Rob.cpp:158-173` | the fetch target queue is a function from instructions to addresses (contents: C08/C73) |
| CpModel, CpOrder, CpProps | `Idu.cpp:183-219` (br_latch), `Exu.cpp:561-602`, `Rob.cpp`, `Dispatch.cpp:98` joined | addresses, predictions and lap flags are functions of the field the reorder buffer copies; front end, issue and branch units are the inputs of a cycle, limited by the rules `penv` (each naming the property it comes from) |
| IrSpec, IrProps | join of the three logs above with `RefSpec` | the three runs are tied only at what they retire (`does`, `ran`): same instructions, units as in `ExecModel`, memory operations cached and not translated; traps, CSR instructions, fences, LR/SC and devices are outside the stretch; the fetched word is assumed to be in memory (`legal`; C58 is about stale lines) |
| AxModel, AxSpec, AxProofs, AxProps | `rv_simu_mmu_v2.cpp` l.46-69, 479-636, 696-723, order of l.1016-1090 | one port (the loops treat ports alone); addresses, sizes, strobes left out; the interconnect is any function on the port, or (AxSpec) a queue whose head leaves when ready meets valid in comb_outputs |
| PbModel, PbProps | `PeripheralAxi.cpp` behind the order of `SimCpu::cycle` | acceptance registered for one CPU cycle (MSHR.h:46-48); the bus accepts and answers when it likes |
| BpModel, BpSpec, BpProofs, BpMain, BpQueue, BpProps | `front-end/BPU/BPU.h` (own logic), `tage_ghr_update_comb`, `tage_fh_update_comb`, `back2front_comb` of `rv_simu_mmu_v2.cpp` | answers of the type, direction and target predictors are inputs; copied bookkeeping is one opaque value; the queue's assert is the result `None` |
| TageModel, TageSpec, TageProofs, TageProps, TageUseProps | `front-end/BPU/dir_predictor/TAGE_top.h` | registers no output depends on are dropped; the options of `BPU_configs.h` are fixed; what a training brings back is a hypothesis (`TageSpec.brings_back`) |
| TyModel, TySpec, TyProofs, TyProps, TyAgeProps | `front-end/BPU/type_predictor/TypePredictor.h` | options fixed as shipped |
| BtbModel, BtbSpec, BtbProofs, BtbProps, BtbIdxProps | `front-end/BPU/target_predictor/BTB_top.h` | latches and outputs that nothing reads are dropped; options fixed as shipped |
| BpcModel, BpcSpec, BpcProofs, BpcProps | the binding of these in `BPU.h:985-1068,1569-1650` | directions of the four TAGE banks are inputs |
| FxSpec, FxIc, FxProofs, FxTrace, FxProps | instruction cache + routing block + data cache, in the order of the main loop of `rv_simu_mmu_v2.cpp` | the instruction cache's reads sample main memory at cycle boundaries |
| FpuModel, FpuSpec, FpuProofs, FpuProps | `FPU.h:18-270` (FPUSoftfloat), the FP row of `Idu.cpp` | softfloat (external) is a record of functions; its exception flags, which nothing reads, are dropped |
| NetModel, NetAdd, NetMul, NetAbs, NetProofs, NetFast, NetAddChk, NetMulChk, NetAddProps, NetMulProps | `fadd.h`, `fmul.h`, `FPU.h:275-380` (FPURtl) | the 12298 and 9562 gates are transcribed by `tools/netlists.py`, which reads the headers as text and rejects any line that is not a gate, an input or an output |

## Assumptions of the data-cache theorems (`DcSpec.axi_ok`)

The AXI side accepts only the request presented, answers only accepted
requests, has performed a write when it answers it, returns read data equal to
memory, and memory changes nowhere but in the line of the accepted write.
So no other master writes memory: DMA into cached lines is outside the theorems.
Requests carry 32-bit addresses (`rq_ok`).  Nothing is assumed about latency or order of
answers.  `DcTrace.auto` is a memory satisfying all of it.

## Assumptions of the walker theorems (`PtwSpec`)

A client asks for a walk only when shown ready, or in a cycle in which it is
flushed (the adapter in `MemSubsystem.cpp:291-338`).  The liveness theorems also
assume that the TLBs do not use their own memory-read ports (`no_mem`), as is
the case in the simulator.  A walk reads each entry as C49 and C57 allow.

## Assumptions of the TLB theorems (`TlbSpec.ucycle`)

No translation is asked for on the instruction side in a cycle with a flush or a
redirection (`iop_ok`), and privilege and satp are words of their widths
(`csrs_ok`; `c30_status_fields` shows the fields come from mstatus so).  Everything
behind the TLBs is the composite of the walker theorems.  Equality with a fresh walk
(`c30_same_as_fresh_walk`) assumes what software owes: the tables it walks have not
changed since the last flush, and address-space numbers and the global bit are used
consistently.

## Assumptions of the instruction-cache theorems (`IcSpec.env_ok`)

A fetch is presented only when the glue says ready and not with a redirect; the
second call in a cycle (after a predecode correction) comes without redirect or
fence; physical page numbers have 20 bits; the interconnect accepts only the
read on offer (or the one offered a cycle earlier) and answers only accepted
reads; a probe is answered two cycles after it was presented.  `strict` adds
that the acceptance and the answer of a read are seen in different cycles
(`restore_axi_cpu_boundary_state`) and that every probe is answered.  What a
read or a probe may return is the parameter `P`.  For the composite of C58 the
probe assumptions are proved (`c58_probe_contract`), and `P` is `FxSpec.source`.

## Assumptions of the routing-block and composite theorems

`RtSpec.lsu_ok`: ids of the load/store unit's loads have the top bit clear
(`MemUtils.h`).  A CPU cycle has at least one fast tick.  `FxSpec.fenv` is
`IcSpec.env_ok` without the probe answers; a read answer has, word by word, a
value main memory had at the start of some cycle since the read was accepted.

## Assumptions of the front-end theorems (`FrontSpec.fenv`)

Redirection and predicted addresses are 32-bit words.  The instruction cache
answers its requests in order, at most one per cycle, each with a block for the
requested address, and forgets outstanding requests when the front end is reset
or redirected.  Nothing is assumed about predictions or instruction words.

## Assumptions of the load/store unit theorems (`LsuCycle.senv`)

The store commits that arrive are the oldest uncommitted entries in order;
allocation requests fit the advertised free count and carry the ring position
and flag that Dispatch computed (C40); store address and data ports name a
live entry; the cache answers only requests it was sent; a misprediction kills
only uncommitted entries; branch masks of younger entries contain those of
older ones (C06).  `LsuProps.c24_run_ex` runs twelve concrete cycles satisfying all
of them (checked by the boolean `senvb`).

## Findings: properties the code does not satisfy

Each is a `_refuted` theorem with a concrete witness, beside a theorem for
the part that does hold.

* C05 FENCE retires while committed stores are draining (fallback commit path).
* C11/C44 the units' flush comparison is never true after integer promotion, so
  a started division survives a flush and writes back.
* C12 `rol`/`ror`/`rori` by 0 shift a 32-bit value by 32 (undefined behaviour).
* C18 an exception in M-mode whose delegation bit is set enters S-mode;
  M-mode ecall with `medeleg[8]` reports cause 0.
* C19 undelegated supervisor interrupts are never requested; two priority pairs
  are inverted; exceptions use the vectored address.
* C20 a squashed CSR write is performed by a later read-only CSR instruction.
* C21 forwarding wraps at the top of the address space.
* C22 a younger load is forwarded the data of a failed store-conditional.
* C41 a load to x0 makes register zero read nonzero for one cycle.
* C42 an FP operation issued 13 cycles after a DIV overwrites its wake-up.
* C47 narrow accesses to timer and DMA registers act on the whole word.
* C48 the timer registers' inner bytes and most of the UART page are cacheable.
* C49 a load is answered with the old word of a line that waits in the fill
  register, although a store to it was acknowledged (write buffer full: the
  store merges into the register, the load is served from the miss register).
* C57 one register serves all waiting page-table readers: a second reader told to
  wait makes the block forget the first (only the walker reads in the shipped code).
* C58 after fence.i a fetch can return the old word: a store acknowledged while
  its line is in a miss register, or a probe of a dirty line turned away by a
  bank conflict, makes the instruction cache take main memory's line.
* C29 a pointer entry with a reserved bit (D, A, U) set is followed instead of
  faulting; table addresses are cut to 32 bits, so a root beyond 4 GiB is read
  from the low 4 GiB.
* C30 a mapping to a page beyond 4 GiB is used as one below: physical addresses are
  cut to 32 bits.
* C31 on a flush or cancellation the idle port outputs of the packed call carry
  trace source 7 and level 0 where the class's own call has 0 and 0xff (an
  initialiser list with one value too few); no access is answered there.
* C35 the reference lets supervisor mode fetch from a user superpage when SUM is
  set (the 4 KiB case is right); the core faults, and its fault is adopted.
* C36 the reference ignores csrrwi with immediate 0, writes mip unmasked without
  updating sip, loses writes to sip (l.930 compares an index with an address), and
  writes 0 on reserved funct3 values.
* C37 in the reference a load-reserved repeats the last device store (a printed
  byte is printed again) and a failed store-conditional acts on the device.
* C61 an MMIO load over the bus is read twice (`ready` rises one cycle before the
  answer, so the LSU asks again), and the next MMIO load can take the answer of the
  second read; likewise the answer of a load squashed by a flush.
* C62 the speculative branch history and return stack are overwritten by the
  committed ones at a redirection and at a mispredicted commit, although older
  branches are still to commit or newer ones are predicted; an indirect call
  (`jalr x1`) is not counted as a call but its return is as a return; the block at
  the top of the address space gets no prediction.  These cost only time.
* C64 predictor entries have no valid bit, so a never trained entry provides the
  prediction of a branch with tag 0; the multi-table corrector never decides; the
  loop predictor's fields are lost on the way to training, so one entry is trained
  with all branches; with them it predicts the exit one iteration early; a usefulness bit nobody touches
  stays for 2^23 trainings, as the reset clears one of its bits only then.  Time only.
* C65 two branches of one set committed in the same cycle: one is forgotten; a jump
  committed together with a non-branch 2 MiB away counts as the later of the two.
* C66 a branch predicted taken without target entry is fetched from pc/4+4, because
  the bank address is used where the instruction's is meant; the target history is a
  bijection, so it never forgets; a jump that alternates between two targets is
  mispredicted for ever; the history hash has rank 4, so one jump can use only 16 of
  the 64 sets of the target cache.  Time only.
* C68 fadd.d, fadd.h and so on are executed in single precision; an FP word the
  extension does not define (fmv.w.x, fcvt.l.s) stops the simulator with a failed
  assert instead of trapping, also in user mode.
* C69 (source only) the netlists truncate in the dynamic rounding mode, which the
  softfloat unit takes as nearest-even; the adder raises invalid for quiet NaNs and
  underflow for exact results, the multiplier division by zero on overflow.
* C60 a supervisor interrupt pending at an ecall: the reference takes the call, or
  reports cause 2^31+8; delegated illegal instructions go to machine mode in the
  reference; in vectored mode the core takes exceptions at an odd address; a fetch
  fault right after an ecall is reported as that ecall by the reference.
* C59 reserved encodings: a word with an unknown opcode is an illegal instruction
  in the core and a no-op in the reference, fused multiply-adds the reverse, and
  reserved funct7/funct3 give different results.
* C71 the lock-step check compares neither the privilege level nor the core's sip, nor
  a store where the reference has none, nor the width of a store with zero upper
  bytes; a page fault the core reports is believed whatever the page tables say; a
  resynchronisation (device access, interrupt) gives the reference a reservation from
  before the run, so `lr`, device load, `sc` stops a correct core; so does a fetch
  fault right after an access to mip or sip with the timer pending.
* C72 a load to x0 (C41) is architecturally visible: `lw x0` answering in the cycle
  before `add x1, x0, x0` reads makes x1 twice the loaded datum (`c72_load_x0_refuted`).
* C73 a jump to an address that is not a multiple of 4 in the last word of a line is
  followed by the next line, skipping up to three bytes (`c73_misaligned_refuted`).
* C74 an interrupt is taken although the oldest instruction is a store without
  address or translation; the ROB commits it and the assertion of the store queue
  ends the simulation (`c74_interrupt_on_unfinished_store`, `c74_interrupt_refuted`;
  Rob.cpp:216-303 looks only at `interrupt_req`, Csr.cpp:80-91 does not gate it,
  RealLsu.cpp:1043-1079).
* C45 `mret` and CSR accesses are not checked against the privilege.
* C83 the MMIO bridge leaves its request on the wires in the CPU cycle after its
  acceptance; an interconnect that accepts it again performs a store twice and
  answers the next load with the previous word (`c83_store_twice_refuted`,
  `c83_stale_load_refuted`; PeripheralAxi.cpp:83-99 against MSHR.cpp:248-254).
* C82 the clock boundary notes the acceptance of a write in an extra tick with the
  id of wires it has just cleared (`c82_write_id_refuted`, rv_simu_mmu_v2.cpp:539-540;
  harmless while the bridge uses id 0), and the instruction cache is ready for a
  response the boundary hides from it (`c82_icache_eager`, `c82_eager_refuted`).

## Not modelled

No theorem here covers, and no model definition stands for:

* in the TLBs: trace records, and
  `walk_and_refill`, `walk_and_refill_shared` (not reached in the simulator);
  `PtwCompactCoreKernel.h` and the packed functions of `MemPtwBlock.h` (netlist
  generator only);
* the parts of `MemSubsystem.cpp` outside the data-cache tick, the routing block,
  the walker and the peripheral bridge: statistics;
* the AXI interconnect kit (external) and its latencies; `axi_internal_tick` ready
  registers (rv_simu_mmu_v2.cpp:70-139), which live inside it;
* in the instruction cache: the register packing (`compact_io_generator`), the
  simple and ideal variants of `ICacheTop.cpp`, `c_itlbf` (TLB flush) handling;
* in the branch predictor: C62 and C63 take all predictor answers as inputs, C67 only
  those of the direction banks, which C64 treats alone; the optional variants that
  the configuration turns off;
* floating point: softfloat (external); nothing instantiates `FPURtl`, so C69 says
  nothing about a run of the simulator;
* `br_oracle.cpp`; in `diff.cpp` checkpoints and prints.  The modelled `ref.cpp` is source
  only: Makefile:84 leaves it out of the build and links `librefcpu.a`, which is
  not in the repository;
* `main.cpp`, the top-level loop of `rv_simu_mmu_v2.cpp`, ELF and image
  loading, checkpoint/SimPoint code, logging, tracing, performance counters.

## The seeded-fault log

`seeded/LOG.jsonl` has one line per wrong program tried: the definition changed,
the edit, what it breaks, and `failed`: the property theorems whose proofs stop
compiling on the changed model (directly or because a lemma they use fails).
An empty `failed` is a survivor; `tightened` names theorems added for it.
